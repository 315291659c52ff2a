(** Specification of what bash does with a text, restricted to what is needed here: unquoted words.
    Independent of the model. *)
From Coq Require Import Ascii.
From Verif Require Import Base.
Local Open Scope char_scope.
(** Characters which stand for themselves in an unquoted bash word. *)
Definition plain (c : Ascii.ascii) : bool :=
  let n := Ascii.N_of_ascii c in
  ((48 <=? n) && (n <=? 57) || (65 <=? n) && (n <=? 90) || (97 <=? n) && (n <=? 122))%N
  || bool_decide (c ∈ (["/"%char; "."%char; "_"%char; "-"%char; "+"%char; "="%char; ":"%char; "@"%char; "%"%char] : list Ascii.ascii)).
(** [reads_as s w]: bash reads the text [s] as one word, the word [w]. *)
Inductive reads_as : string -> string -> Prop :=
| ra_nil : reads_as EmptyString EmptyString
| ra_plain c s w : plain c = true -> reads_as s w -> reads_as (String c s) (String c w)
| ra_esc c s w : reads_as s w -> reads_as (String "\" (String c s)) (String c w).
(** [commands s]: the commands separated by ";"; a backslash takes the next
    character as it is.  Only for texts without quotes. *)
Fixpoint commands (s : string) : list string :=
  match s with
  | EmptyString => [EmptyString]
  | String c s' =>
      if bool_decide (c = "\") then
        match s' with EmptyString => [s] | String c' s'' => match commands s'' with [] => [s] | x :: l => String c (String c' x) :: l end end
      else if bool_decide (c = ";") then EmptyString :: commands s'
      else match commands s' with [] => [s] | x :: l => String c x :: l end
  end.
