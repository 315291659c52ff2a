(** Resource requests as a user writes them. *)
From Verif Require Import Base.
From Coq Require Import Ascii.

(** The number of blocks asked at a level: all of them, as many as possible, half of that, a number. *)
Inductive uval := UAll | UBest | UHalf | UNum (s : string).
(** A group: an SQL condition (or nothing) and levels from the outermost; an instance: groups joined by
    "+" and an optional walltime. *)
Definition ugroup : Type := string * list (string * uval).
Definition uinst : Type := list ugroup * option string.

Definition print_val (v : uval) : string :=
  match v with UAll => "ALL" | UBest => "BEST" | UHalf => "HALF_BEST" | UNum s => s end.
Definition print_level (l : string * uval) : string := "/" +:+ fst l +:+ "=" +:+ print_val (snd l).
Definition print_group (g : ugroup) : string :=
  (if bool_decide (fst g = EmptyString) then EmptyString else "{" +:+ fst g +:+ "}")
  +:+ foldr (fun l s => print_level l +:+ s) EmptyString (snd g).
Fixpoint join_plus (l : list string) : string :=
  match l with [] => EmptyString | [s] => s | s :: l' => s +:+ "+" +:+ join_plus l' end.
(** {cond}/switch=2/nodes=ALL+/licence=1,walltime=2:00:00 *)
Definition print_inst (i : uinst) : string :=
  join_plus (print_group <$> fst i)
  +:+ match snd i with Some w => ",walltime=" +:+ w | None => EmptyString end.

(** Texts without some characters. *)
Fixpoint lacks (bad : list ascii) (s : string) : Prop :=
  match s with EmptyString => True | String a s' => a ∉ bad /\ lacks bad s' end.
Definition is_space (a : ascii) : Prop := a ∈ (ascii_of_nat <$> [9; 10; 11; 12; 13; 28; 29; 30; 31; 32])%nat.
Definition good_name (s : string) : Prop :=
  lacks ["/"; "="; "+"; ","]%char s /\ match s with EmptyString => False | String a _ => ~ is_space a end.
Definition good_val (v : uval) : Prop :=
  match v with
  | UNum s => lacks ["/"; "="; "+"; ","]%char s /\ s <> "ALL"%string /\ s <> "BEST"%string /\ s <> "HALF_BEST"%string
  | _ => True end.
(** The condition may hold anything but "+", "," and "}". *)
Definition good_group (g : ugroup) : Prop :=
  lacks ["+"; ","; "}"]%char (fst g) /\ Forall (fun l => good_name (fst l) /\ good_val (snd l)) (snd g).
Definition good_inst (i : uinst) : Prop :=
  fst i <> [] /\ Forall good_group (fst i) /\
  match snd i with Some w => lacks ["="; ","]%char w | None => True end.

Definition special (v : uval) : bool := match v with UNum _ => false | _ => true end.
(** The number of levels of a group that ask ALL, BEST or HALF_BEST. *)
Definition specials (g : ugroup) : nat := length (base.filter (fun l => special (snd l) = true) (snd g)).

(** Both conditions: that of the job (-p) and that of the group; the empty text is no condition. *)
Definition both (a b : string) : string :=
  if bool_decide (a = EmptyString) then b else if bool_decide (b = EmptyString) then a else (a +:+ " AND " +:+ b)%string.
