(** Model of the conversions of durations, oar/lib/tools.py:636-734.  No proofs. *)
From Verif Require Import Base.
From Coq Require Export Ascii.

(** Python's str(n) and int(s).  int() also accepts blanks around the number and underscores
    between digits: here they are refused (ValueError is None). *)
Definition digit (d : Z) : ascii := ascii_of_nat (48 + Z.to_nat d).
Fixpoint dec (fuel : nat) (n : Z) (s : string) : string :=
  if n <? 10 then String (digit n) s
  else match fuel with
       | O => s
       | S f => dec f (n / 10) (String (digit (n mod 10)) s)
       end.
Definition str (n : Z) : string :=
  if n <? 0 then String "-" (dec (Z.to_nat (- n)) (- n) "") else dec (Z.to_nat n) n "".
Definition digit_val (c : ascii) : option Z :=
  let v := Z.of_nat (nat_of_ascii c) - 48 in if (0 <=? v) && (v <? 10) then Some v else None.
Fixpoint digits_val (acc : Z) (s : string) : option Z :=
  match s with
  | EmptyString => Some acc
  | String c s' => match digit_val c with Some d => digits_val (10 * acc + d) s' | None => None end
  end.
Definition int_of (s : string) : option Z :=
  match s with
  | EmptyString => None
  | String c s' =>
      if bool_decide (c = "-"%char) then match s' with EmptyString => None | _ => Z.opp <$> digits_val 0 s' end
      else if bool_decide (c = "+"%char) then match s' with EmptyString => None | _ => digits_val 0 s' end
      else digits_val 0 s
  end.
(** s.split(":") *)
Fixpoint split_colon (s : string) : list string :=
  match s with
  | EmptyString => [EmptyString]
  | String c s' =>
      if bool_decide (c = ":"%char) then EmptyString :: split_colon s'
      else match split_colon s' with
           | w :: ws => String c w :: ws
           | [] => [String c EmptyString]
           end
  end.

(** hms_str_to_duration, tools.py:636-649 *)
Definition hms_str_to_duration (s : string) : option Z :=
  match split_colon s with
  | [h] => h ← int_of h; Some (3600 * h)
  | [h; m] => h ← int_of h; m ← int_of m; Some (3600 * h + 60 * m)
  | h :: m :: s :: _ => h ← int_of h; m ← int_of m; s ← int_of s; Some (3600 * h + 60 * m + s)
  | [] => None
  end.
(** sql_to_hms, tools.py:667-671 (IndexError is None) *)
Definition sql_to_hms (t : string) : option (string * string * string) :=
  match split_colon t with h :: m :: s :: _ => Some (h, m, s) | _ => None end.
(** hms_to_sql, tools.py:674-677 *)
Definition hms_to_sql (h m s : Z) : string := (str h +:+ ":" +:+ str m +:+ ":" +:+ str s)%string.
(** hms_to_duration, tools.py:680-683 *)
Definition hms_to_duration (h m s : Z) : Z := h * 3600 + m * 60 + s.
(** duration_to_hms, tools.py:686-693 *)
Definition duration_to_hms (t : Z) : Z * Z * Z :=
  let hour := t / 3600 in
  (hour, (t - hour * 3600) / 60, t mod 60).
(** duration_to_sql, tools.py:696-700 *)
Definition duration_to_sql (t : Z) : string := let '(h, m, s) := duration_to_hms t in hms_to_sql h m s.
(** duration_to_sql_signed, tools.py:703-711 *)
Definition duration_to_sql_signed (d : Z) : string :=
  let sign := if 0 <? d then "+"%string else if d <? 0 then "-"%string else ""%string in
  let '(h, m, s) := duration_to_hms (Z.abs d) in (sign +:+ hms_to_sql h m s)%string.
(** sql_to_duration, tools.py:714-718 *)
Definition sql_to_duration (t : string) : option Z :=
  x ← sql_to_hms t; let '(h, m, s) := x in
  h ← int_of h; m ← int_of m; s ← int_of s; Some (hms_to_duration h m s).
(** get_duration, tools.py:721-734: the numbers, weeks first, and the units printed. *)
Definition compound (seconds : Z) : list Z :=
  let step '(t, s) dm := (t ++ [s mod dm], s / dm) in
  let '(t, s) := fold_left step [60; 60; 24; 7] ([], seconds) in
  reverse (t ++ [s]).
Definition get_duration (seconds : Z) : list (Z * string) :=
  filter (fun x => fst x <> 0) (zip (compound seconds) ["wk"; "d"; "hr"; "min"; "sec"]%string).
