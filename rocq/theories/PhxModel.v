(** oar_phoenix: oar/tools/oar_phoenix.py:119-209, and the answer of get_nodes_with_given_sql (oar/lib/node.py:188-196).  No proofs here.
    Simplified: the commands that reboot a node are events with a date and a duration (the process waits for them, at most
    PHOENIX_CMD_TIMEOUT); the other instructions take no time; the result of a reboot is not modelled (the next run asks
    the database which nodes are broken); the configuration is given (its reading is not modelled). *)
From Verif Require Import Base.

Inductive mark := Soft (t : Z) | Hard (t : Z).
(** The dictionary of the status file. *)
Notation status := (list (string * mark)).
Definition get (n : string) (s : status) : option mark := snd <$> head (filter (fun p => p.1 = n) s).
Definition del (n : string) (s : status) : status := filter (fun p => p.1 <> n) s.
Definition put (n : string) (m : mark) (s : status) : status := del n s ++ [(n, m)].

(** oar_phoenix.py:145-149 *)
Definition clean (broken : list string) (s : status) : status := filter (fun p => p.1 ∈ broken) s.
(** oar_phoenix.py:152-178: the count is tested after each node *)
Fixpoint pick (want : string -> bool) (max : Z) (c : Z) (broken : list string) : list string :=
  match broken with
  | [] => []
  | n :: l =>
      let '(c', r) := if want n then (c + 1, [n]) else (c, []) in
      r ++ if max <=? c' then [] else pick want max c' l
  end.
Definition to_soft (max : Z) (s : status) (broken : list string) : list string :=
  pick (fun n => match get n s with None => true | Some _ => false end) max 0 broken.
Definition to_hard (max timeout now : Z) (s : status) (broken : list string) : list string :=
  pick (fun n => match get n s with Some (Soft t) => t + timeout <? now | _ => false end) max 0 broken.

(** A reboot: its date, its kind, the node. *)
Inductive kind := soft | hard.
Global Instance kind_dec : EqDecision kind.
Proof. solve_decision. Defined.
Notation event := (Z * kind * string)%type.
(** oar_phoenix.py:181-202; [dur]: how long the command takes *)
Fixpoint reboot (k : kind) (dur : string -> Z) (nodes : list string) (now : Z) (s : status) : Z * status * list event :=
  match nodes with
  | [] => (now, s, [])
  | n :: l =>
      let m := match k with soft => Soft now | hard => Hard now end in
      let '(now', s', e) := reboot k dur l (now + dur n) (put n m s) in (now', s', (now, k, n) :: e)
  end.
(** oar_phoenix.py:206-216 until save_status; [rows]: the answer of the database (distinct address, state, next_state) *)
Record conf := mkConf { max_reboots : Z; soft_timeout : Z }.
Definition phoenix (c : conf) (start : Z) (dur : string -> Z) (rows : list (string * string * string)) (s : status) : status * list event :=
  let broken := (fun r => r.1.1) <$> rows in
  let s := clean broken s in
  let '(now, s, e1) := reboot soft dur (to_soft (max_reboots c) s broken) start s in
  let '(_, s, e2) := reboot hard dur (to_hard (max_reboots c) (soft_timeout c) now s broken) now s in
  (s, e1 ++ e2).
