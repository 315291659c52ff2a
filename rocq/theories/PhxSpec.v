(** Vocabulary of C170-C174. *)
From Verif Require Import Base PhxModel.

(** A run of oar_phoenix: its date, the durations of the commands, the broken nodes it is told. *)
Record prun := mkPrun { p_start : Z; p_dur : string -> Z; p_rows : list (string * string * string) }.
Definition broken (r : prun) (n : string) : Prop := exists st nx, (n, st, nx) ∈ p_rows r.
(** Each node is listed once. *)
Definition once (r : prun) : Prop := NoDup ((fun x => x.1.1) <$> p_rows r).
(** The end of a history of complete runs: the status file, and all the reboots in order. *)
Fixpoint runs (c : conf) (h : list prun) (s : status) : status * list event :=
  match h with
  | [] => (s, [])
  | r :: h' => let '(s1, e1) := phoenix c (p_start r) (p_dur r) (p_rows r) s in let '(s2, e2) := runs c h' s1 in (s2, e1 ++ e2)
  end.
Definition reboots (c : conf) (h : list prun) (s : status) : list event := (runs c h s).2.
(** The dates of the reboots of a kind of a node. *)
Definition dates (k : kind) (n : string) (l : list event) : list Z := omap (fun e : event => if decide (e.1.2 = k /\ e.2 = n) then Some e.1.1 else None) l.
(** A run killed after its [k]-th reboot, before the status file is written. *)
Definition killed (c : conf) (k : nat) (r : prun) (s : status) : list event := take k (phoenix c (p_start r) (p_dur r) (p_rows r) s).2.
(** The run is told the nodes of this list, in any order, each of them once. *)
Definition told (nodes : list string) (r : prun) : Prop := (fun x => x.1.1) <$> p_rows r ≡ₚ nodes.
Definition takes_time (r : prun) : Prop := forall n, 0 <= p_dur r n.
