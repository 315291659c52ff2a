(** Vocabulary of the accounting properties. *)
From Verif Require Import Base AcctModel.

Definition zsum (l : list Z) : Z := foldr Z.add 0 l.
(** Resource-seconds charged to a window of a group (user, project, queue, kind); to a group. *)
Definition charged (T : list arow) (ws we : Z) (g : agroup) : Z :=
  zsum (a_cons <$> filter (fun r => key_of r = (ws, we, g)) T).
Definition total (T : list arow) (g : agroup) : Z := zsum (a_cons <$> filter (fun r => group_of r = g) T).
(** Number of seconds of [start, stop[ that lie in the window [ws, we]. *)
Definition seconds_in (start stop ws we : Z) : Z :=
  Z.of_nat (length (filter (fun t => ws <= t <= we) ((fun i => start + Z.of_nat i) <$> seq 0 (Z.to_nat (stop - start))))).
(** The windows of size [w] are those that begin at a multiple of [w]. *)
Definition is_window (w ws we : Z) : Prop := ws mod w = 0 /\ we = ws + w - 1.
(** The primary key of the table. *)
Definition unique (T : list arow) : Prop := NoDup (key_of <$> T).
Global Instance is_window_dec w ws we : Decision (is_window w ws we).
Proof. unfold is_window. apply _. Defined.
