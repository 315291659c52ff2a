(** What is said about oarnodes. *)
From Coq Require Import Ascii.
From Verif Require Import Base NodesModel.

Definition proper_res (d : ndb) : Prop := NoDup (n_id <$> n_res d).
(** A running job is on the resource. *)
Definition runs_on (d : ndb) (id r : Z) : Prop := exists j, j ∈ n_jobs d /\ q_id j = id /\ q_state j = "Running"%string /\ (q_mld j, r) ∈ n_assigned d.
(** The resource can take a job now. *)
Definition free (d : ndb) (r : nres) : Prop := n_state r = "Alive"%string /\ forall id, ~ runs_on d id (n_id r).
(** [n] is the number of those of [l] with [P]. *)
Inductive count {A} (P : A -> Prop) : list A -> Z -> Prop :=
  | count_nil : count P [] 0
  | count_yes x l n : P x -> count P l n -> count P (x :: l) (n + 1)
  | count_no x l n : ~ P x -> count P l n -> count P (x :: l) n.
(** Exactly the resources with [P], by increasing identifiers. *)
Definition exactly (P : nres -> Prop) (d : ndb) (l : list nres) : Prop :=
  StronglySorted (fun a b => n_id a < n_id b) l /\ forall r, r ∈ l <-> r ∈ n_res d /\ P r.
Definition dashed (s : string) : Prop := exists r, s = String "-" r.
Definition plain_options (nodes : list string) : options := mkOpts nodes [] None false false false None false.
(** Every [a] of the list with [P] is followed by a value with [Q]. *)
Fixpoint followed (P Q : string -> Prop) (l : list string) : Prop :=
  match l with
  | [] => True
  | a :: r => (P a -> exists b r', r = b :: r' /\ Q b) /\ followed P Q r
  end.
