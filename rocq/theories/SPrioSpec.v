(** Vocabulary of C145-C146. *)
From Verif Require Import Base SPrioModel.

(** Resource [r] has, at column [f], the same value as one of [l]. *)
Definition beside (f : string) (l : list rsc) (r : rsc) : Prop :=
  if decide (f = "resource_id" \/ f = "id")%string then exists r', r' ∈ l /\ r_id r' = r_id r
  else exists v r', r_cols r f = Some v /\ r' ∈ l /\ r_cols r' f = Some v.
(** How much a job of these types holding the resources [l] weighs on [r]: the k-th level counts for 2k, ten times
    more for a job that is best-effort and not time-sharing. *)
Definition factor (types : list string) : Z :=
  if decide ("besteffort"%string ∈ types) then if decide ("timesharing"%string ∈ types) then 1 else 10
  else if decide ("timesharing"%string ∈ types) then 1 else 0.
Global Instance beside_dec f l r : Decision (beside f l r).
Proof.
  unfold beside. destruct (decide _).
  - destruct (decide (r_id r ∈ (r_id <$> l))) as [H|H].
    + left. apply elem_of_list_fmap in H as (r' & E & H). by exists r'.
    + right. intros (r' & H1 & H2). apply H. apply elem_of_list_fmap. by exists r'.
  - destruct (r_cols r f) as [v|] eqn:E; [|right; by intros (v & r' & H & _)].
    destruct (decide (Some v ∈ ((fun r' => r_cols r' f) <$> l))) as [H|H].
    + left. apply elem_of_list_fmap in H as (r' & E2 & H). by exists v, r'.
    + right. intros (v' & r' & [= <-] & H1 & H2). apply H. apply elem_of_list_fmap. by exists r'.
Defined.
Fixpoint burden (k : Z) (fs : list string) (l : list rsc) (r : rsc) : Z :=
  match fs with [] => 0 | f :: fs' => (if decide (beside f l r) then 2 * k else 0) + burden (k + 1) fs' l r end.
Definition weight (fs : list string) (types : list string) (l : list rsc) (r : rsc) : Z := factor types * burden 1 fs l r.
Definition sum (l : list Z) : Z := foldr Z.add 0 l.
(** The jobs that occupy resources. *)
Definition occupying (d : db) : list jrow := filter (fun j => j_state j ∈ active_states) (jobs d).
Definition expected (order : option string) (p0 : Z -> Z) (d : db) (r : rsc) : Z :=
  match order with
  | None => p0 (r_id r)
  | Some o => p0 (r_id r) + sum ((fun j => weight (levels o) (j_types j) (held d (j_mld j)) r) <$> occupying d)
  end.
(** Before any launch. *)
Definition fresh (d : db) : Prop :=
  NoDup (r_id <$> rs d) /\ NoDup (j_id <$> jobs d) /\ NoDup (j_mld <$> jobs d) /\ (forall j, j ∈ jobs d -> j_state j = "Waiting"%string) /\ evs d = [] /\ asg d = [].
(** The jobs whose best-effort type is changed by the administrator. *)
Definition toggled (h : list op) : list Z := omap (fun o => match o with Toggle id => Some id | _ => None end) h.
Definition ordinary (h : list op) : Prop := forall o, o ∈ h -> match o with FinishCut _ | SetColumn _ _ _ => False | _ => True end.
Definition both_types (d : db) (id : Z) : Prop :=
  exists j, j ∈ jobs d /\ j_id j = id /\ "besteffort"%string ∈ j_types j /\ "timesharing"%string ∈ j_types j.
