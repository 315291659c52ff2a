(** The treatment of events: properties C121 to C125. *)
From Verif Require Import Base HierarchyModel SubmitModel SubmitSpec SubmitProofs ResubModel ResubSpec ResubProofs ResubProps.

Section frames.
  Variable rm : list mldrow -> list mldrow.
  Variable rg : list grprow -> list grprow.
  Variable rd : list descrow -> list descrow.

  Lemma copy_levels_jobs g g' d : jobs (copy_levels rd g g' d) = jobs d /\ nj (copy_levels rd g g' d) = nj d.
  Proof. rewrite copy_levels_eq. done. Qed.
  Lemma copy_groups_jobs m m' d : jobs (copy_groups rg rd m m' d) = jobs d /\ nj (copy_groups rg rd m m' d) = nj d.
  Proof.
    unfold copy_groups. generalize (rg (base.filter (fun g => gmld g = m) (grps d))) as L. intros L. revert d.
    induction L as [|g L IH]; intros d; [done|]. cbn [fold_left]. destruct (IH (copy_levels rd (gid g) (ng d) (insert_grps [(m', gprop g)] d))) as [-> ->].
    destruct (copy_levels_jobs (gid g) (ng d) (insert_grps [(m', gprop g)] d)) as [-> ->]. done.
  Qed.
  Lemma copy_moldables_jobs j j' d : jobs (copy_moldables rm rg rd j j' d) = jobs d /\ nj (copy_moldables rm rg rd j j' d) = nj d.
  Proof.
    unfold copy_moldables. generalize (rm (base.filter (fun m => mjob m = j) (mlds d))) as L. intros L. revert d.
    induction L as [|m L IH]; intros d; [done|]. cbn [fold_left]. destruct (IH (copy_groups rg rd (mid m) (nm d) (insert_mlds [(j', mwall m)] d))) as [-> ->].
    destruct (copy_groups_jobs (mid m) (nm d) (insert_mlds [(j', mwall m)] d)) as [-> ->]. done.
  Qed.
  Lemma after_jobs id r x priv pub s : new_ids s -> jobs (rq (after rm rg rd id r x priv pub s)) =
      jobs (rq s) ++ [mkJob (nj (rq s)) "Waiting" (jarray r) (jindex r) (jcmd r) (jprops r) (jresv r)] /\
    nj (rq (after rm rg rd id r x priv pub s)) = nj (rq s) + 1.
  Proof.
    intros Hn. unfold after. cbn [rq with_rq with_keys with_exts jobs nj insert_logs set_state set_jobs move_deps copy_types insert_types].
    destruct (copy_moldables_jobs id (nj (rq s)) (copy_row r (rq s))) as [-> ->]. split; [|done]. cbn [jobs copy_row].
    rewrite set_jobs_old; [cbn [jid]; by rewrite Z.eqb_refl|]. intros y Hy. specialize (Hn y Hy). destruct (jid y =? nj (rq s)) eqn:E; [lia|done].
  Qed.
  Lemma new_ids_after id r x priv pub s : new_ids s -> new_ids (after rm rg rd id r x priv pub s).
  Proof.
    intros Hn y. destruct (after_jobs id r x priv pub s Hn) as [-> ->]. intros [Hy|Hy]%elem_of_app; [specialize (Hn y Hy); lia|].
    apply elem_of_list_singleton in Hy as ->. cbn. lia.
  Qed.
  Lemma keeps_after id r x priv pub s : new_ids s -> keeps s (after rm rg rd id r x priv pub s).
  Proof.
    intros Hn. split.
    - intros j [(r0 & Hr0 & <-) Hover]. unfold is_over. destruct (after_jobs id r x priv pub s Hn) as [-> _]. split.
      + exists r0. split; [apply elem_of_app; by left|done].
      + intros r1 [Hr1|Hr1]%elem_of_app He; [by apply Hover|]. apply elem_of_list_singleton in Hr1 as ->. specialize (Hn r0 Hr0). cbn in He. lia.
    - intros y Hy. exists y. split; [|done]. change (exts (after rm rg rd id r x priv pub s)) with (exts s ++ [copy_ext id (nj (rq s)) x]). apply elem_of_app. by left.
  Qed.
  (** Any resubmission, by a user too, is one of the other things that may happen. *)
  Lemma keeps_resubmit u id s c n s' : new_ids s -> resubmit rm rg rd u id s = Ok (c, n, s') -> keeps s s' /\ new_ids s'.
  Proof.
    intros Hn H. destruct (decide (c = 0)) as [->|Hc].
    - apply resubmit_ok in H as (r & x & k & priv & pub & _ & _ & _ & _ & ->). split; [by apply keeps_after|by apply new_ids_after].
    - apply C120_refused in H as [_ ->]; [|done]. split; [|done]. split; [done|]. intros x Hx. eauto.
  Qed.
  Lemma keeps_refl s : keeps s s.
  Proof. split; [done|]. intros x Hx. eauto. Qed.
  Lemma keeps_trans s1 s2 s3 : keeps s1 s2 -> keeps s2 s3 -> keeps s1 s3.
  Proof.
    intros [A1 A2] [B1 B2]. split; [auto|]. intros x Hx. destruct (A2 x Hx) as (y & Hy & Ey). destruct (B2 y Hy) as (z & Hz & Ez). exists z. split; [done|congruence].
  Qed.
  Lemma set_job_state_jobs id st s : jobs (rq (set_job_state id st s)) =
    ((fun r => if bool_decide (jid r = id) && bool_decide (jstate r ∈ live_states) && negb (bool_decide (jstate r = st))
               then mkJob (jid r) st (jarray r) (jindex r) (jcmd r) (jprops r) (jresv r) else r) <$> jobs (rq s)) /\
    nj (rq (set_job_state id st s)) = nj (rq s) /\ exts (set_job_state id st s) = exts s.
  Proof. unfold set_job_state. cbv zeta. destruct (Nat.eqb _ 1); done. Qed.
  Lemma keeps_set_job_state id st s : st ∈ over -> keeps s (set_job_state id st s).
  Proof.
    intros Hst. destruct (set_job_state_jobs id st s) as (E1 & _ & E2). split.
    - intros j [(r & Hr & Hj) Hover]. split.
      + rewrite E1. eexists. split; [apply elem_of_list_fmap_1, Hr|]. destruct (_ && _); done.
      + rewrite E1. intros r' (r0 & -> & Hr0)%elem_of_list_fmap. destruct (_ && _); cbn [jid jstate]; [done|]. intros He. by apply Hover.
    - rewrite E2. intros x Hx. eauto.
  Qed.
  Lemma new_ids_set_job_state id st s : new_ids s -> new_ids (set_job_state id st s).
  Proof.
    intros Hn r'. destruct (set_job_state_jobs id st s) as (-> & -> & _). intros (r & -> & Hr)%elem_of_list_fmap. specialize (Hn r Hr). destruct (_ && _); done.
  Qed.
End frames.

(** ** C121: a job is resubmitted automatically at most once *)
Section once.
  Variable rm : list mldrow -> list mldrow.
  Variable rg : list grprow -> list grprow.
  Variable rd : list descrow -> list descrow.
  Variable u : string.
  Notation resub := (resubmit rm rg rd u).

  Lemma idem_cases e s : fst (ncs_idempotent rm rg rd u e s) = s \/
    exists r x c n s', job_of s (e_job e) = Some (r, x) /\ resub (e_job e) s = Ok (c, n, s') /\ fst (ncs_idempotent rm rg rd u e s) = s' /\
      e_type e ∈ ["SWITCH_INTO_TERMINATE_STATE"; "SWITCH_INTO_ERROR_STATE"]%string /\
      exit_99 x = true /\ has_type s (e_job e) "idempotent" = true /\ jresv r = "None"%string /\ x_type x = "PASSIVE"%string /\
      resubmitted s (e_job e) = 0%nat /\ has_event s (e_job e) "SEND_KILL_JOB" = false /\ 60 < x_stop x - x_start x.
  Proof.
    unfold ncs_idempotent. destruct (is (e_type e) "SWITCH_INTO_TERMINATE_STATE" || is (e_type e) "SWITCH_INTO_ERROR_STATE") eqn:E0; [|by left].
    destruct (job_of s (e_job e)) as [[r x]|] eqn:Ej; [|by left].
    match goal with |- context [if ?b then _ else _] => destruct b eqn:E end; [|by left].
    rewrite !andb_true_iff in E. destruct E as ((((((E1 & E2) & E3) & E4) & E5) & E6) & E7).
    destruct (resub (e_job e) s) as [[[c n] s']|er] eqn:Er; [|by left]. right. exists r, x, c, n, s'. cbn [of_resubmit fst].
    split; [done|]. split; [done|]. split; [done|]. split.
    { apply orb_true_iff in E0 as [E0|E0]; apply bool_decide_eq_true in E0; rewrite E0; set_solver. }
    split; [done|]. split; [done|]. split; [by apply bool_decide_eq_true in E3|]. split; [by apply bool_decide_eq_true in E4|].
    split; [by apply Nat.eqb_eq|]. split; [by apply negb_true_iff|]. lia.
  Qed.
  Lemma resub_cases e s : fst (ncs_resubmit rm rg rd u e s) = s \/
    exists r x c n s', job_of s (e_job e) = Some (r, x) /\ resub (e_job e) s = Ok (c, n, s') /\
      fst (ncs_resubmit rm rg rd u e s) = add_event "RESUBMIT_JOB_AUTOMATICALLY" (e_job e) s' /\ e_type e ∈ resubmit_events /\
      jresv r = "None"%string /\ x_type x = "PASSIVE"%string /\ resubmitted s (e_job e) = 0%nat.
  Proof.
    unfold ncs_resubmit. destruct (is_in (e_type e) resubmit_events) eqn:E0; [|by left]. apply bool_decide_eq_true in E0.
    destruct (job_of s (e_job e)) as [[r x]|] eqn:Ej; [|by left].
    match goal with |- context [if ?b then _ else _] => destruct b eqn:E end; [|by left].
    rewrite !andb_true_iff in E. destruct E as ((E1 & E2) & E3).
    destruct (resub (e_job e) s) as [[[c n] s']|er] eqn:Er; [|by left]. right. exists r, x, c, n, s'. cbn [of_resubmit fst].
    do 4 (split; [done|]). split; [by apply bool_decide_eq_true in E1|]. split; [by apply bool_decide_eq_true in E2|]. by apply Nat.eqb_eq.
  Qed.
  Definition busy : list string := ["Running"; "Launching"; "Suspended"; "Resuming"]%string.
  Lemma end_cases id s : fst (end_of_killed_job rm rg rd u id s) = s \/
    exists r x, job_of s id = Some (r, x) /\ jstate r ∈ busy /\
      let s1 := set_job_state id "Finishing" s in
      (exists f, fst (end_of_killed_job rm rg rd u id s) = with_evs f s1) \/
      (exists c n s2 f, resub id s1 = Ok (c, n, s2) /\ fst (end_of_killed_job rm rg rd u id s) = with_evs f s2).
  Proof.
    unfold end_of_killed_job. destruct (job_of s id) as [[r x]|]; [|by left]. destruct (is_in (jstate r) _) eqn:E; [|by left].
    apply bool_decide_eq_true in E. right. exists r, x. split; [done|]. split; [done|]. cbv zeta. set (s1 := set_job_state id "Finishing" s).
    match goal with |- context [if ?b then _ else _] => destruct b eqn:E2 end.
    - destruct (resub id s1) as [[[c n] s2]|er]; cbn [of_resubmit fst].
      + right. exists c, n, s2, (fun _ => evs (add_event "RESUBMIT_JOB_AUTOMATICALLY" id (add_event "SWITCH_INTO_ERROR_STATE" id s2))). split; reflexivity.
      + left. exists (fun l => l). by destruct s1.
    - left. exists (fun _ => evs (add_event "SWITCH_INTO_ERROR_STATE" id s1)). reflexivity.
  Qed.
  (** The end of a job killed resubmits only if the job is best-effort and idempotent and was killed by the scheduler. *)

  Definition once (l : list Z) (s : sys) : Prop :=
    NoDup l /\ new_ids s /\ forall J, J ∈ l -> is_over s J /\ exists x, x ∈ exts s /\ x_of x = J.
  Lemma once_keeps l s s' : once l s -> keeps s s' -> new_ids s' -> once l s'.
  Proof.
    intros (H1 & H2 & H3) [K1 K2] Hn. split; [done|]. split; [done|]. intros J HJ. destruct (H3 J HJ) as [A (x & Hx & Ex)].
    split; [by apply K1|]. destruct (K2 x Hx) as (x' & Hx' & Ex'). exists x'. split; [done|congruence].
  Qed.
  Lemma over_not_busy s id r x : job_of s id = Some (r, x) -> jstate r ∈ busy -> ~ is_over s id.
  Proof.
    intros Hj Hb [_ Ho]. apply job_of_inv in Hj as (Hr & _ & Hid & _). specialize (Ho r Hr Hid). clear -Hb Ho.
    unfold busy, over in *. rewrite !elem_of_cons in *. rewrite elem_of_nil in *. destruct Hb as [E|[E|[E|[E|[]]]]]; rewrite E in Ho; naive_solver congruence.
  Qed.
  Lemma resubmit_over id s n s' : resub id s = Ok (0, n, s') -> is_over s id.
  Proof.
    intros H. apply resubmit_ok in H as (r & x & k & priv & pub & Hj & _ & (_ & Ho & _) & _). apply job_of_inv in Hj as (Hr & _ & Hid & _ & Hf & _).
    split; [by exists r|]. intros r' Hr' He. assert (Hin : r' ∈ base.filter (fun r => jid r = id) (jobs (rq s))) by (by apply elem_of_list_filter).
    rewrite Hf in Hin. by apply elem_of_list_singleton in Hin as ->.
  Qed.
  (** A resubmission of a job not yet in the list. *)
  Lemma once_resubmit l s id c n s' : once l s -> id ∉ l -> resub id s = Ok (c, n, s') -> once (l ++ made s s' id) s'.
  Proof.
    intros Ho Hid H. pose proof Ho as (H1 & H2 & H3). destruct (keeps_resubmit rm rg rd u id s c n s' H2 H) as [K Hn].
    destruct (once_keeps l s s' Ho K Hn) as (O1 & O2 & O3).
    destruct (decide (c = 0)) as [->|Hc].
    - assert (Hm : made s s' id = [id]).
      { unfold made. apply resubmit_ext in H as (r & x & _ & E & _). rewrite E, app_length. cbn [length]. destruct (Nat.eqb _ _) eqn:En; [apply Nat.eqb_eq in En; lia|done]. }
      rewrite Hm. split; [apply NoDup_app; split; [done|]; split; [|apply NoDup_singleton]; intros J HJ ->%elem_of_list_singleton; done|].
      split; [done|]. intros J [HJ|HJ]%elem_of_app; [by apply O3|]. apply elem_of_list_singleton in HJ as ->.
      split; [apply K; by eapply resubmit_over|]. apply resubmit_ext in H as (r & x & _ & E & _). exists (copy_ext id n x). rewrite E. split; [apply elem_of_app; right; left|done].
    - apply C120_refused in H as [_ ->]; [|done]. unfold made. rewrite Nat.eqb_refl, app_nil_r. done.
  Qed.
  Lemma once_events l s f : once l (with_evs f s) <-> once l s.
  Proof. done. Qed.
  Lemma not_yet l s id : once l s -> resubmitted s id = 0%nat -> id ∉ l.
  Proof.
    intros (_ & _ & H3) Hr Hin. destruct (H3 id Hin) as [_ (x & Hx & Ex)]. unfold resubmitted in Hr. apply nil_length_inv in Hr.
    assert (Hx' : x ∈ base.filter (fun x => x_of x = id) (exts s)) by (by apply elem_of_list_filter). rewrite Hr in Hx'. by apply elem_of_nil in Hx'.
  Qed.
  Lemma run_once s0 l s : new_ids s0 -> run rm rg rd u s0 l s -> once l s.
  Proof.
    intros Hn0. induction 1 as [|l s e Hr IH|l s e Hr IH|l s id Hr IH|l s s' Hr IH Hk Hn].
    - split; [constructor|]. split; [done|]. intros J HJ. by apply elem_of_nil in HJ.
    - destruct (idem_cases e s) as [->|(r & x & c & n & s' & _ & E & -> & _ & _ & _ & _ & _ & Hz & _)].
      + unfold made. by rewrite Nat.eqb_refl, app_nil_r.
      + eapply once_resubmit; [done|by eapply not_yet|exact E].
    - destruct (resub_cases e s) as [->|(r & x & c & n & s' & _ & E & -> & _ & _ & _ & Hz)].
      + unfold made. by rewrite Nat.eqb_refl, app_nil_r.
      + change (once (l ++ made s s' (e_job e)) s'). eapply once_resubmit; [done|by eapply not_yet|exact E].
    - destruct (end_cases id s) as [->|(r & x & Hj & Hb & Hcase)].
      + unfold made. by rewrite Nat.eqb_refl, app_nil_r.
      + assert (Hid : id ∉ l). { intros Hin. apply (over_not_busy s id r x Hj Hb). by apply IH. }
        cbv zeta in Hcase. set (s1 := set_job_state id "Finishing" s) in *.
        assert (O1 : once l s1).
        { eapply once_keeps; [exact IH|apply keeps_set_job_state; unfold over; by_dec|apply new_ids_set_job_state, IH]. }
        assert (E1 : exts s1 = exts s) by apply set_job_state_jobs.
        destruct Hcase as [(f & ->)|(c & n & s2 & f & E & ->)].
        * unfold made. cbn [exts with_evs]. rewrite E1, Nat.eqb_refl, app_nil_r. exact O1.
        * change (once (l ++ made s s2 id) s2). unfold made. rewrite <- E1. eapply once_resubmit; [exact O1|done|exact E].
    - by eapply once_keeps.
  Qed.
End once.
(** Over any history of events treated (several times, or cut short), jobs killed, resubmissions by users, and anything
    that leaves finished jobs finished, no job is resubmitted automatically twice. *)
Theorem C121_at_most_once : forall rm rg rd u s0 l s, new_ids s0 -> run rm rg rd u s0 l s -> NoDup l.
Proof. intros rm rg rd u s0 l s Hn H. by apply run_once in H as (? & _); [|done]. Qed.

(** ** The phases of the treatment of an event *)
Definition look (s : sys) (id : Z) : option (string * ext) := (fun p => (jresv (fst p), snd p)) <$> job_of s id.
(** Changes that only touch states, events, suspected nodes and queues. *)
Record mild (s s' : sys) : Prop := {
  mi_exts : exts s' = exts s; mi_keys : keys s' = keys s; mi_eh : ehosts s' = ehosts s; mi_as : assigned s' = assigned s;
  mi_types : types (rq s') = types (rq s); mi_nj : nj (rq s') = nj (rq s); mi_look : forall id, look s' id = look s id;
  mi_keeps : keeps s s'; mi_new : new_ids s -> new_ids s' }.
Lemma mild_refl s : mild s s.
Proof. split; try done. apply keeps_refl. Qed.
Lemma mild_trans s1 s2 s3 : mild s1 s2 -> mild s2 s3 -> mild s1 s3.
Proof.
  intros [] []. split; try congruence; [by eapply keeps_trans|auto].
Qed.
Lemma filter_fmap_same {A B} (f : A -> A) (g : A -> B) (P : A -> Prop) `{forall x, Decision (P x)} (l : list A) :
  (forall x, P (f x) <-> P x) -> (forall x, g (f x) = g x) -> g <$> base.filter P (f <$> l) = g <$> base.filter P l.
Proof.
  intros Hf Hg. induction l as [|x l IH]; [done|]. rewrite fmap_cons, !filter_cons. specialize (Hf x).
  destruct (decide (P (f x))), (decide (P x)); try tauto. by rewrite !fmap_cons, Hg, IH.
Qed.
Lemma mild_set_job_state id st s : st ∈ over -> mild s (set_job_state id st s).
Proof.
  intros Hst. destruct (set_job_state_jobs id st s) as (E1 & E2 & E3). split; try done.
  - unfold set_job_state. cbv zeta. destruct (Nat.eqb _ 1); done.
  - intros j. unfold look, job_of. rewrite E1, E3.
    match goal with |- context [?f0 <$> jobs (rq s)] => set (f := f0) end.
    assert (Hl : (fun r => (jid r, jresv r)) <$> base.filter (fun r => jid r = j) (f <$> jobs (rq s)) = (fun r => (jid r, jresv r)) <$> base.filter (fun r => jid r = j) (jobs (rq s))).
    { apply filter_fmap_same; intros r; unfold f; destruct (_ && _); done. }
    destruct (base.filter (fun r => jid r = j) (f <$> jobs (rq s))) as [|a [|? ?]], (base.filter (fun r => jid r = j) (jobs (rq s))) as [|b [|? ?]]; try done.
    cbn in Hl. injection Hl as _ Hl. destruct (base.filter (fun x => x_job x = j) (exts s)) as [|y [|? ?]]; try done. cbn. by rewrite Hl.
  - by apply keeps_set_job_state.
  - by apply new_ids_set_job_state.
Qed.
Lemma mild_evs f s : mild s (with_evs f s).
Proof. split; try done. split; [done|]. intros x Hx. eauto. Qed.
Lemma mild_suspected f s : mild s (with_suspected f s).
Proof. split; try done. split; [done|]. intros x Hx. eauto. Qed.
Lemma mild_queues f s : mild s (with_queues f s).
Proof. split; try done. split; [done|]. intros x Hx. eauto. Qed.
Lemma over_terminated : "Terminated"%string ∈ over. Proof. by_dec. Qed.
Lemma over_error : "Error"%string ∈ over. Proof. by_dec. Qed.
Lemma over_finishing : "Finishing"%string ∈ over. Proof. by_dec. Qed.
Global Hint Resolve mild_refl mild_set_job_state mild_evs mild_suspected mild_queues over_terminated over_error over_finishing : mild.

Lemma andthen_fst (P : sys -> Prop) o f : (snd o <> None -> P (fst o)) -> (snd o = None -> P (fst (f (fst o)))) -> P (fst (andthen o f)).
Proof. unfold andthen. intros H1 H2. destruct (snd o) eqn:E; auto. Qed.

(** The first part of the changes of state. *)
Definition states1 (e : event) (s : sys) : sys :=
  if is (e_type e) "SWITCH_INTO_TERMINATE_STATE" then set_job_state (e_job e) "Terminated" s
  else if is (e_type e) "SWITCH_INTO_ERROR_STATE" || is (e_type e) "FORCE_TERMINATE_FINISHING_JOB" then set_job_state (e_job e) "Error" s else s.
Lemma same_rest id st s : evs (set_job_state id st s) = evs s /\ suspected (set_job_state id st s) = suspected s /\ queues (set_job_state id st s) = queues s.
Proof. done. Qed.
(** What the changes of state leave as they are. *)
Definition calm (s s' : sys) : Prop := mild s s' /\ evs s' = evs s /\ suspected s' = suspected s /\ queues s' = queues s.
Lemma calm_refl s : calm s s.
Proof. split; [apply mild_refl|done]. Qed.
Lemma calm_trans s1 s2 s3 : calm s1 s2 -> calm s2 s3 -> calm s1 s3.
Proof. intros (A & B & C & D) (A' & B' & C' & D'). split; [by eapply mild_trans|]. repeat split; congruence. Qed.
Lemma calm_set id st s : st ∈ over -> calm s (set_job_state id st s).
Proof. intros H. split; [by apply mild_set_job_state|done]. Qed.
Lemma calm_states e s : calm s (fst (ncs_states e s)).
Proof.
  unfold ncs_states. cbv zeta. change (if is (e_type e) "SWITCH_INTO_TERMINATE_STATE" then _ else _) with (states1 e s).
  eapply calm_trans with (s2 := states1 e s).
  { unfold states1. destruct (is _ _); [apply calm_set, over_terminated|]. destruct (_ || _); [apply calm_set, over_error|apply calm_refl]. }
  generalize (states1 e s) as t. intros t. apply andthen_fst.
  - intros _. destruct (is_in _ _); [|apply calm_refl]. destruct (job_of t (e_job e)) as [[r x]|]; [|apply calm_refl].
    destruct (_ || _); [apply calm_set, over_error|]. destruct (_ && _); [apply calm_set, over_error|apply calm_refl].
  - intros _. eapply calm_trans; [|destruct (_ || _); [apply calm_set, over_terminated|apply calm_refl]].
    destruct (is_in _ _); [|apply calm_refl]. destruct (job_of t (e_job e)) as [[r x]|]; [|apply calm_refl].
    destruct (_ || _); [apply calm_set, over_error|]. destruct (_ && _); [apply calm_set, over_error|apply calm_refl].
Qed.
Lemma suspect_effect cp e s : exists L, fst (ncs_suspect cp e s) = with_suspected (fun l => l ++ L) s.
Proof.
  unfold ncs_suspect. assert (Hs : s = with_suspected (fun l => l ++ []) s). { destruct s as [a b c d f g h i]. unfold with_suspected. cbn [rq exts keys evs ehosts assigned suspected queues]. f_equal. symmetry. apply app_nil_r. }
  destruct (is_in _ _); [|by exists []]. destruct (ncs_hosts cp e s) as [[hosts fin]|]; [|by exists []]. eexists. reflexivity.
Qed.
Lemma mild_suspect cp e s : mild s (fst (ncs_suspect cp e s)) /\ evs (fst (ncs_suspect cp e s)) = evs s /\ queues (fst (ncs_suspect cp e s)) = queues s.
Proof. destruct (suspect_effect cp e s) as [L ->]. split; [apply mild_suspected|done]. Qed.
Lemma mild_server e s : mild s (fst (ncs_server e s)) /\ evs (fst (ncs_server e s)) = evs s /\ suspected (fst (ncs_server e s)) = suspected s.
Proof.
  unfold ncs_server. destruct (is_in _ _); [|split; [apply mild_refl|done]]. cbn [fst]. split; [|done].
  eapply mild_trans; [apply mild_queues|apply mild_set_job_state, over_error].
Qed.

(** The three phases between the two that may resubmit. *)
Definition middle (cp : bool) (e : event) (s : sys) : outcome :=
  andthen (ncs_states e s) (fun s => andthen (ncs_suspect cp e s) (ncs_server e)).
Lemma andthen_assoc o f g : andthen (andthen o f) g = andthen o (fun s => andthen (f s) g).
Proof. unfold andthen. destruct (snd o) as [e|] eqn:E; [by rewrite E|done]. Qed.
Lemma andthen_ext o f g : (forall s, f s = g s) -> andthen o f = andthen o g.
Proof. intros H. unfold andthen. by destruct (snd o). Qed.
Lemma ncs_event_eq rm rg rd u cp e s : ncs_event rm rg rd u cp e s =
  andthen (ncs_idempotent rm rg rd u e s) (fun s => andthen (middle cp e s) (fun s => andthen (ncs_resubmit rm rg rd u e s) (fun s => (check_event (e_type e) (e_job e) s, None)))).
Proof.
  unfold ncs_event, middle. apply andthen_ext. intros s1. rewrite andthen_assoc. apply andthen_ext. intros s2. rewrite andthen_assoc. done.
Qed.
Lemma mild_middle cp e s : mild s (fst (middle cp e s)) /\ evs (fst (middle cp e s)) = evs s.
Proof.
  unfold middle. destruct (calm_states e s) as (A & B & _). apply andthen_fst; [done|]. intros _.
  assert (H : forall t, mild t (fst (andthen (ncs_suspect cp e t) (ncs_server e))) /\ evs (fst (andthen (ncs_suspect cp e t) (ncs_server e))) = evs t).
  { intros t. destruct (mild_suspect cp e t) as (A' & B' & _). apply andthen_fst; [done|]. intros _.
    destruct (mild_server e (fst (ncs_suspect cp e t))) as (A2 & B2 & _). split; [by eapply mild_trans|congruence]. }
  destruct (H (fst (ncs_states e s))) as [A2 B2]. split; [by eapply mild_trans|congruence].
Qed.

(** ** C121, C122: the rows made by one event *)
Section rows.
  Variable rm : list mldrow -> list mldrow.
  Variable rg : list grprow -> list grprow.
  Variable rd : list descrow -> list descrow.
  Variable u : string.
  Variable cp : bool.
  Notation resub := (resubmit rm rg rd u).

  Lemma resubmit_rows id s c n s' : resub id s = Ok (c, n, s') -> exts s' = exts s \/ exists y, exts s' = exts s ++ [y] /\ x_of y = id.
  Proof.
    intros H. destruct (decide (c = 0)) as [->|Hc].
    - right. apply resubmit_ext in H as (r & x & _ & -> & _). eexists. split; [done|done].
    - left. by apply C120_refused in H as [_ ->].
  Qed.
  Lemma resubmitted_0 s id : resubmitted s id = 0%nat <-> forall y, y ∈ exts s -> x_of y <> id.
  Proof.
    unfold resubmitted. split.
    - intros H%nil_length_inv y Hy Hz. assert (Hx : y ∈ base.filter (fun x => x_of x = id) (exts s)) by (by apply elem_of_list_filter). rewrite H in Hx. by apply elem_of_nil in Hx.
    - intros H. destruct (base.filter _ _) as [|y l] eqn:E; [done|]. assert (Hx : y ∈ base.filter (fun x => x_of x = id) (exts s)) by (rewrite E; left).
      apply elem_of_list_filter in Hx as [Hx Hy]. by destruct (H y Hy).
  Qed.
  Lemma has_event_false s id t : has_event s id t = false <-> forall e, e ∈ evs s -> e_job e = id -> e_type e <> t.
  Proof.
    unfold has_event. rewrite Nat.ltb_ge. split.
    - intros H e He H1 H2. assert (Hx : e ∈ base.filter (fun e => e_job e = id /\ e_type e = t) (evs s)) by (by apply elem_of_list_filter).
      destruct (base.filter _ _); [by apply elem_of_nil in Hx|cbn [length] in H; lia].
    - intros H. destruct (base.filter _ _) as [|e l] eqn:E; [done|]. assert (Hx : e ∈ base.filter (fun e => e_job e = id /\ e_type e = t) (evs s)) by (rewrite E; left).
      apply elem_of_list_filter in Hx as [[H1 H2] Hy]. by destruct (H e Hy).
  Qed.
  Lemma exit_99_spec x : exit_99 x = true <-> exists c, x_exit x = Some c /\ 99 * 256 <= c < 100 * 256.
  Proof.
    unfold exit_99. destruct (x_exit x) as [c|]; [|split; [done|by intros (c & H & _)]].
    rewrite andb_true_iff, negb_true_iff, Z.eqb_neq, Z.eqb_eq, Z.shiftr_div_pow2 by lia. change (2 ^ 8) with 256.
    pose proof (Z.div_mod c 256 ltac:(lia)). pose proof (Z.mod_pos_bound c 256 ltac:(lia)). split.
    - intros [H1 H2]. exists c. split; [done|]. lia.
    - intros (c' & [= <-] & H1). split; lia.
  Qed.
  Lemma look_job s id r x : job_of s id = Some (r, x) -> look s id = Some (jresv r, x).
  Proof. unfold look. by intros ->. Qed.
  Lemma look_inv s id v x : look s id = Some (v, x) -> exists r, job_of s id = Some (r, x) /\ jresv r = v.
  Proof. unfold look. destruct (job_of s id) as [[r y]|]; [|done]. cbn. intros [= <- <-]. eauto. Qed.

  (** The events treated by the first phase are not treated by the last. *)
  Lemma idem_other e s : fst (ncs_idempotent rm rg rd u e s) <> s -> e_type e ∈ ["SWITCH_INTO_TERMINATE_STATE"; "SWITCH_INTO_ERROR_STATE"]%string.
  Proof. intros H. destruct (idem_cases rm rg rd u e s) as [?|(r & x & c & n & s' & _ & _ & _ & Ht & _)]; done. Qed.
  Lemma switch_not_error t : t ∈ ["SWITCH_INTO_TERMINATE_STATE"; "SWITCH_INTO_ERROR_STATE"]%string -> t ∈ resubmit_events -> False.
  Proof. intros [->|[->|H%elem_of_nil]%elem_of_cons]%elem_of_cons H2; [..|done];
    apply (bool_decide_eq_true_2 _) in H2; vm_compute in H2; discriminate. Qed.

  Lemma event_rows e s : let s' := fst (ncs_event rm rg rd u cp e s) in
    exts s' = exts s \/ (exists y, exts s' = exts s ++ [y] /\ x_of y = e_job e) /\ run_again s e.
  Proof.
    cbv zeta. rewrite ncs_event_eq.
    assert (Hlast : forall t, mild s t -> evs t = evs s -> let s' := fst (andthen (ncs_resubmit rm rg rd u e t) (fun s => (check_event (e_type e) (e_job e) s, None))) in
      exts s' = exts s \/ (exists y, exts s' = exts s ++ [y] /\ x_of y = e_job e) /\ run_again s e).
    { intros t Hm He. cbv zeta. assert (Hsame : forall o, exts (fst (andthen o (fun s => (check_event (e_type e) (e_job e) s, None)))) = exts (fst o)).
      { intros o. unfold andthen. by destruct (snd o). }
      rewrite Hsame. destruct (resub_cases rm rg rd u e t) as [->|(r & x & c & n & s' & Hj & Hr & -> & Ht & H1 & H2 & H3)]; [left; apply Hm|].
      change (exts (add_event "RESUBMIT_JOB_AUTOMATICALLY" (e_job e) s')) with (exts s'). rewrite <- (mi_exts _ _ Hm).
      destruct (resubmit_rows _ _ _ _ _ Hr) as [->|Hy]; [by left|]. right. split; [done|].
      apply look_job in Hj. rewrite (mi_look _ _ Hm) in Hj. apply look_inv in Hj as (r0 & Hj & Hv). exists r0, x. split; [done|]. split; [congruence|]. split; [done|].
      split; [rewrite <- (mi_exts _ _ Hm); by apply resubmitted_0|]. left. exact Ht. }
    assert (Hmid : let s' := fst (andthen (middle cp e s) (fun s => andthen (ncs_resubmit rm rg rd u e s) (fun s => (check_event (e_type e) (e_job e) s, None)))) in
      exts s' = exts s \/ (exists y, exts s' = exts s ++ [y] /\ x_of y = e_job e) /\ run_again s e).
    { cbv zeta. destruct (mild_middle cp e s) as [Hm He]. apply andthen_fst; [intros _; left; apply Hm|]. intros _. by apply Hlast. }
    destruct (idem_cases rm rg rd u e s) as [Hs|(r & x & c & n & s' & Hj & Hr & Hs & Ht & H1 & H2 & H3 & H4 & H5 & H6 & H7)].
    - apply andthen_fst; rewrite Hs; [by left|]. intros _. exact Hmid.
    - assert (Hx : forall t, exts t = exts s' -> exts t = exts s \/ (exists y, exts t = exts s ++ [y] /\ x_of y = e_job e) /\ run_again s e).
      { intros t ->. destruct (resubmit_rows _ _ _ _ _ Hr) as [->|Hy]; [by left|]. right. split; [done|]. exists r, x.
        split; [done|]. split; [done|]. split; [done|]. split; [by apply resubmitted_0|]. right. split.
        - apply elem_of_cons in Ht as [->|Ht]; [by left|]. apply elem_of_list_singleton in Ht as ->. by right.
        - split; [by apply exit_99_spec|]. split; [by apply bool_decide_eq_true in H2|]. split; [by apply has_event_false|]. lia. }
      apply andthen_fst; rewrite Hs; [intros _; by apply Hx|]. intros _. apply Hx. destruct (mild_middle cp e s') as [Hm _].
      apply andthen_fst; [intros _; apply Hm|]. intros _. rewrite <- (mi_exts _ _ Hm).
      destruct (resub_cases rm rg rd u e (fst (middle cp e s'))) as [Hs2|(r2 & x2 & c2 & n2 & s2 & _ & _ & _ & Ht2 & _)]; [|by destruct (switch_not_error _ Ht Ht2)].
      apply andthen_fst; rewrite Hs2; done.
  Qed.

  Lemma run_event s0 l e s : new_ids s -> run rm rg rd u s0 l s -> let s' := fst (ncs_event rm rg rd u cp e s) in
    run rm rg rd u s0 (l ++ made s s' (e_job e)) s' /\ new_ids s'.
  Proof.
    intros Hn Hr. cbv zeta. set (s' := fst (ncs_event rm rg rd u cp e s)).
    (* the list of the jobs, whatever the phase in which the row was made *)
    assert (Hgen : exists l', run rm rg rd u s0 (l ++ l') s' /\ new_ids s' /\ exists ys, exts s' = exts s ++ ys /\ l' = x_of <$> ys).
    { unfold s'. rewrite ncs_event_eq.
      assert (Hadd : forall c n t t', new_ids t -> resub (e_job e) t = Ok (c, n, t') -> new_ids t' /\ exists ys, exts t' = exts t ++ ys /\ made t t' (e_job e) = x_of <$> ys).
      { intros c n t t' Ht H. split; [by eapply keeps_resubmit|]. unfold made. destruct (resubmit_rows _ _ _ _ _ H) as [->|(y & -> & Hy)].
        - exists []. rewrite Nat.eqb_refl. split; [symmetry; apply app_nil_r|done].
        - exists [y]. rewrite app_length. cbn [length]. destruct (Nat.eqb _ _) eqn:E; [apply Nat.eqb_eq in E; lia|]. split; [done|]. cbn. by rewrite Hy. }
      assert (H1 : forall t, exists t', fst (ncs_idempotent rm rg rd u e t) = t' /\ (new_ids t -> new_ids t') /\ (new_ids t -> exists ys, exts t' = exts t ++ ys /\ made t t' (e_job e) = x_of <$> ys)).
      { intros t. eexists. split; [done|]. destruct (idem_cases rm rg rd u e t) as [->|(r & x & c & n & t' & _ & H & -> & _)].
        - split; [done|]. intros _. exists []. unfold made. rewrite Nat.eqb_refl. split; [symmetry; apply app_nil_r|done].
        - split; intros Ht; by destruct (Hadd c n t t' Ht H). }
      assert (H3 : forall t, exists t', fst (ncs_resubmit rm rg rd u e t) = t' /\ (new_ids t -> new_ids t') /\ (new_ids t -> exists ys, exts t' = exts t ++ ys /\ made t t' (e_job e) = x_of <$> ys)).
      { intros t. eexists. split; [done|]. destruct (resub_cases rm rg rd u e t) as [->|(r & x & c & n & t' & _ & H & -> & _)].
        - split; [done|]. intros _. exists []. unfold made. rewrite Nat.eqb_refl. split; [symmetry; apply app_nil_r|done].
        - split; intros Ht; by destruct (Hadd c n t t' Ht H). }
      destruct (H1 s) as (s1 & E1 & N1 & Y1). specialize (N1 Hn). destruct (Y1 Hn) as (ys1 & X1 & M1).
      assert (R1 : run rm rg rd u s0 (l ++ (x_of <$> ys1)) s1). { rewrite <- M1, <- E1. by apply run_idempotent. }
      apply andthen_fst; rewrite E1; [intros _; exists (x_of <$> ys1); split; [done|]; split; [done|]; by exists ys1|]. intros _.
      destruct (mild_middle cp e s1) as [Hm _]. set (s2 := fst (middle cp e s1)) in *. assert (N2 : new_ids s2) by (by apply Hm).
      assert (R2 : run rm rg rd u s0 (l ++ (x_of <$> ys1)) s2) by (eapply run_other; [exact R1|apply Hm|done]).
      apply andthen_fst; fold s2; [intros _; exists (x_of <$> ys1); split; [done|]; split; [done|]; exists ys1; split; [by rewrite (mi_exts _ _ Hm)|done]|]. intros _.
      destruct (H3 s2) as (s3 & E3 & N3 & Y3). specialize (N3 N2). destruct (Y3 N2) as (ys3 & X3 & M3).
      assert (R3 : run rm rg rd u s0 ((l ++ (x_of <$> ys1)) ++ (x_of <$> ys3)) s3). { rewrite <- M3, <- E3. by apply run_error. }
      rewrite <- app_assoc, <- fmap_app in R3. assert (X3' : exts s3 = exts s ++ ys1 ++ ys3) by (rewrite X3, (mi_exts _ _ Hm), X1; symmetry; apply app_assoc).
      apply andthen_fst; rewrite E3; intros _; exists (x_of <$> (ys1 ++ ys3)); [by eauto|]. split; [|split; [done|by exists (ys1 ++ ys3)]].
      cbn [fst]. eapply run_other; [exact R3|apply mild_evs|done]. }
    destruct Hgen as (l' & Hl & Hn' & ys & Hy & ->). split; [|done].
    assert (Hm : made s s' (e_job e) = x_of <$> ys).
    { unfold made. destruct (event_rows e s) as [H|[(y & H & Hz) _]]; fold s' in H; rewrite H in *.
      - rewrite Nat.eqb_refl. rewrite <- (app_nil_r (exts s)) in Hy at 1. apply app_inv_head in Hy. by subst ys.
      - apply app_inv_head in Hy. subst ys. rewrite app_length. cbn [length]. destruct (Nat.eqb _ _) eqn:E; [apply Nat.eqb_eq in E; lia|]. cbn. by rewrite Hz. }
    by rewrite Hm.
  Qed.
End rows.

(** The treatment of any list of events, in one go, is such a history: the list of jobs resubmitted is that of the
    new rows. *)
Theorem C121_events : forall rm rg rd u cp L s, new_ids s -> exists ys, exts (fst (ncs_events rm rg rd u cp L s)) = exts s ++ ys /\
  run rm rg rd u s (x_of <$> ys) (fst (ncs_events rm rg rd u cp L s)) /\ NoDup (x_of <$> ys) /\
  forall y, y ∈ ys -> x_of y ∈ e_job <$> L /\ forall x, x ∈ exts s -> x_of x <> x_of y.
Proof.
  intros rm rg rd u cp L s Hn.
  assert (Hgen : forall L' s1 ys, new_ids s1 -> exts s1 = exts s ++ ys -> run rm rg rd u s (x_of <$> ys) s1 ->
    (forall y, y ∈ ys -> x_of y ∈ e_job <$> L /\ forall x, x ∈ exts s -> x_of x <> x_of y) -> (forall e, e ∈ L' -> e ∈ L) ->
    exists ys, exts (fst (ncs_events rm rg rd u cp L' s1)) = exts s ++ ys /\
      run rm rg rd u s (x_of <$> ys) (fst (ncs_events rm rg rd u cp L' s1)) /\
      forall y, y ∈ ys -> x_of y ∈ e_job <$> L /\ forall x, x ∈ exts s -> x_of x <> x_of y).
  { induction L' as [|e L' IH]; intros s1 ys Hn1 He Hr Hy HL; [by exists ys|]. cbn [ncs_events].
    destruct (run_event rm rg rd u cp s (x_of <$> ys) e s1 Hn1 Hr) as [Hr' Hn'].
    assert (Hstep : exists ys', exts (fst (ncs_event rm rg rd u cp e s1)) = exts s ++ ys' /\
      run rm rg rd u s (x_of <$> ys') (fst (ncs_event rm rg rd u cp e s1)) /\
      (forall y, y ∈ ys' -> x_of y ∈ e_job <$> L /\ forall x, x ∈ exts s -> x_of x <> x_of y)).
    { destruct (event_rows rm rg rd u cp e s1) as [H|[(y & H & Hz) Hagain]].
      - exists ys. rewrite H. split; [done|]. split; [|done]. unfold made in Hr'. rewrite H, Nat.eqb_refl, app_nil_r in Hr'. done.
      - exists (ys ++ [y]). rewrite H, He, app_assoc. split; [done|]. split.
        + unfold made in Hr'. rewrite H, app_length in Hr'. cbn [length] in Hr'. destruct (Nat.eqb _ _) eqn:E; [apply Nat.eqb_eq in E; lia|].
          rewrite fmap_app. cbn. by rewrite Hz.
        + intros y0 [Hy0|Hy0]%elem_of_app; [by apply Hy|]. apply elem_of_list_singleton in Hy0 as ->. rewrite Hz. split.
          * apply elem_of_list_fmap. exists e. split; [done|]. apply HL. left.
          * destruct Hagain as (_ & _ & _ & _ & _ & Hno & _). intros x Hx. apply Hno. rewrite He. apply elem_of_app. by left. }
    destruct Hstep as (ys' & X1 & X2 & X3). apply andthen_fst; [intros _; by exists ys'|]. intros _. apply (IH _ ys'); try done.
    intros e0 He0. apply HL. by right. }
  destruct (Hgen L s [] Hn) as (ys & H1 & H2 & H3); try done.
  - symmetry. apply app_nil_r.
  - constructor.
  - by intros y Hy%elem_of_nil.
  - exists ys. split; [done|]. split; [done|]. split; [by eapply C121_at_most_once|done].
Qed.
(** A job is run again after an event only if ... *)
Theorem C122_who : forall rm rg rd u cp e s y, y ∈ exts (fst (ncs_event rm rg rd u cp e s)) -> y ∉ exts s ->
  x_of y = e_job e /\ run_again s e.
Proof.
  intros rm rg rd u cp e s y Hy Hn. destruct (event_rows rm rg rd u cp e s) as [H|[(y' & H & Hz) Ha]]; rewrite H in Hy; [done|].
  apply elem_of_app in Hy as [Hy|Hy]; [done|]. by apply elem_of_list_singleton in Hy as ->.
Qed.

Lemma in_dec (t : string) (l l' : list string) : t ∈ l -> forallb (fun x => bool_decide (x ∈ l')) l = true -> t ∈ l'.
Proof.
  intros Ht H. rewrite forallb_forall in H. assert (Hin : In t l) by (by apply elem_of_list_In). specialize (H t Hin). by apply bool_decide_eq_true in H.
Qed.
Lemma not_in_dec (t : string) (l l' : list string) : t ∈ l -> forallb (fun x => negb (bool_decide (x ∈ l'))) l = true -> t ∉ l'.
Proof.
  intros Ht H. rewrite forallb_forall in H. assert (Hin : In t l) by (by apply elem_of_list_In). specialize (H t Hin).
  apply negb_true_iff in H. by apply bool_decide_eq_false in H.
Qed.
Lemma is_in_true t l : t ∈ l -> is_in t l = true.
Proof. intros H. by apply bool_decide_eq_true. Qed.
Lemma is_in_false t l : t ∉ l -> is_in t l = false.
Proof. intros H. by apply bool_decide_eq_false. Qed.
Lemma in_rest (t : string) (l l1 l2 : list string) : t ∈ l -> t ∉ l1 -> forallb (fun x => bool_decide (x ∈ l1 ++ l2)) l = true -> t ∈ l2.
Proof. intros H1 H2 H3. assert (H : t ∈ l1 ++ l2) by (by eapply in_dec). apply elem_of_app in H as [H|H]; done. Qed.

Lemma set_error_over s id r x : job_of s id = Some (r, x) -> jstate r ∈ known -> is_over (set_job_state id "Error" s) id.
Proof.
  intros Hj Hk. destruct (set_job_state_jobs id "Error" s) as (E & _ & _). apply job_of_inv in Hj as (Hr & _ & Hid & _ & Hf & _).
  unfold is_over. rewrite E. split.
  - eexists. split; [apply elem_of_list_fmap_1, Hr|]. by destruct (_ && _).
  - intros r' (r0 & -> & Hr0)%elem_of_list_fmap. destruct (bool_decide (jid r0 = id) && bool_decide (jstate r0 ∈ live_states) && negb (bool_decide (jstate r0 = "Error"%string))) eqn:Eb; cbn [jid jstate].
    + intros _. apply over_error.
    + intros He. assert (r0 = r) as ->. { assert (H : r0 ∈ base.filter (fun r => jid r = id) (jobs (rq s))) by (by apply elem_of_list_filter). rewrite Hf in H. by apply elem_of_list_singleton in H. }
      change known with (live_states ++ over) in Hk. apply elem_of_app in Hk as [Hk|Hk]; [|done]. destruct (decide (jstate r = "Error"%string)) as [->|Hne]; [apply over_error|].
      rewrite (bool_decide_eq_true_2 _ He), (bool_decide_eq_true_2 _ Hk), (bool_decide_eq_false_2 _ Hne) in Eb. done.
Qed.
Lemma allowed_empty_key rm rg rd u s id r x k : job_of s id = Some (r, x) -> x_type x = "PASSIVE"%string -> is_over s id -> (u = "oar"%string \/ u = "root"%string) ->
  base.filter (fun k => fst (fst k) = id) (keys s) = [(k, EmptyString, EmptyString)] -> exists n s', resubmit rm rg rd u id s = Ok (0, n, s').
Proof.
  intros Hj Ht [_ Ho] Hu Hk. apply C120_allowed. exists r, x, k, EmptyString, EmptyString. split; [done|]. split; [done|]. split; [done|].
  split; [apply job_of_inv in Hj as (Hr & _ & Hid & _); by apply Ho|]. split; [tauto|]. by intros [? _].
Qed.
(** The state in which the job may be resubmitted is reached, and no exception is raised. *)
Lemma states_system e s r x : job_of s (e_job e) = Some (r, x) -> snd (ncs_states e s) = None /\
  (e_type e ∈ error_events -> jresv r = "None"%string -> jstate r ∈ known -> e_type e ∈ system_errors -> is_over (fst (ncs_states e s)) (e_job e)).
Proof.
  intros Hj. assert (Hl : look (states1 e s) (e_job e) = look s (e_job e)).
  { unfold states1. destruct (is _ _); [apply mild_set_job_state, over_terminated|]. destruct (_ || _); [apply mild_set_job_state, over_error|done]. }
  unfold ncs_states. cbv zeta. change (if is (e_type e) "SWITCH_INTO_TERMINATE_STATE" then _ else _) with (states1 e s).
  rewrite (look_job _ _ _ _ Hj) in Hl. apply look_inv in Hl as (r1 & Hj1 & Hv). split.
  - unfold andthen. destruct (is_in _ _); [|done]. rewrite Hj1. destruct (_ || _); [done|]. destruct (_ && _); done.
  - intros He Hn Hk Ht. rewrite (is_in_true _ _ He), Hj1. unfold is at 1. rewrite (bool_decide_eq_true_2 _ (eq_trans Hv Hn)). cbn [orb]. unfold andthen. cbn [snd fst].
    assert (Hs1 : states1 e s = s).
    { unfold states1. assert (E1 : is (e_type e) "SWITCH_INTO_TERMINATE_STATE" = false). { apply bool_decide_eq_false. intros E. rewrite E in Ht. apply (bool_decide_eq_true_2 _) in Ht. vm_compute in Ht. discriminate. }
      assert (E2 : is (e_type e) "SWITCH_INTO_ERROR_STATE" = false). { apply bool_decide_eq_false. intros E. rewrite E in Ht. apply (bool_decide_eq_true_2 _) in Ht. vm_compute in Ht. discriminate. }
      assert (E3 : is (e_type e) "FORCE_TERMINATE_FINISHING_JOB" = false). { apply bool_decide_eq_false. intros E. rewrite E in Ht. apply (bool_decide_eq_true_2 _) in Ht. vm_compute in Ht. discriminate. }
      by rewrite E1, E2, E3. }
    rewrite Hs1. assert (Hov : is_over (set_job_state (e_job e) "Error" s) (e_job e)) by (by eapply set_error_over).
    destruct (_ || _); [|done]. by apply (mild_set_job_state (e_job e) "Terminated" (set_job_state (e_job e) "Error" s) over_terminated).
Qed.
Lemma hosts_ok cp e s r x : job_of s (e_job e) = Some (r, x) -> (e_type e ∈ first_host -> exists h, host_of_job s (e_job e) h) -> snd (ncs_suspect cp e s) = None.
Proof.
  intros Hj Hh. unfold ncs_suspect. destruct (is_in (e_type e) host_events) eqn:E0; [|done]. apply bool_decide_eq_true in E0.
  unfold ncs_hosts. destruct (is _ _ || is _ _) eqn:E1; [done|]. destruct (is_in (e_type e) sr_events) eqn:E2; [done|]. rewrite Hj.
  destruct (negb (is_in (e_type e) lt_events)) eqn:E3; [|by destruct (_ && _)].
  apply negb_true_iff, bool_decide_eq_false in E3. apply bool_decide_eq_false in E2. apply orb_false_iff in E1 as [E1 E1']. apply bool_decide_eq_false in E1. apply bool_decide_eq_false in E1'.
  destruct Hh as (h & r' & x' & Hj' & Hin).
  { apply (in_rest (e_type e) host_events (["PING_CHECKER_NODE_SUSPECTED"; "PING_CHECKER_NODE_SUSPECTED_END_JOB"]%string ++ sr_events ++ lt_events)); [done| |reflexivity].
    intros [H|[H|H]%elem_of_app]%elem_of_app; [|done|done]. apply elem_of_cons in H as [H|H]; [done|]. by apply elem_of_list_singleton in H. }
  rewrite Hj in Hj'. injection Hj' as <- <-. destruct (hosts_of_job s (x_mld x)) eqn:E; [|done].
  assert (Hx : h ∈ hosts_of_job s (x_mld x)). { apply elem_of_remove_dups, elem_of_list_fmap. exists (x_mld x, h). split; [done|]. by apply elem_of_list_filter. }
  rewrite E in Hx. by apply elem_of_nil in Hx.
Qed.
Lemma middle_ok cp e s r x : job_of s (e_job e) = Some (r, x) -> (e_type e ∈ first_host -> exists h, host_of_job s (e_job e) h) -> snd (middle cp e s) = None.
Proof.
  intros Hj Hh. unfold middle. destruct (states_system e s r x Hj) as [H1 _]. destruct (calm_states e s) as (Hm & _). unfold andthen at 1. rewrite H1.
  set (s1 := fst (ncs_states e s)) in *. pose proof (look_job _ _ _ _ Hj) as Hl. rewrite <- (mi_look _ _ Hm) in Hl. apply look_inv in Hl as (r1 & Hj1 & _).
  assert (H2 : snd (ncs_suspect cp e s1) = None).
  { eapply hosts_ok; [exact Hj1|]. intros Ht. destruct (Hh Ht) as (h & r' & x' & Hj' & Hin). exists h, r1, x. split; [done|]. rewrite Hj in Hj'. injection Hj' as <- <-. by rewrite (mi_as _ _ Hm). }
  unfold andthen. by rewrite H2.
Qed.
Lemma middle_over cp e s r x : job_of s (e_job e) = Some (r, x) -> (e_type e ∈ first_host -> exists h, host_of_job s (e_job e) h) ->
  jresv r = "None"%string -> jstate r ∈ known -> e_type e ∈ system_errors -> is_over (fst (middle cp e s)) (e_job e).
Proof.
  intros Hj Hh Hv Hk Ht. unfold middle. destruct (states_system e s r x Hj) as [H1 H1']. destruct (calm_states e s) as (Hm & _). unfold andthen at 1. rewrite H1.
  set (s1 := fst (ncs_states e s)) in *. pose proof (look_job _ _ _ _ Hj) as Hl. rewrite <- (mi_look _ _ Hm) in Hl. apply look_inv in Hl as (r1 & Hj1 & _).
  assert (H2 : snd (ncs_suspect cp e s1) = None).
  { eapply hosts_ok; [exact Hj1|]. intros Ht'. destruct (Hh Ht') as (h & r' & x' & Hj' & Hin). exists h, r1, x. split; [done|]. rewrite Hj in Hj'. injection Hj' as <- <-. by rewrite (mi_as _ _ Hm). }
  unfold andthen. rewrite H2. destruct (mild_suspect cp e s1) as (Hm2 & _). set (s2 := fst (ncs_suspect cp e s1)) in *.
  destruct (decide (e_type e ∈ error_events)) as [He|He].
  - apply mild_server, Hm2. by apply H1'.
  - assert (Hs : e_type e ∈ server_events) by (by apply (in_rest (e_type e) system_errors error_events server_events)).
    assert (H3 : ncs_states e s = (s, None)).
    { unfold ncs_states. cbv zeta. rewrite (is_in_false _ _ He).
      assert (Hno : forall t, negb (bool_decide (t ∈ server_events)) = true -> is (e_type e) t = false).
      { intros t H. apply bool_decide_eq_false. intros E. rewrite E in Hs. apply negb_true_iff, bool_decide_eq_false in H. done. }
      rewrite !Hno by reflexivity. done. }
    unfold ncs_server. rewrite (is_in_true _ _ Hs). cbn [fst].
    assert (Hl2 : look (stop_queues s2) (e_job e) = look s (e_job e)). { change (look (stop_queues s2) (e_job e)) with (look s2 (e_job e)). rewrite (mi_look _ _ Hm2). apply Hm. }
    assert (Hs2 : rq s2 = rq s /\ exts s2 = exts s).
    { unfold s2. destruct (suspect_effect cp e s1) as [L ->]. unfold s1. rewrite H3. done. }
    eapply set_error_over; [|exact Hk]. unfold job_of. change (rq (stop_queues s2)) with (rq s2). change (exts (stop_queues s2)) with (exts s2). destruct Hs2 as [-> ->]. exact Hj.
Qed.
(** ... and it is, for a job without key, when it is known to be over or the error itself ends it. *)
Theorem C122_when : forall rm rg rd u cp e s r x k, (u = "oar"%string \/ u = "root"%string) -> run_again s e ->
  job_of s (e_job e) = Some (r, x) -> base.filter (fun k => fst (fst k) = e_job e) (keys s) = [(k, EmptyString, EmptyString)] ->
  (e_type e ∈ first_host -> exists h, host_of_job s (e_job e) h) ->
  jstate r ∈ (if bool_decide (e_type e ∈ system_errors) then known else over) ->
  exists y, exts (fst (ncs_event rm rg rd u cp e s)) = exts s ++ [y] /\ x_of y = e_job e.
Proof.
  intros rm rg rd u cp e s r x k Hu (r0 & x0 & Hj0 & Hv & Hp & Hno & Hcase) Hj Hk Hh Hst. rewrite Hj in Hj0. injection Hj0 as <- <-.
  assert (Hone : exists y, y ∈ exts (fst (ncs_event rm rg rd u cp e s)) /\ x_of y = e_job e).
  2: { destruct Hone as (y & Hy & Ey). destruct (event_rows rm rg rd u cp e s) as [H|[(y' & H & Hz) _]].
       - rewrite H in Hy. by destruct (Hno y Hy).
       - eauto. }
  rewrite ncs_event_eq. destruct Hcase as [Ht|[Ht (Ha & Hi & Hkill & Hlong)]].
  - rewrite (bool_decide_eq_true_2 _ Ht) in Hst.
    assert (Hid : ncs_idempotent rm rg rd u e s = (s, None)).
    { unfold ncs_idempotent. assert (Hnt : forall t, negb (bool_decide (t ∈ system_errors)) = true -> is (e_type e) t = false).
      { intros t H. apply bool_decide_eq_false. intros E. rewrite E in Ht. apply negb_true_iff, bool_decide_eq_false in H. done. }
      rewrite !Hnt by reflexivity. done. }
    rewrite Hid. unfold andthen at 1. cbn [fst snd]. unfold andthen at 1. rewrite (middle_ok cp e s r x Hj Hh).
    destruct (mild_middle cp e s) as [Hm _]. pose proof (middle_over cp e s r x Hj Hh Hv Hst Ht) as Hov. set (s1 := fst (middle cp e s)) in *.
    pose proof (look_job _ _ _ _ Hj) as Hl. rewrite <- (mi_look _ _ Hm) in Hl. apply look_inv in Hl as (r1 & Hj1 & Hv1).
    destruct (allowed_empty_key rm rg rd u s1 (e_job e) r1 x k Hj1 Hp Hov Hu) as (n & s' & Hr); [by rewrite (mi_keys _ _ Hm)|].
    assert (Hres : ncs_resubmit rm rg rd u e s1 = (add_event "RESUBMIT_JOB_AUTOMATICALLY" (e_job e) s', None)).
    { unfold ncs_resubmit. rewrite is_in_true by exact Ht. rewrite Hj1, Hr. unfold is. rewrite (bool_decide_eq_true_2 _ (eq_trans Hv1 Hv)), (bool_decide_eq_true_2 _ Hp).
      rewrite (proj2 (resubmitted_0 s1 (e_job e))); [done|]. by rewrite (mi_exts _ _ Hm). }
    rewrite Hres. unfold andthen. cbn [fst snd]. change (exts (check_event _ _ _)) with (exts s'). apply resubmit_ext in Hr as (r2 & x2 & _ & -> & _).
    exists (copy_ext (e_job e) n x2). split; [|done]. apply elem_of_app. right. left.
  - assert (Ht' : e_type e ∈ ["SWITCH_INTO_TERMINATE_STATE"; "SWITCH_INTO_ERROR_STATE"]%string). { destruct Ht as [->| ->]; by_dec. }
    assert (Hns : e_type e ∉ system_errors) by (by eapply not_in_dec).
    rewrite (bool_decide_eq_false_2 _ Hns) in Hst. assert (Hov : is_over s (e_job e)).
    { apply job_of_inv in Hj as (Hr & _ & Hid & _ & Hf & _). split; [by exists r|]. intros r' Hr' He.
      assert (H : r' ∈ base.filter (fun r => jid r = e_job e) (jobs (rq s))) by (by apply elem_of_list_filter). rewrite Hf in H. by apply elem_of_list_singleton in H as ->. }
    destruct (allowed_empty_key rm rg rd u s (e_job e) r x k Hj Hp Hov Hu Hk) as (n & s' & Hr).
    assert (Hid : ncs_idempotent rm rg rd u e s = (s', None)).
    { unfold ncs_idempotent. rewrite Hj, Hr. unfold is.
      assert (E0 : bool_decide (e_type e = "SWITCH_INTO_TERMINATE_STATE"%string) || bool_decide (e_type e = "SWITCH_INTO_ERROR_STATE"%string) = true).
      { apply orb_true_iff. destruct Ht; [left|right]; by apply bool_decide_eq_true. }
      rewrite E0, (proj2 (exit_99_spec x)) by done. unfold has_type. rewrite (bool_decide_eq_true_2 _ Hi), (bool_decide_eq_true_2 _ Hv), (bool_decide_eq_true_2 _ Hp).
      rewrite (proj2 (resubmitted_0 s (e_job e))) by done. rewrite (proj2 (has_event_false s (e_job e) _)) by done. destruct (Z.ltb_spec 60 (x_stop x - x_start x)); [done|lia]. }
    rewrite Hid. unfold andthen at 1. cbn [fst snd].
    assert (Hin : exists y, y ∈ exts s' /\ x_of y = e_job e).
    { apply resubmit_ext in Hr as (r2 & x2 & _ & -> & _). exists (copy_ext (e_job e) n x2). split; [|done]. apply elem_of_app. right. left. }
    destruct Hin as (y & Hy & Ey). exists y. split; [|done].
    destruct (mild_middle cp e s') as [Hm _]. apply andthen_fst; [intros _; by rewrite (mi_exts _ _ Hm)|]. intros _. rewrite <- (mi_exts _ _ Hm) in Hy.
    destruct (resub_cases rm rg rd u e (fst (middle cp e s'))) as [Hs2|(r2 & x2 & c2 & n2 & s2 & _ & _ & _ & Ht2 & _)]; [|by destruct (switch_not_error _ Ht' Ht2)].
    apply andthen_fst; rewrite Hs2; done.
Qed.

(** ** C122, refuted: jobs that should not run again *)
(** The user deleted the job, which was being launched; the error of the launch comes after. *)
Definition del_sys (state t : string) : sys :=
  mkSys (mkDb [mkJob 1 state 1 1 "a" None "None"] [mkMld 1 1 60] [mkGrp 1 1 ""] [mkDesc 1 "nodes" 1 0] [] [] [] 2 2 2)
    [mkExt 1 "bob" "PASSIVE" 0 100 100 "NO" "NO" 1 (Some 0) 0 "" "" ""] [(1, ""%string, ""%string)]
    [mkEv 1 "FRAG_JOB_REQUEST" 1 "NO"; mkEv 2 "SEND_KILL_JOB" 1 "NO"; mkEv 3 t 1 "YES"] [(3, "node1"%string)] [(1, "node1"%string)] []
    [("default"%string, "Active"%string)].
Theorem C122_deleted_refuted : exists s, (exists e, e ∈ evs s /\ e_type e = "FRAG_JOB_REQUEST"%string /\ e_job e = 1) /\
  exists r x, job_of (fst (ncs ids ids ids "oar" true s)) 2 = Some (r, x) /\ jstate r = "Waiting"%string /\ jcmd r = "a"%string /\ x_of x = 1.
Proof.
  exists (del_sys "Launching" "CPUSET_ERROR"). split; [eexists; split; [left|done]|]. eexists _, _. split; [vm_compute; reflexivity|]. done.
Qed.
(** A job that ran to its end, exit code 0, not idempotent, is run again when a script of the server takes too long. *)
Definition end_sys : sys :=
  mkSys (mkDb [mkJob 1 "Finishing" 1 1 "a" None "None"] [mkMld 1 1 60] [mkGrp 1 1 ""] [mkDesc 1 "nodes" 1 0] [] [] [] 2 2 2)
    [mkExt 1 "bob" "PASSIVE" 0 100 5000 "NO" "NO" 1 (Some 0) 0 "" "" ""] [(1, ""%string, ""%string)]
    [mkEv 1 "SWITCH_INTO_TERMINATE_STATE" 1 "YES"; mkEv 2 "SERVER_EPILOGUE_TIMEOUT" 1 "YES"] [] [(1, "node1"%string)] [] [("default"%string, "Active"%string)].
Theorem C122_finished_refuted : exists s, has_type s 1 "idempotent" = false /\ (exists r x, job_of s 1 = Some (r, x) /\ x_exit x = Some 0) /\
  let s' := fst (ncs ids ids ids "oar" true s) in states_of s' 1 = ["Terminated"%string] /\
  exists r x, job_of s' 2 = Some (r, x) /\ jstate r = "Waiting"%string /\ jcmd r = "a"%string /\ x_of x = 1.
Proof.
  exists end_sys. split; [reflexivity|]. split; [eexists _, _; split; [vm_compute; reflexivity|done]|]. cbv zeta. split; [vm_compute; reflexivity|].
  eexists _, _. split; [vm_compute; reflexivity|]. done.
Qed.
Theorem C122_example : run_again (del_sys "Launching" "CPUSET_ERROR") (mkEv 3 "CPUSET_ERROR" 1 "YES").
Proof.
  eexists _, _. split; [vm_compute; reflexivity|]. split; [done|]. split; [done|]. split.
  - intros y Hy. cbn [exts del_sys] in Hy. apply elem_of_list_singleton in Hy as ->. done.
  - left. by_dec.
Qed.
(** Two jobs, two nodes lost, one job killed that was already resubmitted. *)
Definition two_sys : sys :=
  mkSys (mkDb [mkJob 1 "toLaunch" 1 1 "a" None "None"; mkJob 2 "toLaunch" 2 1 "b" None "None"] [mkMld 1 1 60; mkMld 2 2 60] [mkGrp 1 1 ""; mkGrp 2 2 ""]
           [mkDesc 1 "nodes" 1 0; mkDesc 2 "nodes" 1 0] [] [] [] 3 3 3)
    [mkExt 1 "bob" "PASSIVE" 0 100 100 "NO" "NO" 1 None 0 "" "" ""; mkExt 2 "bob" "PASSIVE" 0 100 100 "NO" "NO" 2 None 0 "" "" ""]
    [(1, ""%string, ""%string); (2, ""%string, ""%string)]
    [mkEv 1 "PING_CHECKER_NODE_SUSPECTED" 1 "YES"; mkEv 2 "PING_CHECKER_NODE_SUSPECTED" 1 "YES"; mkEv 3 "PING_CHECKER_NODE_SUSPECTED" 2 "YES"]
    [(1, "node1"%string); (2, "node2"%string); (3, "node1"%string)] [(1, "node1"%string); (1, "node2"%string); (2, "node1"%string)] [] [("default"%string, "Active"%string)].
Theorem C121_example : new_ids two_sys /\ exists ys, exts (fst (ncs ids ids ids "oar" true two_sys)) = exts two_sys ++ ys /\ x_of <$> ys = [1; 2] /\
  suspected (fst (ncs ids ids ids "oar" true two_sys)) = [("node1", "YES"); ("node2", "YES"); ("node1", "YES")]%string.
Proof.
  split.
  - intros r Hr. cbn [jobs rq two_sys] in Hr. apply elem_of_cons in Hr as [->|Hr]; [done|]. apply elem_of_list_singleton in Hr as ->. done.
  - exists (drop 2 (exts (fst (ncs ids ids ids "oar" true two_sys)))). split; [vm_compute; reflexivity|]. split; vm_compute; reflexivity.
Qed.

(** ** C123: the nodes suspected *)
Section blame.
  Variable rm : list mldrow -> list mldrow.
  Variable rg : list grprow -> list grprow.
  Variable rd : list descrow -> list descrow.
  Variable u : string.
  Variable cp : bool.

  Lemma suspected_resubmit id s c n s' : resubmit rm rg rd u id s = Ok (c, n, s') -> suspected s' = suspected s /\ queues s' = queues s /\ evs s' = evs s.
  Proof.
    intros H. destruct (decide (c = 0)) as [->|Hc].
    - apply resubmit_ok in H as (r & x & k & priv & pub & _ & _ & _ & _ & ->). done.
    - by apply C120_refused in H as [_ ->].
  Qed.
  Lemma suspected_idem e s : suspected (fst (ncs_idempotent rm rg rd u e s)) = suspected s /\ queues (fst (ncs_idempotent rm rg rd u e s)) = queues s /\
    evs (fst (ncs_idempotent rm rg rd u e s)) = evs s.
  Proof. destruct (idem_cases rm rg rd u e s) as [->|(r & x & c & n & s' & _ & H & -> & _)]; [done|by eapply suspected_resubmit]. Qed.
  Lemma suspected_last e s : suspected (fst (ncs_resubmit rm rg rd u e s)) = suspected s /\ queues (fst (ncs_resubmit rm rg rd u e s)) = queues s.
  Proof.
    destruct (resub_cases rm rg rd u e s) as [->|(r & x & c & n & s' & _ & H & -> & _)]; [done|]. apply suspected_resubmit in H as (? & ? & _). done.
  Qed.
  Lemma idem_host e s : e_type e ∈ host_events -> ncs_idempotent rm rg rd u e s = (s, None).
  Proof.
    intros Ht. unfold ncs_idempotent. assert (Hnt : forall t, negb (bool_decide (t ∈ host_events)) = true -> is (e_type e) t = false).
    { intros t H. apply bool_decide_eq_false. intros E. rewrite E in Ht. apply negb_true_iff, bool_decide_eq_false in H. done. }
    rewrite !Hnt by reflexivity. done.
  Qed.
  Lemma andthen_ok o f s' : andthen o f = (s', None) -> snd o = None /\ f (fst o) = (s', None).
  Proof. unfold andthen. destruct o as [t [er|]]; cbn [fst snd]; [done|]. done. Qed.
  Lemma host_of_mild s s' j h : mild s s' -> host_of_job s' j h <-> host_of_job s j h.
  Proof.
    intros Hm. unfold host_of_job. split; intros (r & x & Hj & Hin).
    - apply look_job in Hj. rewrite (mi_look _ _ Hm) in Hj. apply look_inv in Hj as (r' & Hj & _). exists r', x. split; [done|]. by rewrite <- (mi_as _ _ Hm).
    - apply look_job in Hj. rewrite <- (mi_look _ _ Hm) in Hj. apply look_inv in Hj as (r' & Hj & _). exists r', x. split; [done|]. by rewrite (mi_as _ _ Hm).
  Qed.
  (** What the phase does in a state like [s]. *)
  Lemma suspect_phase e s s' : ncs_event rm rg rd u cp e s = (s', None) ->
    (e_type e ∉ host_events /\ suspected s' = suspected s) \/
    (e_type e ∈ host_events /\ exists t hosts fin, mild s t /\ ncs_hosts cp e t = Ok (hosts, fin) /\
       suspected s' = suspected s ++ ((fun h => (h, fin)) <$> base.filter (fun h => h <> EmptyString) (remove_dups hosts))).
  Proof.
    unfold ncs_event. intros H. apply andthen_ok in H as [H1 H]. set (s1 := fst (ncs_idempotent rm rg rd u e s)) in *.
    apply andthen_ok in H as [H2 H]. set (s2 := fst (ncs_states e s1)) in *. apply andthen_ok in H as [H3 H]. set (s3 := fst (ncs_suspect cp e s2)) in *.
    apply andthen_ok in H as [H4 H]. set (s4 := fst (ncs_server e s3)) in *. apply andthen_ok in H as [H5 H]. set (s5 := fst (ncs_resubmit rm rg rd u e s4)) in *.
    injection H as <-. change (suspected (check_event (e_type e) (e_job e) s5)) with (suspected s5).
    assert (E5 : suspected s5 = suspected s4) by apply suspected_last. assert (E4 : suspected s4 = suspected s3) by apply mild_server.
    assert (E2 : suspected s2 = suspected s1) by apply calm_states. assert (E1 : suspected s1 = suspected s) by apply suspected_idem.
    destruct (decide (e_type e ∈ host_events)) as [Ht|Ht].
    - right. split; [done|]. unfold ncs_suspect in H3. rewrite (is_in_true _ _ Ht) in H3. destruct (ncs_hosts cp e s2) as [[hosts fin]|] eqn:Eh; [|done].
      exists s2, hosts, fin. split; [|split; [done|]].
      + assert (Es : s1 = s) by (unfold s1; by rewrite idem_host). unfold s2. rewrite Es. apply calm_states.
      + rewrite E5, E4. unfold s3, ncs_suspect. rewrite (is_in_true _ _ Ht), Eh. cbn [fst suspected with_suspected]. congruence.
    - left. split; [done|]. rewrite E5, E4. unfold s3, ncs_suspect. rewrite (is_in_false _ _ Ht). cbn [fst]. congruence.
  Qed.
End blame.
Lemma elem_of_hosts_of_event s i h : h ∈ hosts_of_event s i <-> (i, h) ∈ ehosts s.
Proof.
  unfold hosts_of_event. rewrite elem_of_list_fmap. split.
  - intros ([i' h'] & -> & [Hi Hin]%elem_of_list_filter). cbn in *. by subst i'.
  - intros H. exists (i, h). split; [done|]. by apply elem_of_list_filter.
Qed.
Lemma elem_of_hosts_of_job s m h : h ∈ hosts_of_job s m <-> (m, h) ∈ assigned s.
Proof.
  unfold hosts_of_job. rewrite elem_of_remove_dups, elem_of_list_fmap. split.
  - intros ([i' h'] & -> & [Hi Hin]%elem_of_list_filter). cbn in *. by subst i'.
  - intros H. exists (m, h). split; [done|]. by apply elem_of_list_filter.
Qed.
Lemma not_named cp s e h : e_type e ∉ host_events -> ~ blamed cp s e h.
Proof.
  intros Ht (_ & [[H _]|[[H|[H _]] _]]).
  - apply Ht. by apply (in_dec _ named_by_event).
  - apply Ht. by apply (in_dec _ whole_job).
  - apply Ht. rewrite H. by_dec.
Qed.
(** Exactly the nodes blamed by the event, each once; set by the check of the nodes (finaud) or not. *)
Theorem C123_blamed : forall rm rg rd u cp e s s', ncs_event rm rg rd u cp e s = (s', None) -> e_type e ∉ first_host ->
  exists L, suspected s' = suspected s ++ L /\ NoDup (fst <$> L) /\
    forall h t, (h, t) ∈ L <-> blamed cp s e h /\ t = (if bool_decide (e_type e ∈ ping_events) then "YES" else "NO")%string.
Proof.
  intros rm rg rd u cp e s s' H Hf. destruct (suspect_phase rm rg rd u cp e s s' H) as [[Ht Hs]|(Ht & t & hosts & fin & Hm & Hh & Hs)].
  - exists []. rewrite Hs, app_nil_r. split; [done|]. split; [constructor|]. intros h t. split; [by intros Hx%elem_of_nil|]. intros [Hb _]. by apply not_named in Hb.
  - eexists. split; [exact Hs|]. split.
    { rewrite <- list_fmap_compose. apply NoDup_fmap_2_strong; [done|]. apply NoDup_filter, NoDup_remove_dups. }
    assert (Hkey : (forall h, h ∈ hosts <-> ((e_type e ∈ named_by_event /\ (e_id e, h) ∈ ehosts s) \/ ((e_type e ∈ whole_job \/ (e_type e = "EXTERMINATE_JOB"%string /\ cp = false)) /\ host_of_job s (e_job e) h))) /\
      fin = (if bool_decide (e_type e ∈ ping_events) then "YES" else "NO")%string).
    { unfold ncs_hosts in Hh. destruct (is (e_type e) "PING_CHECKER_NODE_SUSPECTED" || is (e_type e) "PING_CHECKER_NODE_SUSPECTED_END_JOB") eqn:E1.
      { assert (Hp : e_type e ∈ ping_events). { apply orb_true_iff in E1 as [E1|E1]; apply bool_decide_eq_true in E1; rewrite E1; by_dec. }
        injection Hh as <- <-. rewrite (bool_decide_eq_true_2 _ Hp). split; [|done]. intros h. rewrite elem_of_hosts_of_event, (mi_eh _ _ Hm). split.
        - intros Hin. left. split; [|done]. by apply (in_dec _ ping_events).
        - intros [[_ Hx]|[[Hx|[Hx _]] _]]; [done|..]; exfalso; [revert Hx; by apply (not_in_dec _ ping_events)|]. rewrite Hx in Hp. apply (bool_decide_eq_true_2 _) in Hp. vm_compute in Hp. discriminate. }
      assert (Hp : e_type e ∉ ping_events). { intros [E|[E|E%elem_of_nil]%elem_of_cons]%elem_of_cons; [..|done]; unfold is in E1; rewrite E in E1; vm_compute in E1; discriminate. }
      rewrite (bool_decide_eq_false_2 _ Hp). destruct (is_in (e_type e) sr_events) eqn:E2.
      { apply bool_decide_eq_true in E2. injection Hh as <- <-. split; [|done]. intros h. rewrite elem_of_hosts_of_event, (mi_eh _ _ Hm). split.
        - intros Hin. left. split; [|done]. by apply (in_dec _ sr_events).
        - intros [[_ Hx]|[[Hx|[Hx _]] _]]; [done|..]; exfalso; [revert Hx; by apply (not_in_dec _ sr_events)|]. rewrite Hx in E2. apply (bool_decide_eq_true_2 _) in E2. vm_compute in E2. discriminate. }
      apply bool_decide_eq_false in E2. assert (Hnn : e_type e ∉ named_by_event).
      { intros Hx. apply E2. apply (in_rest _ named_by_event ping_events sr_events); [done|done|reflexivity]. }
      destruct (job_of t (e_job e)) as [[r x]|] eqn:Ej; [|done].
      destruct (negb (is_in (e_type e) lt_events)) eqn:E3.
      { exfalso. apply negb_true_iff, bool_decide_eq_false in E3. apply Hf. apply (in_rest _ host_events (ping_events ++ sr_events ++ lt_events)); [done| |reflexivity].
        intros [Hx|[Hx|Hx]%elem_of_app]%elem_of_app; done. }
      apply negb_false_iff, bool_decide_eq_true in E3.
      assert (Hw : e_type e ∈ whole_job \/ e_type e = "EXTERMINATE_JOB"%string).
      { destruct (decide (e_type e = "EXTERMINATE_JOB"%string)) as [E|E]; [by right|left]. apply (in_rest _ lt_events ("EXTERMINATE_JOB"%string :: sr_events)); [done| |reflexivity].
        intros [Hx|Hx]%elem_of_cons; done. }
      assert (Hof : forall h, h ∈ hosts_of_job t (x_mld x) <-> host_of_job s (e_job e) h).
      { intros h. rewrite elem_of_hosts_of_job, <- (host_of_mild s t _ _ Hm). split.
        - intros Hx. by exists r, x.
        - intros (r' & x' & Hj' & Hx). rewrite Ej in Hj'. by injection Hj' as <- <-. }
      destruct (cp && is (e_type e) "EXTERMINATE_JOB") eqn:E4.
      - injection Hh as <- <-. apply andb_true_iff in E4 as [-> E4]. apply bool_decide_eq_true in E4. split; [|done]. intros h. split; [by intros Hx%elem_of_nil|].
        intros [[Hx _]|[[Hx|[_ Hx]] _]]; [done| |done]. rewrite E4 in Hx. apply (bool_decide_eq_true_2 _) in Hx. vm_compute in Hx. discriminate.
      - injection Hh as <- <-. split; [|done]. intros h. rewrite Hof. split.
        + intros Hx. right. split; [|done]. destruct Hw as [Hw|Hw]; [by left|]. right. split; [done|]. destruct cp; [|done]. unfold is in E4. rewrite Hw in E4. vm_compute in E4. discriminate.
        + intros [[Hx _]|[_ Hx]]; done. }
    destruct Hkey as [Hkey ->]. intros h t0. rewrite elem_of_list_fmap. unfold blamed. rewrite <- (Hkey h). split.
    + intros (h' & [= -> ->] & [Hne Hin]%elem_of_list_filter). rewrite elem_of_remove_dups in Hin. done.
    + intros [[Hne Hin] ->]. exists h. split; [done|]. apply elem_of_list_filter. by rewrite elem_of_remove_dups.
Qed.
(** The errors of the node that starts the job blame one node of the job. *)
Theorem C123_first : forall rm rg rd u cp e s s', ncs_event rm rg rd u cp e s = (s', None) -> e_type e ∈ first_host ->
  exists h, host_of_job s (e_job e) h /\ suspected s' = suspected s ++ (if bool_decide (h = EmptyString) then [] else [(h, "NO"%string)]).
Proof.
  intros rm rg rd u cp e s s' H Hf. destruct (suspect_phase rm rg rd u cp e s s' H) as [[Ht Hs]|(Ht & t & hosts & fin & Hm & Hh & Hs)].
  { exfalso. apply Ht. by apply (in_dec _ first_host). }
  assert (Hno : forall t, negb (bool_decide (t ∈ first_host)) = true -> is (e_type e) t = false).
  { intros t0 H0. apply bool_decide_eq_false. intros E. rewrite E in Hf. apply negb_true_iff, bool_decide_eq_false in H0. done. }
  unfold ncs_hosts in Hh. rewrite !Hno in Hh by reflexivity. cbn [orb] in Hh.
  rewrite (is_in_false (e_type e) sr_events) in Hh by (by apply (not_in_dec _ first_host)). destruct (job_of t (e_job e)) as [[r x]|] eqn:Ej; [|done].
  rewrite (is_in_false (e_type e) lt_events) in Hh by (by apply (not_in_dec _ first_host)). cbn [negb] in Hh.
  destruct (hosts_of_job t (x_mld x)) as [|h hs] eqn:E; [done|]. injection Hh as <- <-. exists h. split.
  - apply (host_of_mild s t _ _ Hm). exists r, x. split; [done|]. apply elem_of_hosts_of_job. rewrite E. left.
  - rewrite Hs. f_equal. change (remove_dups [h]) with [h]. rewrite filter_cons, filter_nil. destruct (decide (h <> EmptyString)) as [Hne|He].
    + by rewrite (bool_decide_eq_false_2 _ Hne).
    + rewrite bool_decide_eq_true_2; [done|]. destruct (decide (h = EmptyString)); [done|by destruct He].
Qed.
Theorem C123_example : exists s e s', ncs_event ids ids ids "oar" true e s = (s', None) /\ e_type e ∉ first_host /\ blamed true s e "node1".
Proof.
  exists (del_sys "Launching" "CPUSET_ERROR"), (mkEv 3 "CPUSET_ERROR" 1 "YES"). eexists. split; [vm_compute; reflexivity|]. split.
  - apply (bool_decide_eq_false _). reflexivity.
  - split; [done|]. left. split; [by_dec|]. left.
Qed.

(** ** C124: every event is treated *)
Lemma look_after rm rg rd id r x priv pub s j : fresh_ids s -> j <> nj (rq s) -> look (after rm rg rd id r x priv pub s) j = look s j.
Proof.
  intros (Hn & _ & _) Hj. unfold look, job_of. destruct (after_jobs rm rg rd id r x priv pub s Hn) as [-> _].
  change (exts (after rm rg rd id r x priv pub s)) with (exts s ++ [copy_ext id (nj (rq s)) x]). rewrite !filter_app.
  rewrite (filter_cons (A := jobrow)), (filter_cons (A := ext)). cbn [jid copy_ext x_job]. destruct (decide (nj (rq s) = j)); [congruence|]. rewrite !filter_nil, !app_nil_r. done.
Qed.
Lemma ready_mild s s' e : mild s s' -> ready s e -> ready s' e.
Proof.
  intros Hm Hr Ht. destruct (Hr Ht) as ((r & x & Hj) & Hk & Hh). split; [|split].
  - apply look_job in Hj. rewrite <- (mi_look _ _ Hm) in Hj. apply look_inv in Hj as (r' & Hj & _). eauto.
  - by rewrite (mi_keys _ _ Hm).
  - intros Hf. destruct (Hh Hf) as (h & Hh'). exists h. by apply (host_of_mild s s').
Qed.
Lemma fresh_mild s s' : mild s s' -> fresh_ids s -> fresh_ids s'.
Proof.
  intros Hm (A & B & C). split; [by apply (mi_new _ _ Hm)|]. rewrite (mi_nj _ _ Hm), (mi_exts _ _ Hm), (mi_keys _ _ Hm). done.
Qed.
Lemma fresh_after rm rg rd id r x priv pub s : fresh_ids s -> fresh_ids (after rm rg rd id r x priv pub s).
Proof.
  intros (A & B & C). split; [by apply new_ids_after|]. destruct (after_jobs rm rg rd id r x priv pub s A) as [_ ->]. split.
  - intros y. change (exts (after rm rg rd id r x priv pub s)) with (exts s ++ [copy_ext id (nj (rq s)) x]). intros [Hy|Hy]%elem_of_app; [specialize (B y Hy); lia|].
    apply elem_of_list_singleton in Hy as ->. cbn. lia.
  - intros k. change (keys (after rm rg rd id r x priv pub s)) with (keys s ++ [(nj (rq s), priv, pub)]). intros [Hy|Hy]%elem_of_app; [specialize (C k Hy); lia|].
    apply elem_of_list_singleton in Hy as ->. cbn. lia.
Qed.
Lemma ready_after rm rg rd id r x priv pub s e : fresh_ids s -> ready s e -> ready (after rm rg rd id r x priv pub s) e.
Proof.
  intros Hf Hr Ht. destruct (Hr Ht) as ((r0 & x0 & Hj) & (k & Hk) & Hh). assert (Hne : e_job e <> nj (rq s)).
  { apply job_of_inv in Hj as (Hin & _ & Hid & _). destruct Hf as (Hf & _). specialize (Hf r0 Hin). lia. }
  assert (Hl : forall r1 x1, job_of s (e_job e) = Some (r1, x1) -> exists r2, job_of (after rm rg rd id r x priv pub s) (e_job e) = Some (r2, x1)).
  { intros r1 x1 H1. apply look_job in H1. rewrite <- (look_after rm rg rd id r x priv pub s _ Hf Hne) in H1. apply look_inv in H1 as (r' & H1 & _). eauto. }
  split; [|split].
  - destruct (Hl _ _ Hj) as (r2 & H2). eauto.
  - change (keys (after rm rg rd id r x priv pub s)) with (keys s ++ [(nj (rq s), priv, pub)]). rewrite filter_app, Hk, (filter_cons (A := Z * string * string)). cbn [fst].
    destruct (decide (nj (rq s) = e_job e)); [congruence|]. rewrite filter_nil, app_nil_r. by exists k.
  - intros Hfh. destruct (Hh Hfh) as (h & r1 & x1 & H1 & H2). destruct (Hl _ _ H1) as (r2 & H3). exists h, r2, x1. done.
Qed.
Lemma resubmit_total rm rg rd u id s k : base.filter (fun k => fst (fst k) = id) (keys s) = [k] -> exists c n s', resubmit rm rg rd u id s = Ok (c, n, s').
Proof.
  intros Hk. unfold resubmit. destruct (job_of s id) as [[r x]|]; [|by eexists _, _, _].
  repeat (match goal with |- context [if ?b then Ok _ else _] => destruct b; [by eexists _, _, _|] end). rewrite Hk. destruct k as [[k priv] pub].
  match goal with |- context [if ?b then Ok _ else _] => destruct b; by eexists _, _, _ end.
Qed.
Lemma resubmit_keeps_ready rm rg rd u id s c n s' : fresh_ids s -> resubmit rm rg rd u id s = Ok (c, n, s') ->
  fresh_ids s' /\ (forall e, ready s e -> ready s' e).
Proof.
  intros Hf H. destruct (decide (c = 0)) as [->|Hc].
  - apply resubmit_ok in H as (r & x & k & priv & pub & _ & _ & _ & _ & ->). split; [by apply fresh_after|]. intros e. by apply ready_after.
  - by apply C120_refused in H as [_ ->].
Qed.
Lemma not_about_job t l : t ∉ about_job -> forallb (fun x => bool_decide (x ∈ about_job)) l = true -> is_in t l = false.
Proof. intros H1 H2. apply is_in_false. intros H3. apply H1. by eapply in_dec. Qed.
Lemma not_about_job1 t x : t ∉ about_job -> bool_decide (x ∈ about_job) = true -> is t x = false.
Proof. intros H1 H2%bool_decide_eq_true. apply bool_decide_eq_false. by intros ->. Qed.
(** One event: no exception, and everything stays ready. *)
Lemma event_ready rm rg rd u cp e s : fresh_ids s -> ready s e -> exists s1, ncs_event rm rg rd u cp e s = (check_event (e_type e) (e_job e) s1, None) /\
  fresh_ids s1 /\ (forall e', ready s e' -> ready s1 e') /\ (evs s1 = evs s \/ evs s1 = evs s ++ [mkEv (next_ev s) "RESUBMIT_JOB_AUTOMATICALLY" (e_job e) "YES"]).
Proof.
  intros Hf Hr. destruct (decide (e_type e ∈ about_job)) as [Ht|Ht].
  2: { unfold ncs_event, ncs_idempotent, ncs_states, ncs_suspect, ncs_server, ncs_resubmit. cbv zeta.
       rewrite !(not_about_job1 _ _ Ht) by reflexivity. rewrite (not_about_job _ error_events Ht), (not_about_job _ host_events Ht), (not_about_job _ resubmit_events Ht) by reflexivity.
       unfold andthen. cbn [orb fst snd]. eexists. split; [reflexivity|]. destruct (is_in (e_type e) server_events).
       - assert (Hm : mild s (set_job_state (e_job e) "Error" (stop_queues s))) by (eapply mild_trans; [apply mild_queues|apply mild_set_job_state, over_error]).
         split; [by eapply fresh_mild|]. split; [intros e'; by apply ready_mild|]. by left.
       - split; [done|]. split; [done|]. by left. }
  destruct (Hr Ht) as ((r & x & Hj) & (k & Hk) & Hh). rewrite ncs_event_eq.
  assert (H1 : exists s1, ncs_idempotent rm rg rd u e s = (s1, None) /\ fresh_ids s1 /\ (forall e', ready s e' -> ready s1 e') /\ evs s1 = evs s /\ next_ev s1 = next_ev s).
  { unfold ncs_idempotent. destruct (is _ _ || is _ _); [|by exists s]. rewrite Hj. match goal with |- context [if ?b then _ else _] => destruct b end; [|by exists s].
    destruct (resubmit_total rm rg rd u (e_job e) s k Hk) as (c & n & s' & E). rewrite E. exists s'. split; [done|]. destruct (resubmit_keeps_ready _ _ _ _ _ _ _ _ _ Hf E) as [A B].
    split; [done|]. split; [done|]. apply suspected_resubmit in E as (_ & _ & E). split; [done|]. unfold next_ev. by rewrite E. }
  destruct H1 as (s1 & -> & Hf1 & Hr1 & E1 & N1). unfold andthen at 1. cbn [fst snd].
  destruct (Hr1 e Hr Ht) as ((r1 & x1 & Hj1) & _ & Hh1). unfold andthen at 1. rewrite (middle_ok cp e s1 r1 x1 Hj1 Hh1).
  destruct (mild_middle cp e s1) as [Hm He2]. set (s2 := fst (middle cp e s1)) in *.
  destruct (ready_mild _ _ e Hm (Hr1 e Hr) Ht) as ((r2 & x2 & Hj2) & (k2 & Hk2) & _).
  assert (Hf2 : fresh_ids s2) by (by eapply fresh_mild). assert (Hr2 : forall e', ready s e' -> ready s2 e') by (intros e' H'; eapply ready_mild; [exact Hm|by apply Hr1]).
  assert (N2 : next_ev s2 = next_ev s) by (unfold next_ev; rewrite He2, E1; done).
  unfold ncs_resubmit. destruct (is_in _ _).
  - rewrite Hj2. destruct (_ && _).
    + destruct (resubmit_total rm rg rd u (e_job e) s2 k2 Hk2) as (c & n & s' & E). rewrite E. unfold andthen. cbn [of_resubmit fst snd].
      eexists. split; [reflexivity|]. destruct (resubmit_keeps_ready _ _ _ _ _ _ _ _ _ Hf2 E) as [A B]. apply suspected_resubmit in E as (_ & _ & E).
      split; [exact A|]. split; [intros e' H'; apply (ready_mild s'); [apply mild_evs|]; by apply B, Hr2|]. right. cbn [evs add_event with_evs].
      assert (next_ev s' = next_ev s) as -> by (unfold next_ev; rewrite E; exact N2). congruence.
    + unfold andthen. cbn [fst snd]. exists s2. split; [done|]. split; [done|]. split; [done|]. left. congruence.
  - unfold andthen. cbn [fst snd]. exists s2. split; [done|]. split; [done|]. split; [done|]. left. congruence.
Qed.
Lemma next_ev_max s e : e ∈ evs s -> e_id e < next_ev s.
Proof.
  unfold next_ev. generalize (evs s) as l. induction l as [|y l IH]; [by intros H%elem_of_nil|]. intros [->|H]%elem_of_cons; rewrite fmap_cons; cbn [fold_right]; [lia|].
  specialize (IH H). lia.
Qed.
(** If the database holds what the events need, the whole list is treated without exception, no event is left, none is
    lost, and what is added is new. *)
Theorem C124_all_treated_partial : forall rm rg rd u cp s, fresh_ids s -> (forall e, e ∈ evs s -> e_check e = "YES"%string -> ready s e) ->
  exists s' new, ncs rm rg rd u cp s = (s', None) /\ (forall e, e ∈ evs s -> ~ pending s' (e_id e)) /\
    (fun e => (e_id e, e_type e, e_job e)) <$> evs s' = ((fun e => (e_id e, e_type e, e_job e)) <$> evs s) ++ new /\
    (forall i t j, (i, t, j) ∈ new -> t = "RESUBMIT_JOB_AUTOMATICALLY"%string /\ forall e, e ∈ evs s -> e_id e < i).
Proof.
  intros rm rg rd u cp s Hf Hr. unfold ncs. set (tr := fun e => (e_id e, e_type e, e_job e)).
  assert (Hgen : forall L t new, fresh_ids t -> (forall e, e ∈ L -> ready t e) -> tr <$> evs t = (tr <$> evs s) ++ new ->
    (forall i t j, (i, t, j) ∈ new -> t = "RESUBMIT_JOB_AUTOMATICALLY"%string /\ forall e, e ∈ evs s -> e_id e < i) ->
    (forall e', e' ∈ evs t -> e_check e' = "YES"%string -> (e_id e', e_type e', e_job e') ∈ new \/ exists e, e ∈ L /\ e_type e = e_type e' /\ e_job e = e_job e') ->
    exists s' new, ncs_events rm rg rd u cp L t = (s', None) /\ tr <$> evs s' = (tr <$> evs s) ++ new /\
      (forall i t j, (i, t, j) ∈ new -> t = "RESUBMIT_JOB_AUTOMATICALLY"%string /\ forall e, e ∈ evs s -> e_id e < i) /\
      (forall e', e' ∈ evs s' -> e_check e' = "YES"%string -> (e_id e', e_type e', e_job e') ∈ new)).
  { induction L as [|e L IH]; intros t new Hft HrL Htr Hnew Hp.
    - exists t, new. split; [done|]. split; [done|]. split; [done|]. intros e' He' Hy. destruct (Hp e' He' Hy) as [?|(e & He & _)]; [done|by apply elem_of_nil in He].
    - cbn [ncs_events]. destruct (event_ready rm rg rd u cp e t Hft (HrL e ltac:(left))) as (t1 & E & Hf1 & Hr1 & Hev). rewrite E. unfold andthen. cbn [fst snd].
      set (t2 := check_event (e_type e) (e_job e) t1).
      assert (Htr2 : tr <$> evs t2 = tr <$> evs t1).
      { unfold t2, check_event. cbn [evs with_evs]. rewrite <- list_fmap_compose. apply list_fmap_ext. intros i y Hy. cbn. destruct (_ && _); done. }
      assert (Hchk : forall e', e' ∈ evs t2 -> e_check e' = "YES"%string -> e' ∈ evs t1 /\ ~ (e_job e' = e_job e /\ e_type e' = e_type e)).
      { intros e' He' Hy. unfold t2, check_event in He'. cbn [evs with_evs] in He'. apply elem_of_list_fmap in He' as (y & -> & Hin).
        destruct (bool_decide (e_job y = e_job e) && bool_decide (e_type y = e_type e) && bool_decide (e_check y = "YES"%string)) eqn:Eb; [done|].
        split; [done|]. intros [H1 H2]. rewrite (bool_decide_eq_true_2 _ H1), (bool_decide_eq_true_2 _ H2), (bool_decide_eq_true_2 _ Hy) in Eb. done. }
      assert (Hall : exists new', tr <$> evs t1 = (tr <$> evs s) ++ new' /\ (forall i t j, (i, t, j) ∈ new' -> t = "RESUBMIT_JOB_AUTOMATICALLY"%string /\ forall e, e ∈ evs s -> e_id e < i) /\
        (forall e', e' ∈ evs t1 -> e_check e' = "YES"%string -> (e_id e', e_type e', e_job e') ∈ new' \/ exists e0, e0 ∈ e :: L /\ e_type e0 = e_type e' /\ e_job e0 = e_job e')).
      { destruct Hev as [Hev|Hev].
        - exists new. rewrite Hev. done.
        - exists (new ++ [(next_ev t, "RESUBMIT_JOB_AUTOMATICALLY"%string, e_job e)]). rewrite Hev, fmap_app, Htr, <- app_assoc. split; [done|]. split.
          + intros i ty j [Hin|Hin]%elem_of_app; [by apply (Hnew i ty j)|]. apply elem_of_list_singleton in Hin. injection Hin as -> -> ->. split; [done|].
            intros e0 He0. assert (Hin : tr e0 ∈ tr <$> evs t). { rewrite Htr. apply elem_of_app. left. by apply elem_of_list_fmap_1. }
            apply elem_of_list_fmap in Hin as (y & Hy & Hiny). injection Hy as -> _ _. by apply next_ev_max.
          + intros e' [Hin|Hin]%elem_of_app Hy.
            * destruct (Hp e' Hin Hy) as [?|?]; [left; apply elem_of_app; by left|by right].
            * apply elem_of_list_singleton in Hin as ->. left. apply elem_of_app. right. left. }
      destruct Hall as (new' & A1 & A2 & A3). apply (IH t2 new'); [done| |by rewrite Htr2|done|].
      + intros e0 He0. apply (ready_mild t1); [apply mild_evs|]. apply Hr1, HrL. by right.
      + intros e' He' Hy. destruct (Hchk e' He' Hy) as [Hin Hne]. destruct (A3 e' Hin Hy) as [?|(e0 & He0 & H1 & H2)]; [by left|]. right.
        apply elem_of_cons in He0 as [->|He0]; [by destruct Hne|]. by exists e0. }
  destruct (Hgen (to_check s) s [] Hf) as (s' & new & H1 & H2 & H3 & H4).
  - intros e He. apply elem_of_list_filter in He as [? ?]. by apply Hr.
  - symmetry. apply app_nil_r.
  - by intros i t j H%elem_of_nil.
  - intros e' He' Hy. right. exists e'. split; [|done]. by apply elem_of_list_filter.
  - exists s', new. split; [done|]. split; [|done]. intros e He (e' & He' & Hid & Hy). specialize (H4 e' He' Hy). destruct (H3 _ _ _ H4) as [_ Hlt]. specialize (Hlt e He). lia.
Qed.
Theorem C124_example : fresh_ids two_sys /\ (forall e, e ∈ evs two_sys -> e_check e = "YES"%string -> ready two_sys e) /\ pending two_sys 3.
Proof.
  split; [|split].
  - split; [|split]; intros y Hy; cbn [jobs rq two_sys exts keys] in Hy; (apply elem_of_cons in Hy as [->|Hy]; [done|]; by apply elem_of_list_singleton in Hy as ->).
  - intros e He _ _. cbn [evs two_sys] in He.
    assert (Hj : forall j, (j = 1 \/ j = 2) -> (exists r x, job_of two_sys j = Some (r, x)) /\ (exists k, base.filter (fun k => fst (fst k) = j) (keys two_sys) = [k])).
    { intros j [->| ->]; split; [eexists _, _; vm_compute; reflexivity|eexists; vm_compute; reflexivity|eexists _, _; vm_compute; reflexivity|eexists; vm_compute; reflexivity]. }
    assert (Hjob : e_job e = 1 \/ e_job e = 2). { apply elem_of_cons in He as [->|He]; [by left|]. apply elem_of_cons in He as [->|He]; [by left|]. apply elem_of_list_singleton in He as ->. by right. }
    destruct (Hj _ Hjob) as [A B]. split; [done|]. split; [done|]. intros Hf. exfalso.
    assert (Ht : e_type e = "PING_CHECKER_NODE_SUSPECTED"%string). { apply elem_of_cons in He as [->|He]; [done|]. apply elem_of_cons in He as [->|He]; [done|]. by apply elem_of_list_singleton in He as ->. }
    rewrite Ht in Hf. apply (bool_decide_eq_true_2 _) in Hf. vm_compute in Hf. discriminate.
  - exists (mkEv 3 "PING_CHECKER_NODE_SUSPECTED" 2 "YES"). split; [right; right; left|done].
Qed.
(** A job with no node of its own (started on the server, on a licence for instance) whose launcher fails: an exception,
    every time; the events behind it are never treated. *)
Definition stuck_sys : sys :=
  mkSys (mkDb [mkJob 1 "Running" 1 1 "a" None "None"; mkJob 2 "Finishing" 2 1 "b" None "None"] [mkMld 1 1 60; mkMld 2 2 60] [mkGrp 1 1 ""; mkGrp 2 2 ""]
           [mkDesc 1 "licence" 1 0; mkDesc 2 "nodes" 1 0] [(1, "cosystem"%string)] [] [] 3 3 3)
    [mkExt 1 "bob" "PASSIVE" 0 100 0 "NO" "NO" 1 None 0 "" "" ""; mkExt 2 "alice" "PASSIVE" 0 100 500 "NO" "NO" 2 None 0 "" "" ""]
    [(1, ""%string, ""%string); (2, ""%string, ""%string)]
    [mkEv 1 "EXIT_VALUE_OAREXEC" 1 "YES"; mkEv 2 "SWITCH_INTO_TERMINATE_STATE" 2 "YES"] [] [(2, "node1"%string)] [] [("default"%string, "Active"%string)].
Theorem C124_blocked_refuted : exists s, forall n, let s' := Nat.iter n (fun s => fst (ncs ids ids ids "oar" true s)) s in
  snd (ncs ids ids ids "oar" true s') = Some EIndex /\ pending s' 2 /\ states_of s' 2 = ["Finishing"%string].
Proof.
  exists stuck_sys. set (next := fun s => fst (ncs ids ids ids "oar" true s)).
  assert (Hfix : next (next stuck_sys) = next stuck_sys) by (vm_compute; reflexivity).
  assert (Hn : forall n, Nat.iter n next stuck_sys = stuck_sys \/ Nat.iter n next stuck_sys = next stuck_sys).
  { induction n as [|n [IH|IH]]; [by left|right..]; change (Nat.iter (S n) next stuck_sys) with (next (Nat.iter n next stuck_sys)); rewrite IH; [reflexivity|exact Hfix]. }
  intros n. cbv zeta. fold next. destruct (Hn n) as [-> | ->]; clear Hfix Hn.
  - split; [vm_compute; reflexivity|]. split; [|vm_compute; reflexivity]. exists (mkEv 2 "SWITCH_INTO_TERMINATE_STATE" 2 "YES"). split; [|split; reflexivity]. right. left.
  - split; [vm_compute; reflexivity|]. split; [|vm_compute; reflexivity]. exists (mkEv 2 "SWITCH_INTO_TERMINATE_STATE" 2 "YES"). split; [|split; reflexivity].
    assert (evs (next stuck_sys) = evs stuck_sys) as -> by (vm_compute; reflexivity). right. left.
Qed.
(** An event added while the events read before are treated is lost, if one of them has the same type and job: it is
    marked as treated, and its node is not suspected. *)
Definition late (s : sys) : sys :=
  mkSys (rq s) (exts s) (keys s) (evs s ++ [mkEv 9 "PING_CHECKER_NODE_SUSPECTED" 1 "YES"]) (ehosts s ++ [(9, "node9"%string)]) (assigned s) (suspected s) (queues s).
Theorem C124_lost_refuted : exists s, let s' := fst (ncs_events ids ids ids "oar" true (to_check s) (late s)) in
  snd (ncs_events ids ids ids "oar" true (to_check s) (late s)) = None /\
  mkEv 9 "PING_CHECKER_NODE_SUSPECTED" 1 "NO" ∈ evs s' /\ "node9"%string ∉ fst <$> suspected s' /\ ~ pending s' 9.
Proof.
  exists two_sys. cbv zeta. split; [vm_compute; reflexivity|]. set (s' := fst _).
  assert (He : existsb (fun e => bool_decide (e_id e = 9) && bool_decide (e_check e = "YES"%string)) (evs s') = false) by (vm_compute; reflexivity).
  split; [|split].
  - assert (H : evs s' !! 3%nat = Some (mkEv 9 "PING_CHECKER_NODE_SUSPECTED" 1 "NO")) by (vm_compute; reflexivity). exact (elem_of_list_lookup_2 _ _ _ H).
  - apply (bool_decide_eq_false _). vm_compute. reflexivity.
  - clearbody s'. intros (e & Hin & H1 & H2). assert (Ht : existsb (fun e => bool_decide (e_id e = 9) && bool_decide (e_check e = "YES"%string)) (evs s') = true); [|congruence].
    apply existsb_exists. exists e. split; [by apply elem_of_list_In|]. by rewrite (bool_decide_eq_true_2 _ H1), (bool_decide_eq_true_2 _ H2).
Qed.

(** ** C125: an error of a script of the server stops the queues *)
Theorem C125_stops : forall rm rg rd u cp e s, e_type e ∈ server_scripts -> let s' := fst (ncs_event rm rg rd u cp e s) in
  queues s' = (fun q => (fst q, "notActive"%string)) <$> queues s /\
  (forall r x, new_ids s -> job_of s (e_job e) = Some (r, x) -> jstate r ∈ known -> is_over s' (e_job e)).
Proof.
  intros rm rg rd u cp e s Ht. cbv zeta.
  assert (Hno : forall t, negb (bool_decide (t ∈ server_scripts)) = true -> is (e_type e) t = false).
  { intros t H. apply bool_decide_eq_false. intros E. rewrite E in Ht. apply negb_true_iff, bool_decide_eq_false in H. done. }
  assert (Hid : ncs_idempotent rm rg rd u e s = (s, None)). { unfold ncs_idempotent. rewrite !Hno by reflexivity. done. }
  assert (Hst : ncs_states e s = (s, None)).
  { unfold ncs_states. cbv zeta. rewrite !Hno by reflexivity. rewrite is_in_false; [done|]. by apply (not_in_dec _ server_scripts). }
  assert (Hsu : ncs_suspect cp e s = (s, None)). { unfold ncs_suspect. rewrite is_in_false; [done|]. by apply (not_in_dec _ server_scripts). }
  assert (Hse : ncs_server e s = (set_job_state (e_job e) "Error" (stop_queues s), None)). { unfold ncs_server. by rewrite (is_in_true _ server_events Ht). }
  set (s1 := set_job_state (e_job e) "Error" (stop_queues s)) in *.
  assert (Hev : ncs_event rm rg rd u cp e s = andthen (ncs_resubmit rm rg rd u e s1) (fun s => (check_event (e_type e) (e_job e) s, None))).
  { unfold ncs_event. rewrite Hid. unfold andthen at 1. cbn [fst snd]. rewrite Hst. unfold andthen at 1. cbn [fst snd]. rewrite Hsu. unfold andthen at 1. cbn [fst snd].
    rewrite Hse. unfold andthen at 1. cbn [fst snd]. reflexivity. }
  rewrite Hev. clear Hev.
  assert (Hq : queues (fst (ncs_resubmit rm rg rd u e s1)) = queues s1) by apply suspected_last.
  assert (Hfin : forall o : outcome, queues (fst (andthen o (fun s => (check_event (e_type e) (e_job e) s, None)))) = queues (fst o) /\
    forall j, is_over (fst o) j -> is_over (fst (andthen o (fun s => (check_event (e_type e) (e_job e) s, None)))) j).
  { intros o. unfold andthen. by destruct (snd o). }
  split; [rewrite (proj1 (Hfin _)), Hq; reflexivity|]. intros r x Hnew Hj Hk. apply (proj2 (Hfin _)).
  assert (Hov : is_over s1 (e_job e)) by (eapply set_error_over; [exact Hj|done]).
  destruct (resub_cases rm rg rd u e s1) as [->|(r1 & x1 & c & n & s' & _ & H & -> & _)]; [done|].
  change (is_over s' (e_job e)). destruct (decide (c = 0)) as [->|Hc]; [|by apply C120_refused in H as [_ ->]].
  apply resubmit_ok in H as (r2 & x2 & k & priv & pub & Hj2 & _ & _ & _ & ->).
  apply (keeps_after rm rg rd (e_job e) r2 x2 priv pub s1); [|exact Hov]. by apply new_ids_set_job_state.
Qed.
(** Nothing else does. *)
Theorem C125_others : forall rm rg rd u cp e s, e_type e ∉ server_scripts -> queues (fst (ncs_event rm rg rd u cp e s)) = queues s.
Proof.
  intros rm rg rd u cp e s Ht. unfold ncs_event.
  assert (Hse : forall t, ncs_server e t = (t, None)). { intros t. unfold ncs_server. by rewrite (is_in_false _ server_events Ht). }
  assert (E1 : queues (fst (ncs_idempotent rm rg rd u e s)) = queues s) by apply suspected_idem. apply andthen_fst; [done|]. intros _. set (s1 := fst (ncs_idempotent rm rg rd u e s)) in *.
  assert (E2 : queues (fst (ncs_states e s1)) = queues s1) by apply calm_states. apply andthen_fst; [congruence|]. intros _. set (s2 := fst (ncs_states e s1)) in *.
  assert (E3 : queues (fst (ncs_suspect cp e s2)) = queues s2) by apply mild_suspect. apply andthen_fst; [congruence|]. intros _. set (s3 := fst (ncs_suspect cp e s2)) in *.
  rewrite Hse. unfold andthen at 1. cbn [fst snd].
  assert (E5 : queues (fst (ncs_resubmit rm rg rd u e s3)) = queues s3) by apply suspected_last. apply andthen_fst; [congruence|]. intros _. cbn [fst].
  change (queues (check_event (e_type e) (e_job e) (fst (ncs_resubmit rm rg rd u e s3)))) with (queues (fst (ncs_resubmit rm rg rd u e s3))). congruence.
Qed.
(** A whole list of events, with or without exception: the queues are stopped, all of them, if an event treated asks
    for it, or none changes. *)
Theorem C125_list : forall rm rg rd u cp L s, exists done rest, L = done ++ rest /\
  (snd (ncs_events rm rg rd u cp L s) = None -> rest = []) /\
  queues (fst (ncs_events rm rg rd u cp L s)) =
    if bool_decide (Exists (fun e => e_type e ∈ server_scripts) done) then (fun q => (fst q, "notActive"%string)) <$> queues s else queues s.
Proof.
  intros rm rg rd u cp L. induction L as [|e L IH]; intros s.
  - exists [], []. split; [done|]. split; [done|]. rewrite bool_decide_eq_false_2; [done|]. by intros H%Exists_nil.
  - cbn [ncs_events]. set (o := ncs_event rm rg rd u cp e s).
    assert (Hone : queues (fst o) = if bool_decide (e_type e ∈ server_scripts) then (fun q => (fst q, "notActive"%string)) <$> queues s else queues s).
    { destruct (decide (e_type e ∈ server_scripts)) as [Ht|Ht]; [rewrite (bool_decide_eq_true_2 _ Ht); by apply C125_stops|rewrite (bool_decide_eq_false_2 _ Ht); by apply C125_others]. }
    unfold andthen. destruct (snd o) as [er|] eqn:Eo.
    + exists [e], L. split; [done|]. split; [rewrite Eo; done|]. rewrite Hone. destruct (decide (e_type e ∈ server_scripts)) as [Ht|Ht].
      * rewrite (bool_decide_eq_true_2 _ Ht), bool_decide_eq_true_2; [done|]. apply Exists_cons. by left.
      * rewrite (bool_decide_eq_false_2 _ Ht), bool_decide_eq_false_2; [done|]. by intros [H|H%Exists_nil]%Exists_cons.
    + destruct (IH (fst o)) as (dn & rest & -> & H1 & H2). exists (e :: dn), rest. split; [done|]. split; [done|]. rewrite H2, Hone.
      destruct (decide (e_type e ∈ server_scripts)) as [Ht|Ht].
      * rewrite (bool_decide_eq_true_2 _ Ht), (bool_decide_eq_true_2 (Exists (fun e => e_type e ∈ server_scripts) (e :: dn))) by (apply Exists_cons; by left).
        destruct (bool_decide (Exists (fun e => e_type e ∈ server_scripts) dn)); [|reflexivity]. rewrite <- list_fmap_compose. reflexivity.
      * rewrite (bool_decide_eq_false_2 _ Ht). destruct (decide (Exists (fun e => e_type e ∈ server_scripts) dn)) as [Hd|Hd].
        -- rewrite !bool_decide_eq_true_2; [done|apply Exists_cons; by right|done].
        -- rewrite !bool_decide_eq_false_2; [done| |done]. by intros [H|H]%Exists_cons.
Qed.
Theorem C125_example : queues (fst (ncs ids ids ids "oar" true end_sys)) = [("default", "notActive")]%string /\ queues end_sys = [("default", "Active")]%string /\
  queues (fst (ncs ids ids ids "oar" true two_sys)) = [("default", "Active")]%string.
Proof. split; [vm_compute; reflexivity|]. split; [reflexivity|vm_compute; reflexivity]. Qed.
Print Assumptions C121_at_most_once.
Print Assumptions C121_events.
Print Assumptions C122_who.
Print Assumptions C122_when.
Print Assumptions C122_deleted_refuted.
Print Assumptions C122_finished_refuted.
Print Assumptions C122_example.
Print Assumptions C121_example.
Print Assumptions C123_blamed.
Print Assumptions C123_first.
Print Assumptions C123_example.
Print Assumptions C124_all_treated_partial.
Print Assumptions C124_example.
Print Assumptions C124_blocked_refuted.
Print Assumptions C124_lost_refuted.
Print Assumptions C125_stops.
Print Assumptions C125_others.
Print Assumptions C125_list.
Print Assumptions C125_example.
