From Verif Require Import Base SlotModel SlotSpec SlotProofs SlotJobs SlotLookup SlotOps SlotCheck SlotProps SlotShare
  HierarchyModel HierarchySpec HierarchyProofs HierarchyProps QuotasModel LoadModel SchedModel SchedSpec SchedProofs SchedAssign.

(** * c_get / c_set *)
Lemma c_get_set {A} n n' (v : A) l : c_get n' (c_set n v l) = if bool_decide (n = n') then Some v else c_get n' l.
Proof.
  induction l as [|[m s] l IH]; cbn [c_set c_get].
  - by case_bool_decide.
  - destruct (bool_decide (m = n)) eqn:E1; cbn [c_get].
    + apply bool_decide_eq_true in E1 as ->. by case_bool_decide.
    + apply bool_decide_eq_false in E1. rewrite IH. destruct (bool_decide (m = n')) eqn:E2; [|done].
      apply bool_decide_eq_true in E2 as ->. by rewrite bool_decide_false.
Qed.
Lemma c_get_app {A} n (l l' : list (string * A)) : c_get n (l ++ l') = match c_get n l with Some a => Some a | None => c_get n l' end.
Proof. induction l as [|[m s] l IH]; cbn [app c_get]; [done|]. by case_bool_decide. Qed.

(** * One step *)
Lemma with_sched_types j a b c : jtypes (with_sched j a b c) = jtypes j. Proof. done. Qed.

(** The placements produced by assign, for jobs that are not special. *)
Lemma try_window_within qc hy ss j rq p x : WF ss -> 0 < r_wall rq -> is_window ss (r_wall rq) p -> plain j ->
  try_window qc hy (slots ss) j rq p = Ok (Some x) ->
  x <> ∅ /\ forall r u, r ∈ x -> sb p.1 <= u < sb p.1 + r_wall rq -> free_at ss u r.
Proof.
  intros HW Hw Hp Hj E. unfold try_window in E.
  destruct (window_avail ss _ p j HW Hw Hp Hj) as (X & EX & HX). rewrite EX in E. cbn [rbind] in E.
  apply rbind_Ok in E as (r & Er & E).
  destruct (nonempty r) eqn:En; [|done]. apply nonempty_true in En.
  assert (r = x) as ->.
  { destruct qc as [cf|]; [|congruence]. destruct (check_slots_quotas _ _ _ _ _ _ _) as [[]|]; cbn [rbind] in E; congruence. }
  split; [done|]. intros y u Hy. apply HX. destruct (find_job_within _ _ _ _ Er) as [Hin _]. set_solver.
Qed.

Lemma open_container_other env q idstr sec w sss sss' n : 
  open_container env q idstr sec w sss = Ok sss' ->
  (has_type "container" (w_job w) = true -> container_name idstr (w_job w) <> n) ->
  is_Some (c_get n sss) -> c_get n sss' = c_get n sss.
Proof.
  intros E Hn [v Hv]. unfold open_container in E. destruct (has_type "container" (w_job w)); [|congruence].
  specialize (Hn eq_refl). apply rbind_Ok in E as (wall & _ & E).
  destruct (c_get (container_name idstr (w_job w)) sss) as [[s c]|].
  - apply rbind_Ok in E as (s' & _ & E). assert (sss' = c_set (container_name idstr (w_job w)) (s', c) sss) as -> by congruence.
    rewrite c_get_set. by rewrite bool_decide_false.
  - match type of E with Ok ?a = _ => assert (sss' = a) as -> by congruence end.
    rewrite c_get_app, Hv. done.
Qed.

(** Whoever is in a set named [n], what one step does to it. *)
Lemma step_inv env qc hy idstr sec id ids sss jobs R :
  schedule_jobs env qc hy idstr sec (id :: ids) sss jobs = Ok R ->
  exists w, jobs !! id = Some w /\
   ((deps_loop jobs (w_deps w) (-1) = None /\ schedule_jobs env qc hy idstr sec ids sss (<[id := skipped w]> jobs) = Ok R) \/
    exists min ss ch ss' ch' w' sss', deps_loop jobs (w_deps w) (-1) = Some min /\ c_get (set_of w) sss = Some (ss, ch) /\
      assign env qc hy ss ch w min = Ok (ss', ch', w') /\
      open_container env (bool_decide (is_Some qc)) idstr sec w' (c_set (set_of w) (ss', ch') sss) = Ok sss' /\
      schedule_jobs env qc hy idstr sec ids sss' (<[id := w']> jobs) = Ok R).
Proof.
  intros E. cbn [schedule_jobs] in E. apply rbind_Ok in E as (w & Ew & E). apply dget_Ok in Ew.
  exists w. split; [done|]. destruct (deps_loop jobs (w_deps w) (-1)) as [min|]; [|by left]. right.
  fold (set_of w) in E. destruct (c_get (set_of w) sss) as [[ss ch]|] eqn:Eg; [|done].
  apply rbind_Ok in E as ([[ss' ch'] w'] & Ea & E). apply rbind_Ok in E as (sss' & Eo & E).
  exists min, ss, ch, ss', ch', w', sss'. split_and!; done.
Qed.

Lemma assign_shape env qc hy ss ch w min ss' ch' w' : assign env qc hy ss ch w min = Ok (ss', ch', w') ->
  w' = unplaced w \/ exists st x rq, w' = placed w st x rq.
Proof.
  intros E. unfold assign in E. apply rbind_Ok in E as (s1 & _ & E).
  apply rbind_Ok in E as ([[bst found] ch1] & EL & E). destruct found; cbn [negb] in E.
  - destruct bst as [[[[[[a b] c] d] e] f]|]; [|done]. apply rbind_Ok in E as (ss1 & ES & E).
    right. exists b, c, d. congruence.
  - left. congruence.
Qed.
Lemma assign_types env qc hy ss ch w min ss' ch' w' : assign env qc hy ss ch w min = Ok (ss', ch', w') ->
  jtypes (w_job w') = jtypes (w_job w) /\ jid (w_job w') = jid (w_job w) /\ w_deps w' = w_deps w.
Proof. intros E. apply assign_shape in E as [->|(st & x & rq & ->)]; done. Qed.

(** * No double booking *)
Lemma others_kept env qc hy idstr sec ids : forall sss jobs sss' jobs',
  schedule_jobs env qc hy idstr sec ids sss jobs = Ok (sss', jobs') ->
  forall id, id ∉ ids -> jobs' !! id = jobs !! id.
Proof.
  induction ids as [|i ids IH]; intros sss jobs sss' jobs' E id Hid.
  - cbn [schedule_jobs] in E. congruence.
  - apply not_elem_of_cons in Hid as [Hne Hid].
    apply step_inv in E as (w & Hw & [[_ E]|(min & ss & ch & ss' & ch' & w' & sss1 & _ & _ & _ & _ & E)]);
      rewrite (IH _ _ _ _ E id Hid), lookup_insert_ne by done; done.
Qed.

Lemma round_booking env qc hy idstr sec n ids : forall sss jobs sss' jobs' ss ch,
  schedule_jobs env qc hy idstr sec ids sss jobs = Ok (sss', jobs') ->
  c_get n sss = Some (ss, ch) -> WF ss -> cache_valid ss ch -> NoDup ids ->
  (forall id w, id ∈ ids -> jobs !! id = Some w -> w_wall w = None) ->
  (forall id w, id ∈ ids -> jobs !! id = Some w -> set_of w = n -> plain (w_job w) /\ Forall (fun rq => 0 < r_wall rq) (w_rqts w)) ->
  (forall id w, id ∈ ids -> jobs !! id = Some w -> has_type "container" (w_job w) = true -> container_name idstr (w_job w) <> n) ->
  (forall id w, id ∈ ids -> jobs' !! id = Some w -> set_of w = n ->
     forall t r, job_holds w t r -> free_at ss t r) /\
  (forall id1 id2 w1 w2, id1 ∈ ids -> id2 ∈ ids -> id1 <> id2 -> jobs' !! id1 = Some w1 -> jobs' !! id2 = Some w2 ->
     set_of w1 = n -> set_of w2 = n -> forall t r, ~ (job_holds w1 t r /\ job_holds w2 t r)).
Proof.
  induction ids as [|i ids IH]; intros sss jobs sss' jobs' ss ch E Hg HW Hv Hnd Hwall Hpl Hct.
  { split; [intros id w Hid|intros id1 id2 w1 w2 Hid]; by apply elem_of_nil in Hid. }
  apply NoDup_cons in Hnd as [Hni Hnd].
  assert (Hmid : forall sss1 w' jobs1, (forall id, id ∈ ids -> jobs1 !! id = jobs !! id) -> jobs1 !! i = Some w' ->
     schedule_jobs env qc hy idstr sec ids sss1 jobs1 = Ok (sss', jobs') ->
     forall ss1 ch1, c_get n sss1 = Some (ss1, ch1) -> WF ss1 -> cache_valid ss1 ch1 ->
     (forall t r, free_at ss1 t r -> free_at ss t r) ->
     (set_of w' = n -> forall t r, job_holds w' t r -> free_at ss t r /\ ~ free_at ss1 t r) ->
     (forall id w, id ∈ i :: ids -> jobs' !! id = Some w -> set_of w = n -> forall t r, job_holds w t r -> free_at ss t r) /\
     (forall id1 id2 w1 w2, id1 ∈ i :: ids -> id2 ∈ i :: ids -> id1 <> id2 -> jobs' !! id1 = Some w1 -> jobs' !! id2 = Some w2 ->
        set_of w1 = n -> set_of w2 = n -> forall t r, ~ (job_holds w1 t r /\ job_holds w2 t r))).
  { intros sss1 w' jobs1 Hsame Hi E1 ss1 ch1 Hg1 HW1 Hv1 Hfree Hheld.
    destruct (IH _ _ _ _ _ _ E1 Hg1 HW1 Hv1 Hnd) as [HA HB].
    { intros id w Hid. rewrite Hsame by done. apply Hwall. by right. }
    { intros id w Hid. rewrite Hsame by done. apply Hpl. by right. }
    { intros id w Hid. rewrite Hsame by done. apply Hct. by right. }
    assert (Hi' : jobs' !! i = Some w') by (rewrite (others_kept _ _ _ _ _ _ _ _ _ _ E1 i Hni); done).
    split.
    - intros id w Hid Hw Hn t r Hh. apply elem_of_cons in Hid as [->|Hid].
      + assert (w = w') as -> by congruence. by apply Hheld.
      + apply Hfree. by apply (HA id w).
    - intros id1 id2 w1 w2 H1 H2 Hne Hw1 Hw2 Hn1 Hn2 t r [Hh1 Hh2].
      apply elem_of_cons in H1 as [->|H1]; apply elem_of_cons in H2 as [->|H2]; [done| | |].
      + assert (w1 = w') as -> by congruence. destruct (Hheld Hn1 t r Hh1) as [_ Hnf]. apply Hnf. by apply (HA id2 w2).
      + assert (w2 = w') as -> by congruence. destruct (Hheld Hn2 t r Hh2) as [_ Hnf]. apply Hnf. by apply (HA id1 w1).
      + by apply (HB id1 id2 w1 w2 H1 H2 Hne Hw1 Hw2 Hn1 Hn2 t r). }
  assert (Hkeep : forall w' id, id ∈ ids -> <[i := w']> jobs !! id = jobs !! id).
  { intros w' id Hid. rewrite lookup_insert_ne; [done|]. intros ->. done. }
  apply step_inv in E as (w & Hw & [[_ E]|(min & ss0 & ch0 & ss0' & ch0' & w' & sss1 & _ & Hg0 & Ea & Eo & E)]).
  - eapply Hmid; [intros; by apply Hkeep|apply lookup_insert|exact E|exact Hg|done|done|done|].
    intros _ t r (wall & H1 & _). cbn in H1. rewrite (Hwall i w ltac:(by left) Hw) in H1. done.
  - destruct (assign_types _ _ _ _ _ _ _ _ _ _ Ea) as (HT & Hid & _).
    assert (Hct' : has_type "container" (w_job w') = true -> container_name idstr (w_job w') <> n).
    { intros HcT. unfold has_type, container_name in HcT |- *. rewrite HT in HcT |- *. rewrite Hid.
      apply (Hct i w); [by left|done|]. exact HcT. }
    assert (Hset : set_of w' = set_of w) by (unfold set_of; by rewrite HT).
    destruct (decide (set_of w = n)) as [Hn|Hn].
    + assert (ss0 = ss /\ ch0 = ch) as [-> ->] by (rewrite Hn in Hg0; split; congruence).
      destruct (Hpl i w ltac:(by left) Hw Hn) as [Hp HF].
      destruct (assign_sound _ _ _ _ _ _ _ _ _ _ HW Hv (plain_ok _ Hp) HF Ea) as [Hv' Hcase].
      assert (Hgn : c_get n sss1 = Some (ss0', ch0')).
      { rewrite (open_container_other _ _ _ _ _ _ _ n Eo Hct'); rewrite c_get_set, bool_decide_true by done; eauto. }
      destruct Hcase as [[-> ->]|(rq & p & x & Hrq & Hpw & Ht & -> & HI)].
      * eapply Hmid; [intros; by apply Hkeep|apply lookup_insert|exact E|exact Hgn|done|done|done|].
        intros _ t r (wall & H1 & _). cbn in H1. rewrite (Hwall i w ltac:(by left) Hw) in H1. done.
      * assert (Hrw : 0 < r_wall rq) by (rewrite Forall_forall in HF; by apply HF).
        destruct (try_window_within _ _ _ _ _ _ _ HW Hrw Hpw Hp Ht) as [_ Hin].
        destruct (inserted_free env ss (w_job (placed w (sb p.1) x rq)) ss0' ltac:(apply plain_ok; done) HI) as (H1 & H2 & _).
        eapply Hmid; [intros; by apply Hkeep|apply lookup_insert|exact E|exact Hgn|apply HI|done|done|].
        intros _ t r (wall & Hwl & Ht' & Hr). cbn [w_job placed with_sched start_time res_set w_wall] in *.
        assert (wall = r_wall rq) as -> by congruence. split; [by apply Hin|].
        intros Hf. apply (H2 t r Hf); [|done]. cbn [start_time walltime]. done.
    + assert (Hgn : c_get n sss1 = Some (ss, ch)).
      { rewrite (open_container_other _ _ _ _ _ _ _ n Eo Hct'); rewrite c_get_set, bool_decide_false by done; [done|]. rewrite Hg; eauto. }
      eapply Hmid; [intros; by apply Hkeep|apply lookup_insert|exact E|exact Hgn|done|done|done|].
      intros Hn'. congruence.
Qed.

(** * The cache *)
Lemma find_first_cache_ok qc hy req_of ss ch w rq min o ch' :
  WF ss -> cache_ok hy req_of ss ch -> keys_for req_of w -> rq ∈ w_rqts w -> known_request hy rq ->
  find_first qc hy ss ch w rq min = Ok (o, ch') -> cache_ok hy req_of ss ch'.
Proof.
  intros HW Hc Hkf Hin Hk E.
  destruct (decide (w_keys w <> ∅ /\ eff qc w = None)) as [[Hke He]|Hno].
  - destruct (find_first_earliest qc hy req_of ss ch w rq min HW Hc Hkf Hin Hk (proj1 (Hkf Hke)) He) as (o' & ch1 & t0 & E1 & Hc1 & _).
    assert (ch1 = ch') as -> by congruence. done.
  - assert (ch' = ch) as ->; [|done].
    unfold find_first in E. apply rbind_Ok in E as (i & _ & E). apply rbind_Ok in E as (ws & _ & E).
    apply rbind_Ok in E as (o' & _ & E). fold (eff qc w) in E. 
    assert (Hsame : Ok (o', ch) = Ok (o, ch') -> ch' = ch) by congruence.
    destruct o' as [[[x l] r]|]; [|by apply Hsame].
    destruct (eff qc w) eqn:Ee; [by apply Hsame|].
    assert (w_keys w = ∅) as Hk0. { destruct (decide (w_keys w = ∅)) as [|Hne]; [done|]. exfalso. apply Hno. done. }
    rewrite (bool_decide_true _ Hk0) in E. by apply Hsame.
Qed.

Lemma assign_loop_nocache qc hy req_of ss w min rqs : WF ss -> keys_for req_of w -> Forall (known_request hy) rqs ->
  (forall rq, rq ∈ rqs -> rq ∈ w_rqts w) ->
  forall ch fin bst found, cache_ok hy req_of ss ch ->
  assign_loop qc hy ss (nokeys w) min rqs ∅ fin bst found =
    match assign_loop qc hy ss w min rqs ch fin bst found with Ok (b, f, _) => Ok (b, f, ∅) | Err e => Err e end /\
  forall b f ch', assign_loop qc hy ss w min rqs ch fin bst found = Ok (b, f, ch') -> cache_ok hy req_of ss ch'.
Proof.
  intros HW Hkf HF Hsub. induction rqs as [|rq rqs IH]; intros ch fin bst found Hc; cbn [assign_loop].
  - split; [done|]. intros b f ch' E. assert (ch' = ch) as -> by congruence. done.
  - rewrite Forall_cons in HF. destruct HF as [Hk HF].
    assert (Hin : rq ∈ w_rqts w) by (apply Hsub; by left).
    rewrite (find_first_nocache qc hy req_of ss ch w rq min HW Hc Hkf Hin Hk).
    destruct (find_first qc hy ss ch w rq min) as [[o ch1]|e] eqn:Ef; cbn [rbind]; [|split; [done|]; intros; congruence].
    assert (Hc1 := find_first_cache_ok qc hy req_of ss ch w rq min _ _ HW Hc Hkf Hin Hk Ef).
    assert (IH' := IH HF ltac:(intros; apply Hsub; by right)).
    destruct o as [[[x l] r]|]; [|by apply IH'].
    destruct (dget l (slots ss)) as [s|e]; cbn [rbind]; [|split; [done|]; intros; congruence].
    destruct (_ <? fin); [|by apply IH'].
    destruct (get_encompassing_slots _ _ _ _) as [[el er]|e]; cbn [rbind]; [by apply IH'|].
    split; [done|]. intros; congruence.
Qed.

Lemma inserted_cache_ok env hy req_of ss j ss' ch : job_ok j -> inserted env ss j ss' -> cache_ok hy req_of ss ch -> cache_ok hy req_of ss' ch.
Proof.
  intros Hj HI Hc. destruct (inserted_free _ _ _ _ Hj HI) as (Hsub & _). destruct HI as (_ & Hb & He & HK & _).
  intros k i Hk. destruct (Hc k i Hk) as (s & Hs & Hno). destruct (HK i s Hs) as (s' & Hs' & Hsb).
  exists s'. split; [done|]. intros rq t Hreq Hkn Ht Hcs. apply (Hno rq t Hreq Hkn); [lia|].
  by apply (can_start_mono hy ss ss').
Qed.

Lemma assign_cache_ok env qc hy req_of ss ch w min : WF ss -> cache_ok hy req_of ss ch -> keys_for req_of w ->
  job_ok (w_job w) -> Forall (known_request hy) (w_rqts w) ->
  assign env qc hy ss ∅ (nokeys w) min =
    match assign env qc hy ss ch w min with Ok (ss', _, w') => Ok (ss', ∅, nokeys w') | Err e => Err e end /\
  forall ss' ch' w', assign env qc hy ss ch w min = Ok (ss', ch', w') -> WF ss' /\ cache_ok hy req_of ss' ch'.
Proof.
  intros HW Hc Hkf Hj HF. split.
  - unfold assign. destruct (dget 1 (slots ss)) as [s1|e]; cbn [rbind]; [|done].
    change (w_rqts (nokeys w)) with (w_rqts w).
    destruct (assign_loop_nocache qc hy req_of ss w min (w_rqts w) HW Hkf HF ltac:(done) ch (2 ^ 32 - 1) None false Hc) as [-> _].
    destruct (assign_loop qc hy ss w min (w_rqts w) ch (2 ^ 32 - 1) None false) as [[[bst found] ch1]|e]; cbn [rbind]; [|done].
    destruct found; cbn [negb]; [|done].
    destruct bst as [[[[[[a b] c] d] l] r]|]; [|done].
    change (w_job (placed (nokeys w) b c d)) with (w_job (placed w b c d)).
    destruct (split_slots _ _ _ _ _ _); done.
  - intros ss' ch' w' E.
    assert (Hw : Forall (fun rq => 0 < r_wall rq) (w_rqts w)).
    { eapply Forall_impl; [exact HF|]. intros rq (_ & ? & _). done. }
    destruct (assign_sound _ _ _ _ _ _ _ _ _ _ HW (cache_ok_valid _ _ _ _ Hc) Hj Hw E) as [_ Hcase].
    assert (Hch : cache_ok hy req_of ss ch').
    { unfold assign in E. apply rbind_Ok in E as (s1 & _ & E). apply rbind_Ok in E as ([[bst found] ch1] & EL & E).
      pose proof (proj2 (assign_loop_nocache qc hy req_of ss w min (w_rqts w) HW Hkf HF ltac:(done) ch (2 ^ 32 - 1) None false Hc) _ _ _ EL) as Hc1.
      destruct found; cbn [negb] in E; [|assert (ch' = ch1) as -> by congruence; done].
      destruct bst as [[[[[[a b] c] d] l] r]|]; [|done]. apply rbind_Ok in E as (ss1 & _ & E).
      assert (ch' = ch1) as -> by congruence. done. }
    destruct Hcase as [[-> ->]|(rq & p & x & _ & _ & _ & -> & HI)]; [done|].
    split; [apply HI|]. eapply inserted_cache_ok; [|exact HI|exact Hch]. done.
Qed.

Lemma c_get_erase n sss : c_get n (erase sss) = match c_get n sss with Some (ss, _) => Some (ss, ∅) | None => None end.
Proof. induction sss as [|[m [s c]] sss IH]; cbn [erase fmap list_fmap c_get fst snd]; [done|]. by case_bool_decide. Qed.
Lemma c_set_erase n ss ch sss : erase (c_set n (ss, ch) sss) = c_set n (ss, ∅) (erase sss).
Proof.
  induction sss as [|[m [s c]] sss IH]; cbn [erase fmap list_fmap c_set fst snd]; [done|].
  case_bool_decide; cbn [fmap list_fmap fst snd]; [done|]. f_equal. exact IH.
Qed.
Lemma deps_loop_nokeys jobs deps : forall m, deps_loop (nokeys <$> jobs) deps m = deps_loop jobs deps m.
Proof.
  induction deps as [|[[d s] c] deps IH]; intros m; cbn [deps_loop]; [done|].
  rewrite !IH, lookup_fmap. case_bool_decide; [done|]. case_bool_decide; [|done].
  destruct (jobs !! d) as [wd|]; cbn [fmap option_fmap option_map]; [|done]. apply IH.
Qed.

Definition good_sets (hy : hierarchy) (req_of : string -> Z * list rgroup) (sss : csets) : Prop :=
  forall n ss ch, c_get n sss = Some (ss, ch) -> WF ss /\ cache_ok hy req_of ss ch.

Lemma round_nocache env qc hy req_of idstr sec ids : forall sss jobs,
  good_sets hy req_of sss -> NoDup ids ->
  (forall id w, id ∈ ids -> jobs !! id = Some w ->
     w_wall w = None /\ keys_for req_of w /\ job_ok (w_job w) /\ Forall (known_request hy) (w_rqts w)) ->
  (forall id w, id ∈ ids -> jobs !! id = Some w -> has_type "container" (w_job w) = true ->
     c_get (container_name idstr (w_job w)) sss = None /\ Forall (fun rq => sec <= r_wall rq) (w_rqts w)) ->
  (forall id1 id2 w1 w2, id1 ∈ ids -> id2 ∈ ids -> id1 <> id2 -> jobs !! id1 = Some w1 -> jobs !! id2 = Some w2 ->
     has_type "container" (w_job w1) = true -> has_type "container" (w_job w2) = true ->
     container_name idstr (w_job w1) <> container_name idstr (w_job w2)) ->
  schedule_jobs env qc hy idstr sec ids (erase sss) (nokeys <$> jobs) =
  match schedule_jobs env qc hy idstr sec ids sss jobs with
  | Ok (sss', jobs') => Ok (erase sss', nokeys <$> jobs')
  | Err e => Err e
  end.
Proof.
  induction ids as [|i ids IH]; intros sss jobs HG Hnd HJ HC HD; cbn [schedule_jobs]; [done|].
  apply NoDup_cons in Hnd as [Hni Hnd].
  unfold dget. rewrite lookup_fmap. destruct (jobs !! i) as [w|] eqn:Hw; cbn [fmap option_fmap option_map rbind]; [|done].
  change (w_deps (nokeys w)) with (w_deps w). rewrite deps_loop_nokeys.
  assert (Hkeep : forall w' id, id ∈ ids -> <[i := w']> jobs !! id = jobs !! id).
  { intros w' id Hid. rewrite lookup_insert_ne; [done|]. intros ->. done. }
  destruct (deps_loop jobs (w_deps w) (-1)) as [min|].
  2: { change (skipped (nokeys w)) with (nokeys (skipped w)). rewrite <- fmap_insert. apply IH; [done|done| | |].
       - intros id x Hid. rewrite Hkeep by done. apply HJ. by right.
       - intros id x Hid. rewrite Hkeep by done. apply HC. by right.
       - intros id1 id2 w1 w2 H1 H2 Hne. rewrite !Hkeep by done. apply HD; [by right|by right|done]. }
  change (w_job (nokeys w)) with (w_job w). fold (set_of w). rewrite c_get_erase.
  destruct (c_get (set_of w) sss) as [[ss ch]|] eqn:Eg; [|done].
  destruct (HJ i w ltac:(by left) Hw) as (Hwall & Hkf & Hj & HF). destruct (HG _ _ _ Eg) as [HW Hc].
  destruct (assign_cache_ok env qc hy req_of ss ch w min HW Hc Hkf Hj HF) as [-> Hnext].
  destruct (assign env qc hy ss ch w min) as [[[ss' ch'] w']|e] eqn:Ea; cbn [rbind]; [|done].
  destruct (Hnext _ _ _ eq_refl) as [HW' Hc']. clear Hnext. rewrite <- (c_set_erase (set_of w) ss' ch').
  destruct (assign_types _ _ _ _ _ _ _ _ _ _ Ea) as (HT & Hid & _).
  assert (HG1 : good_sets hy req_of (c_set (set_of w) (ss', ch') sss)).
  { intros n s c. rewrite c_get_set. case_bool_decide; [|apply HG]. intros E. assert (s = ss' /\ c = ch') as [-> ->] by (split; congruence). done. }
  assert (Hcn : container_name idstr (w_job w') = container_name idstr (w_job w)).
  { unfold container_name. by rewrite HT, Hid. }
  assert (Hct : has_type "container" (w_job w') = has_type "container" (w_job w)).
  { unfold has_type. by rewrite HT. }
  unfold open_container. change (w_job (nokeys w')) with (w_job w'). change (w_wall (nokeys w')) with (w_wall w').
  assert (Hold : forall id x, id ∈ ids -> jobs !! id = Some x -> has_type "container" (w_job x) = true ->
     c_get (container_name idstr (w_job x)) (c_set (set_of w) (ss', ch') sss) = None /\ Forall (fun rq => sec <= r_wall rq) (w_rqts x)).
  { intros id x Hid' Hx Hcx. destruct (HC id x ltac:(by right) Hx Hcx) as [H1 H2]. split; [|done].
    rewrite c_get_set. case_bool_decide as He; [|done]. rewrite He in Eg. congruence. }
  destruct (has_type "container" (w_job w')) eqn:Ec.
  2: { cbn [rbind]. rewrite <- fmap_insert. apply IH; [done|done| | |].
       - intros id x Hx. rewrite Hkeep by done. apply HJ. by right.
       - intros id x Hx. rewrite Hkeep by done. by apply Hold.
       - intros id1 id2 w1 w2 H1 H2 Hne. rewrite !Hkeep by done. apply HD; [by right|by right|done]. }
  destruct (w_wall w') as [wall|] eqn:Ewall; cbn [attr rbind]; [|done].
  rewrite Hcn. destruct (HC i w ltac:(by left) Hw ltac:(congruence)) as [Hfresh Hsec].
  assert (Hf1 : c_get (container_name idstr (w_job w)) (c_set (set_of w) (ss', ch') sss) = None).
  { rewrite c_get_set. case_bool_decide as He; [|done]. rewrite He in Eg. congruence. }
  rewrite c_get_erase, Hf1. cbn [rbind].
  match goal with |- context [c_set (set_of w) (ss', ch') sss ++ [(?n, (?s, ?e))]] =>
    change (erase (c_set (set_of w) (ss', ch') sss) ++ [(n, (s, ∅))]) with (erase (c_set (set_of w) (ss', ch') sss) ++ erase [(n, (s, ∅))]);
    set (new := [(n, (s, ∅))] : csets) end.
  assert (Hne : erase (c_set (set_of w) (ss', ch') sss) ++ erase new = erase (c_set (set_of w) (ss', ch') sss ++ new))
    by (unfold erase; by rewrite fmap_app). rewrite Hne. rewrite <- fmap_insert. apply IH; [|done| | |].
  - intros n s c. rewrite c_get_app. destruct (c_get n (c_set (set_of w) (ss', ch') sss)) as [[s0 c0]|] eqn:E0.
    + intros E. assert (s = s0 /\ c = c0) as [-> ->] by (split; congruence). exact (HG1 _ _ _ E0).
    + subst new. cbn [c_get]. destruct (bool_decide (container_name idstr (w_job w) = n)); [|done]. intros E.
      match type of E with Some (?a, ?b) = _ => assert (s = a /\ c = b) as [-> ->] by (split; congruence) end.
      split; [|intros k i' Hk; by rewrite lookup_empty in Hk].
      apply ss_of_slot_wf.
      assert (Hpos : Forall (fun rq => 0 < r_wall rq) (w_rqts w)).
      { eapply Forall_impl; [exact HF|]. intros rq (_ & ? & _). done. }
      destruct (assign_sound _ _ _ _ _ _ _ _ _ _ HW (cache_ok_valid _ _ _ _ Hc) Hj Hpos Ea) as [_ [[-> _]|(rq & p & x & Hrq & _ & _ & -> & _)]].
      * cbn in Ewall. congruence.
      * cbn in Ewall. assert (wall = r_wall rq) as -> by congruence. rewrite Forall_forall in Hsec. specialize (Hsec _ Hrq). cbn in Hsec. lia.
  - intros id x Hx. rewrite Hkeep by done. apply HJ. by right.
  - intros id x Hx. rewrite Hkeep by done. intros Hx' Hcx. destruct (Hold id x Hx Hx' Hcx) as [H1 H2]. split; [|done].
    rewrite c_get_app, H1. subst new. cbn [c_get]. rewrite bool_decide_false; [done|].
    apply (HD i id w x); [by left|by right| |done|done|congruence|done]. intros ->. done.
  - intros id1 id2 w1 w2 H1 H2 Hne'. rewrite !Hkeep by done. apply HD; [by right|by right|done].
Qed.

(** * Dependencies *)
Lemma deps_loop_ge jobs deps : forall m m', deps_loop jobs deps m = Some m' -> m <= m' /\
  forall d c wd, (d, "Waiting"%string, c) ∈ deps -> jobs !! d = Some wd ->
    (match w_wall wd with Some x => start_time (w_job wd) + x | None => start_time (w_job wd) end) <= m'.
Proof.
  induction deps as [|[[d s] c] deps IH]; intros m m' E; cbn [deps_loop] in E.
  - assert (m' = m) as -> by congruence. split; [lia|]. intros d c wd Hd. by apply elem_of_nil in Hd.
  - destruct (bool_decide (s = "Error"%string)) eqn:E1.
    { apply IH in E as [H1 H2]. split; [done|]. intros d' c' wd Hd. apply elem_of_cons in Hd as [Hd|Hd]; [|by apply (H2 d' c')].
      apply bool_decide_eq_true in E1. congruence. }
    destruct (bool_decide (s = "Waiting"%string)) eqn:E2.
    { destruct (jobs !! d) as [wd0|] eqn:Ed; [|done]. apply IH in E as [H1 H2].
      set (stop := match w_wall wd0 with Some x => start_time (w_job wd0) + x | None => start_time (w_job wd0) end) in *.
      assert (m <= m' /\ stop <= m') as [H3 H4] by (destruct (m <? stop) eqn:El; lia).
      split; [done|]. intros d' c' wd Hd Hw. apply elem_of_cons in Hd as [Hd|Hd]; [|by apply (H2 d' c')].
      assert (d' = d) as -> by congruence. assert (wd = wd0) as -> by congruence. exact H4. }
    destruct (_ && _); [|done]. apply IH in E as [H1 H2]. split; [done|]. intros d' c' wd Hd.
    apply elem_of_cons in Hd as [Hd|Hd]; [|by apply (H2 d' c')]. apply bool_decide_eq_false in E2. congruence.
Qed.

Lemma deps_loop_le jobs deps M : forall m m', deps_loop jobs deps m = Some m' -> m <= M ->
  (forall d c wd, (d, "Waiting"%string, c) ∈ deps -> jobs !! d = Some wd -> stop_of wd <= M) -> m' <= M.
Proof.
  induction deps as [|[[d s] c] deps IH]; intros m m' E Hm H; cbn [deps_loop] in E.
  - assert (m' = m) as -> by congruence. done.
  - assert (H' : forall d' c' wd, (d', "Waiting"%string, c') ∈ deps -> jobs !! d' = Some wd -> stop_of wd <= M).
    { intros d' c' wd Hd. apply (H d' c'). by right. }
    destruct (bool_decide (s = "Error"%string)) eqn:E1; [by apply (IH m)|].
    destruct (bool_decide (s = "Waiting"%string)) eqn:E2.
    { destruct (jobs !! d) as [wd0|] eqn:Ed; [|done]. fold (stop_of wd0) in E. apply (IH _ _ E); [|done].
      apply bool_decide_eq_true in E2 as ->. specialize (H d c wd0 ltac:(by left) Ed). destruct (m <? stop_of wd0); lia. }
    destruct (_ && _); [|done]. by apply (IH m).
Qed.

Lemma find_first_after qc hy ss ch w rq min x l r ch' : WF ss -> cache_valid ss ch -> 0 < r_wall rq -> 0 <= min ->
  find_first qc hy ss ch w rq min = Ok (Some (x, l, r), ch') ->
  exists t0, origin ss min t0 /\ forall s, slots ss !! l = Some s -> t0 <= sb s.
Proof.
  intros HW Hv Hw Hm E. unfold find_first in E.
  apply rbind_Ok in E as (i & Ei & E). apply rbind_Ok in E as (ws & Ew & E).
  apply rbind_Ok in E as (o & Eo & E). fold (eff qc w) in Eo, E.
  assert (o = Some (x, l, r)) as ->.
  { destruct o as [[[a b] c]|]; [|congruence]. destruct (eff qc w); [congruence|].
    destruct (_ && _); [|congruence]. destruct (w_keys w !! r_mld rq); congruence. }
  clear E. destruct (search_loop_some _ _ _ _ _ _ _ _ _ Eo) as (pre & p & post & -> & -> & -> & Ht & _).
  destruct (start_slot ss ch w rq min HW Hv Hw ltac:(lia)) as (i' & s & Ei' & Hs & Et & [Ho|(Ho & _)]); [|lia].
  assert (i' = i) as -> by congruence. rewrite Et in Ew.
  destruct (windows_from ss _ _ s HW Hw Hs) as (pre' & ws' & _ & Ew' & HF & _ & _ & Hge & _).
  assert (ws' = pre ++ p :: post) as -> by congruence.
  rewrite !Forall_app, !Forall_cons in HF. destruct HF as (_ & _ & Hp & _). rewrite !Forall_app, !Forall_cons in Hge. destruct Hge as (_ & Hp' & _).
  exists (sb s). split; [done|]. intros s1 Hs1. destruct Hp as (Hp1 & _). assert (s1 = p.1) as -> by congruence. lia.
Qed.

Lemma alts_after qc hy ss w min rqs ch os ch' : WF ss -> cache_valid ss ch -> Forall (fun rq => 0 < r_wall rq) rqs -> 0 <= min ->
  alts qc hy ss w min rqs ch os ch' ->
  forall k rq x l r, rqs !! k = Some rq -> os !! k = Some (Some (x, l, r)) ->
    exists t0, origin ss min t0 /\ forall s, slots ss !! l = Some s -> t0 <= sb s.
Proof.
  intros HW Hv HF Hm HA. induction HA as [ch|rq rqs ch o ch1 os ch2 E HA IH].
  - intros k rq x l r Hk. by rewrite lookup_nil in Hk.
  - rewrite Forall_cons in HF. destruct HF as [Hw HF].
    assert (Hv1 := find_first_valid _ _ _ _ _ _ _ _ _ HW Hv Hw E).
    intros [|k] rq' x l r Hk Ho; cbn in Hk, Ho; [|by eapply IH].
    assert (rq' = rq /\ o = Some (x, l, r)) as [-> ->] by (split; congruence).
    exact (find_first_after _ _ _ _ _ _ _ _ _ _ _ HW Hv Hw Hm E).
Qed.

Lemma assign_after env qc hy ss ch w min ss' ch' w' t0 :
  WF ss -> cache_valid ss ch -> Forall (fun rq => 0 < r_wall rq) (w_rqts w) -> 0 <= min ->
  assign env qc hy ss ch w min = Ok (ss', ch', w') ->
  (forall t1, origin ss min t1 -> t0 <= t1) ->
  w' = unplaced w \/ t0 <= start_time (w_job w').
Proof.
  intros HW Hv HF Hm E Ho. unfold assign in E. apply rbind_Ok in E as (s1 & _ & E).
  apply rbind_Ok in E as ([[bst found] ch1] & EL & E).
  destruct (assign_loop_alts _ _ _ _ _ _ _ _ _ _ _ _ _ EL) as (os & HA & _ & Hcase).
  destruct found; cbn [negb] in E.
  - right. destruct Hcase as [[-> _]|(i & rq & o & s & x & tf & el & er & H1 & H2 & (l & r & -> & H3 & H4) & _ & EG & -> & _)]; [done|].
    apply rbind_Ok in E as (ss1 & ES & E). assert (w' = placed w (sb s) x rq) as -> by congruence.
    destruct (alts_after _ _ _ _ _ _ _ _ _ HW Hv HF Hm HA i rq x l r H1 H2) as (t1 & Ho1 & Ht1).
    cbn [w_job placed with_sched start_time]. specialize (Ht1 s H3). specialize (Ho t1 Ho1). lia.
  - left. congruence.
Qed.

Lemma schedule_jobs_app env qc hy idstr sec l1 l2 : forall sss jobs,
  schedule_jobs env qc hy idstr sec (l1 ++ l2) sss jobs =
  rbind (schedule_jobs env qc hy idstr sec l1 sss jobs) (fun x => schedule_jobs env qc hy idstr sec l2 x.1 x.2).
Proof.
  induction l1 as [|i l1 IH]; intros sss jobs; cbn [app schedule_jobs rbind fst snd]; [done|].
  destruct (dget i jobs) as [w|e]; cbn [rbind]; [|done].
  destruct (deps_loop jobs (w_deps w) (-1)) as [min|]; [|apply IH].
  destruct (c_get _ sss) as [[ss ch]|]; [|done].
  destruct (assign _ _ _ _ _ _ _) as [[[ss' ch'] w']|e]; cbn [rbind]; [|done].
  destruct (open_container _ _ _ _ _ _) as [sss'|e]; cbn [rbind]; [|done]. apply IH.
Qed.

(** What a round keeps about one slot set. *)
Lemma round_keeps env qc hy idstr sec n ids : forall sss jobs sss' jobs' ss ch,
  schedule_jobs env qc hy idstr sec ids sss jobs = Ok (sss', jobs') ->
  c_get n sss = Some (ss, ch) -> WF ss -> cache_valid ss ch -> NoDup ids ->
  (forall id w, id ∈ ids -> jobs !! id = Some w -> set_of w = n -> job_ok (w_job w) /\ Forall (fun rq => 0 < r_wall rq) (w_rqts w)) ->
  (forall id w, id ∈ ids -> jobs !! id = Some w -> has_type "container" (w_job w) = true -> container_name idstr (w_job w) <> n) ->
  exists ss' ch', c_get n sss' = Some (ss', ch') /\ WF ss' /\ cache_valid ss' ch' /\
    begin_ ss' = begin_ ss /\ end_ ss' = end_ ss /\ keeps_starts (slots ss) (slots ss').
Proof.
  induction ids as [|i ids IH]; intros sss jobs sss' jobs' ss ch E Hg HW Hv Hnd Hpl Hct.
  { cbn [schedule_jobs] in E. assert (sss' = sss) as -> by congruence. exists ss, ch. split_and!; try done. apply keeps_refl. }
  apply NoDup_cons in Hnd as [Hni Hnd].
  assert (Hkeep : forall w' id, id ∈ ids -> <[i := w']> jobs !! id = jobs !! id).
  { intros w' id Hid. rewrite lookup_insert_ne; [done|]. intros ->. done. }
  assert (HP : forall w', forall id w, id ∈ ids -> <[i := w']> jobs !! id = Some w -> set_of w = n -> job_ok (w_job w) /\ Forall (fun rq => 0 < r_wall rq) (w_rqts w)).
  { intros w' id w Hid. rewrite Hkeep by done. apply Hpl. by right. }
  assert (HC : forall w', forall id w, id ∈ ids -> <[i := w']> jobs !! id = Some w -> has_type "container" (w_job w) = true -> container_name idstr (w_job w) <> n).
  { intros w' id w Hid. rewrite Hkeep by done. apply Hct. by right. }
  apply step_inv in E as (w & Hw & [[_ E]|(min & ss0 & ch0 & ss0' & ch0' & w' & sss1 & _ & Hg0 & Ea & Eo & E)]).
  - eapply IH; [exact E|exact Hg|done|done|done|apply HP|apply HC].
  - destruct (assign_types _ _ _ _ _ _ _ _ _ _ Ea) as (HT & Hid & _).
    assert (Hct' : has_type "container" (w_job w') = true -> container_name idstr (w_job w') <> n).
    { intros HcT. unfold has_type, container_name in HcT |- *. rewrite HT in HcT |- *. rewrite Hid.
      apply (Hct i w); [by left|done|]. exact HcT. }
    destruct (decide (set_of w = n)) as [Hn|Hn].
    + assert (ss0 = ss /\ ch0 = ch) as [-> ->] by (rewrite Hn in Hg0; split; congruence).
      destruct (Hpl i w ltac:(by left) Hw Hn) as [Hp HF].
      destruct (assign_sound _ _ _ _ _ _ _ _ _ _ HW Hv Hp HF Ea) as [Hv' Hcase].
      assert (Hgn : c_get n sss1 = Some (ss0', ch0')).
      { rewrite (open_container_other _ _ _ _ _ _ _ n Eo Hct'); rewrite c_get_set, bool_decide_true by done; eauto. }
      assert (HS : WF ss0' /\ begin_ ss0' = begin_ ss /\ end_ ss0' = end_ ss /\ keeps_starts (slots ss) (slots ss0')).
      { destruct Hcase as [[_ ->]|(rq & p & x & _ & _ & _ & _ & HI)]; [split_and!; [done|done|done|apply keeps_refl]|].
        destruct HI as (? & ? & ? & ? & _). done. }
      destruct HS as (HW' & Hb & He & HK).
      destruct (IH _ _ _ _ _ _ E Hgn HW' Hv' Hnd (HP w') (HC w')) as (ss' & ch' & H1 & H2 & H3 & H4 & H5 & H6).
      exists ss', ch'. split_and!; [done|done|done|congruence|congruence|]. by eapply keeps_trans.
    + assert (Hgn : c_get n sss1 = Some (ss, ch)).
      { rewrite (open_container_other _ _ _ _ _ _ _ n Eo Hct'); rewrite c_get_set, bool_decide_false by done; [done|]. rewrite Hg; eauto. }
      eapply IH; [exact E|exact Hgn|done|done|done|apply HP|apply HC].
Qed.

Lemma origin_after ss min stop t0 k x : WF ss -> slots ss !! k = Some x -> sb x = stop -> stop <= min <= end_ ss ->
  begin_ ss <= stop -> 0 <= min -> origin ss min t0 -> stop <= t0.
Proof.
  intros HW Hk Hx Hm Hb H0 [[Hm' ->]|(_ & i & s & Hs & Hms & ->)]; [lia|].
  destruct (decide (sb s < stop)) as [Hlt|]; [|lia]. exfalso.
  destruct HW as [lst H]. apply (repr_elem _ _ _ _ H) in Hs as [Hs _]. apply (repr_elem _ _ _ _ H) in Hk as [Hk _].
  pose proof (repr_bounds _ _ _ H Hk).
  assert (s = x) by (eapply (contig_unique _ _ _ stop _ _ (repr_contig _ _ H)); [done|done|lia|lia]). subst. lia.
Qed.

Lemma dependency_respected env qc hy idstr sec n d mid j post sss jobs sss' jobs' ss ch wd wj st wall :
  schedule_jobs env qc hy idstr sec (d :: mid ++ j :: post) sss jobs = Ok (sss', jobs') ->
  c_get n sss = Some (ss, ch) -> WF ss -> 0 <= begin_ ss -> cache_valid ss ch -> NoDup (d :: mid ++ j :: post) ->
  (forall id w, id ∈ d :: mid ++ j :: post -> jobs !! id = Some w ->
     w_wall w = None /\ (set_of w = n -> job_ok (w_job w) /\ Forall (fun rq => 0 < r_wall rq) (w_rqts w)) /\
     (has_type "container" (w_job w) = true -> container_name idstr (w_job w) <> n)) ->
  jobs' !! d = Some wd -> set_of wd = n -> w_wall wd = Some wall -> start_time (w_job wd) = st ->
  (forall i s, slots ss !! i = Some s -> se s <> st + wall) ->
  jobs' !! j = Some wj -> set_of wj = n -> is_Some (w_wall wj) ->
  (exists c, (d, "Waiting"%string, c) ∈ w_deps wj) ->
  (forall d' c wd', (d', "Waiting"%string, c) ∈ w_deps wj -> jobs' !! d' = Some wd' -> d' ∈ d :: mid /\ stop_of wd' <= end_ ss) ->
  st + wall <= start_time (w_job wj).
Proof.
  intros E Hg HW Hb0 Hv Hnd HJ Hd Hdn Hdw Hst Hnoend Hj Hjn Hjp [c Hdep] Hdeps.
  assert (Hend : st + wall <= end_ ss).
  { destruct (Hdeps d c wd Hdep Hd) as [_ H]. unfold stop_of in H. rewrite Hdw in H. lia. }
  assert (Hnd' := Hnd). apply NoDup_cons in Hnd' as [Hnid Hnd']. apply NoDup_app in Hnd' as (Hnm & Hdis & Hnp).
  apply NoDup_cons in Hnp as [Hnj Hnp]. rewrite not_elem_of_app, not_elem_of_cons in Hnid. destruct Hnid as (Hdm & Hdj & Hdp).
  assert (Hjm : j ∉ mid) by (intros Hm; apply (Hdis j Hm); by left).
  (* the step of d *)
  assert (Hd1 : d ∈ d :: mid ++ j :: post) by (by left).
  apply step_inv in E as (w & Hw & [[_ E]|(min & ss0 & ch0 & ss1 & ch1 & w' & sss1 & _ & Hg0 & Ea & Eo & E)]).
  { assert (H := others_kept _ _ _ _ _ _ _ _ _ _ E d ltac:(rewrite not_elem_of_app, not_elem_of_cons; done)).
    rewrite lookup_insert in H. assert (wd = skipped w) as -> by congruence.
    destruct (HJ d w Hd1 Hw) as [Hn _]. cbn in Hdw. congruence. }
  assert (H := others_kept _ _ _ _ _ _ _ _ _ _ E d ltac:(rewrite not_elem_of_app, not_elem_of_cons; done)).
  rewrite lookup_insert in H. assert (w' = wd) as -> by congruence. clear H.
  destruct (HJ d w Hd1 Hw) as (Hwn & Hwok & Hwc).
  destruct (assign_types _ _ _ _ _ _ _ _ _ _ Ea) as (HT & Hid & _).
  assert (Hset : set_of wd = set_of w) by (unfold set_of; by rewrite HT).
  assert (ss0 = ss /\ ch0 = ch) as [-> ->] by (rewrite <- Hset, Hdn in Hg0; split; congruence).
  destruct (Hwok ltac:(congruence)) as [Hwj HwF].
  destruct (assign_sound _ _ _ _ _ _ _ _ _ _ HW Hv Hwj HwF Ea) as [Hv1 [[-> _]|(rq & p & x & Hrq & Hpw & _ & Ewd & HI)]].
  { cbn in Hdw. congruence. }
  assert (Hct1 : has_type "container" (w_job wd) = true -> container_name idstr (w_job wd) <> n).
  { intros HcT. unfold has_type, container_name in HcT |- *. rewrite HT in HcT |- *. rewrite Hid. apply Hwc. exact HcT. }
  assert (Hg1 : c_get n sss1 = Some (ss1, ch1)).
  { rewrite (open_container_other _ _ _ _ _ _ _ n Eo Hct1); rewrite c_get_set, bool_decide_true by congruence; eauto. }
  assert (Hstop : walltime (w_job wd) = wall).
  { rewrite Ewd in *. cbn in Hdw |- *. congruence. }
  assert (Hwpos : 0 < wall).
  { rewrite Forall_forall in HwF. specialize (HwF rq Hrq). cbn in HwF. rewrite Ewd in Hdw. cbn in Hdw. assert (r_wall rq = wall) by congruence. lia. }
  destruct HI as (HW1 & Hb1 & He1 & _ & Hslot & _).
  destruct Hslot as (k & sk & Hk & Hks); [rewrite Hst, Hstop; done|lia|].
  assert (Hbst : begin_ ss <= st).
  { rewrite Ewd in Hst. cbn in Hst. destruct Hpw as (H1 & _). pose proof (slot_len _ _ HW H1). lia. }
  (* the jobs in between *)
  rewrite schedule_jobs_app in E. apply rbind_Ok in E as ([sss2 jobs2] & E2 & E). cbn [fst snd] in E.
  assert (Hkeep : forall id, id ∈ mid -> <[d := wd]> jobs !! id = jobs !! id).
  { intros id Hid'. rewrite lookup_insert_ne; [done|]. intros ->. done. }
  destruct (round_keeps _ _ _ _ _ n _ _ _ _ _ _ _ E2 Hg1 HW1 Hv1 Hnm) as (ss2 & ch2 & Hg2 & HW2 & Hv2 & Hb2 & He2 & HK2).
  { intros id w0 Hid' Hw0. rewrite Hkeep in Hw0 by done. apply (HJ id); [right; apply elem_of_app; by left|done]. }
  { intros id w0 Hid' Hw0. rewrite Hkeep in Hw0 by done. apply (HJ id); [right; apply elem_of_app; by left|done]. }
  destruct (HK2 k sk Hk) as (sk2 & Hk2 & Hsb2).
  (* the step of j *)
  assert (Hmid : forall d', d' ∈ d :: mid -> jobs' !! d' = jobs2 !! d').
  { intros d' Hd'. apply (others_kept _ _ _ _ _ _ _ _ _ _ E). apply elem_of_cons in Hd' as [->|Hd'].
    - by rewrite not_elem_of_cons. - by apply Hdis. }
  apply step_inv in E as (w2 & Hw2 & [[_ E]|(min2 & ss3 & ch3 & ss4 & ch4 & w4 & sss4 & Edl & Hg3 & Ea4 & _ & E)]).
  { assert (H := others_kept _ _ _ _ _ _ _ _ _ _ E j Hnj). rewrite lookup_insert in H.
    assert (wj = skipped w2) as -> by congruence. exfalso.
    assert (Hjj : jobs2 !! j = jobs !! j).
    { rewrite (others_kept _ _ _ _ _ _ _ _ _ _ E2 j Hjm). by rewrite lookup_insert_ne. }
    destruct (HJ j w2 ltac:(right; apply elem_of_app; right; by left) ltac:(congruence)) as [Hn2 _]. cbn in Hjp. rewrite Hn2 in Hjp. by destruct Hjp. }
  assert (H := others_kept _ _ _ _ _ _ _ _ _ _ E j Hnj). rewrite lookup_insert in H.
  assert (w4 = wj) as -> by congruence. clear H.
  assert (Hjj : jobs2 !! j = jobs !! j).
  { rewrite (others_kept _ _ _ _ _ _ _ _ _ _ E2 j Hjm). by rewrite lookup_insert_ne. }
  destruct (HJ j w2 ltac:(right; apply elem_of_app; right; by left) ltac:(congruence)) as (Hn2 & Hok2 & _).
  destruct (assign_types _ _ _ _ _ _ _ _ _ _ Ea4) as (HT2 & _ & HD2). rewrite HD2 in *.
  assert (Hset2 : set_of wj = set_of w2) by (unfold set_of; by rewrite HT2).
  assert (ss3 = ss2 /\ ch3 = ch2) as [-> ->] by (rewrite <- Hset2, Hjn in Hg3; split; congruence).
  destruct (Hok2 ltac:(congruence)) as [Hwj2 HwF2].
  assert (Hd2 : jobs2 !! d = Some wd) by (rewrite <- Hmid by (by left); done).
  destruct (deps_loop_ge _ _ _ _ Edl) as [_ Hge]. specialize (Hge d c wd Hdep Hd2). rewrite Hdw in Hge.
  assert (Hle : min2 <= end_ ss).
  { eapply deps_loop_le; [exact Edl|destruct HW as [l0 Hr]; pose proof (contig_le _ _ _ (repr_contig _ _ Hr)); lia|].
    intros d' c' wd' Hin Hlk. destruct (jobs' !! d') as [wd''|] eqn:Ed'.
    - destruct (Hdeps d' c' wd'' Hin Ed') as [Hin' Hs']. rewrite Hmid in Ed' by done. assert (wd' = wd'') as -> by congruence. done.
    - exfalso. destruct (decide (d' = j)) as [->|Hne']; [congruence|].
      destruct (decide (d' ∈ post)) as [Hpo|Hnpo].
      + clear -E Ed' Hlk Hpo Hne'. (* jobs stay in the table *)
        assert (Hdom : forall ids sss jobs sss' jobs', schedule_jobs env qc hy idstr sec ids sss jobs = Ok (sss', jobs') ->
                  forall id, is_Some (jobs !! id) -> is_Some (jobs' !! id)).
        { clear. induction ids as [|i ids IH]; intros sss jobs sss' jobs' E id Hid.
          - cbn [schedule_jobs] in E. assert (jobs' = jobs) as -> by congruence. done.
          - apply step_inv in E as (w & Hw & [[_ E]|(min & ss & ch & ss' & ch' & w' & sss1 & _ & _ & _ & _ & E)]);
              (eapply IH; [exact E|]); apply lookup_insert_is_Some'; by right. }
        destruct (Hdom _ _ _ _ _ E d') as [y Hy]; [apply lookup_insert_is_Some'; right; eauto|]. congruence.
      + assert (H := others_kept _ _ _ _ _ _ _ _ _ _ E d' Hnpo). rewrite lookup_insert_ne in H by done. congruence. }
  assert (Hmin2 : 0 <= min2) by lia.
  destruct (assign_after _ _ _ _ _ _ _ _ _ _ (st + wall) HW2 Hv2 HwF2 Hmin2 Ea4) as [->|Hafter].
  - intros t1 Ho. eapply (origin_after ss2 min2 (st + wall) t1 k sk2); [done|done|lia|lia|lia|lia|done].
  - exfalso. cbn in Hjp. rewrite Hn2 in Hjp. by destruct Hjp.
  - done.
Qed.

(** * Choosing among the alternatives, without quotas *)
Lemma can_start_ext hy ss rq rq' t : r_wall rq = r_wall rq' -> r_groups rq = r_groups rq' -> can_start hy ss rq t -> can_start hy ss rq' t.
Proof. intros H1 H2. unfold can_start. by rewrite H1, H2. Qed.

Lemma assign_loop_total qc hy req_of ss w min rqs : WF ss -> keys_for req_of w -> plain (w_job w) -> eff qc w = None ->
  Forall (known_request hy) rqs -> (forall rq, rq ∈ rqs -> rq ∈ w_rqts w) -> end_ ss < 2 ^ 32 - 1 ->
  forall ch fin bst found, cache_ok hy req_of ss ch -> (found = false /\ fin = 2 ^ 32 - 1) \/ is_Some bst ->
  exists bst' found' ch', assign_loop qc hy ss w min rqs ch fin bst found = Ok (bst', found', ch') /\ (found' = true -> is_Some bst').
Proof.
  intros HW Hkf Hp He HF Hsub Hend. induction rqs as [|rq rqs IH]; intros ch fin bst found Hc Hb; cbn [assign_loop].
  { exists bst, found, ch. split; [done|]. intros ->. destruct Hb as [[? _]|?]; done. }
  rewrite Forall_cons in HF. destruct HF as [Hk HF].
  assert (IH' := IH HF ltac:(intros; apply Hsub; by right)). clear IH.
  destruct (find_first_earliest qc hy req_of ss ch w rq min HW Hc Hkf ltac:(apply Hsub; by left) Hk Hp He) as (o & ch1 & t0 & E & Hc1 & _ & HS).
  rewrite E. cbn [rbind]. destruct o as [[[x l] r]|]; [|by apply IH'].
  destruct HS as (sl & sr & Hl & _ & _ & (H1 & H2 & H3 & H4 & _) & _). cbn [fst snd] in *. unfold dget. rewrite Hl. cbn [rbind].
  pose proof (slot_len _ _ HW H1) as HL1. pose proof (slot_len _ _ HW H2) as HL2. destruct Hk as (_ & Hw & _).
  destruct (_ <? fin) eqn:Elt.
  - destruct HW as [lst HR]. destruct lst as [|f lst]; [destruct (repr_ne _ _ HR); done|].
    destruct (get_encompassing_slots_spec ss [] f lst (sb sl) (sb sl + r_wall rq - 1) HR ltac:(lia))
      as (pre & mid & R & l3 & L & Eq & Hhd & EG' & _).
    assert (EG : get_encompassing_slots (slots ss) (sb sl) (sb sl + r_wall rq - 1) 0 = Ok (sid L, sid R)).
    { rewrite <- EG'. unfold get_encompassing_slots. cbn [Z.eqb negb]. rewrite (first_spec _ _ _ HR). cbn [rbind].
      pose proof (repr_nz _ _ f HR ltac:(mem)) as Hnz. replace (sid f =? 0) with false by lia. done. }
    rewrite EG. cbn [rbind]. apply IH'; [done|right; eauto].
  - destruct Hb as [[-> ->]|Hb]; [lia|]. apply IH'; [done|by right].
Qed.

Lemma origin_unique ss min t0 t1 : WF ss -> origin ss min t0 -> origin ss min t1 -> t0 = t1.
Proof.
  intros [l H0] Hor Hor1.
  destruct Hor as [[Hm ->]|(Hm & i & s & Hs & Hms & ->)], Hor1 as [[Hm1 ->]|(Hm1 & i1 & s1 & Hs1 & Hms1 & ->)].
  - done.
  - exfalso. apply (repr_elem _ _ _ _ H0) in Hs1 as [Hs1 _]. pose proof (repr_bounds _ _ _ H0 Hs1). lia.
  - exfalso. apply (repr_elem _ _ _ _ H0) in Hs as [Hs _]. pose proof (repr_bounds _ _ _ H0 Hs). lia.
  - apply (repr_elem _ _ _ _ H0) in Hs as [Hs _]. apply (repr_elem _ _ _ _ H0) in Hs1 as [Hs1 _].
    f_equal. by eapply (contig_unique _ _ _ min _ _ (repr_contig _ _ H0)).
Qed.

Lemma assign_earliest env qc hy req_of ss ch w min t0 :
  WF ss -> cache_ok hy req_of ss ch -> keys_for req_of w -> plain (w_job w) -> eff qc w = None ->
  Forall (known_request hy) (w_rqts w) -> is_Some (slots ss !! 1) -> end_ ss < 2 ^ 32 - 1 -> origin ss min t0 ->
  exists ss' ch' w', assign env qc hy ss ch w min = Ok (ss', ch', w') /\
   ((w' = unplaced w /\ ss' = ss /\ forall rq t, rq ∈ w_rqts w -> t0 <= t -> ~ can_start hy ss rq t) \/
    exists i rq st x, w_rqts w !! i = Some rq /\ w' = placed w st x rq /\ t0 <= st /\ can_start hy ss rq st /\
      x <> ∅ /\ (forall r u, r ∈ x -> st <= u < st + r_wall rq -> free_at ss u r) /\
      (exists X parts, (forall r, r ∈ X <-> forall u, st <= u < st + r_wall rq -> free_at ss u r) /\ x = ⋃ parts /\
        Forall2 (fun (g : rgroup) y => exists ls, levels_of hy (fst g) ls /\ served (snd g ∩ X) ls y) (r_groups rq) parts) /\
      forall k rq' t, w_rqts w !! k = Some rq' -> t0 <= t -> can_start hy ss rq' t ->
        st + r_wall rq <= t + r_wall rq' /\ ((k < i)%nat -> st + r_wall rq < t + r_wall rq')).
Proof.
  intros HW Hc Hkf Hp He HF [s1 Hs1] Hend Hor.
  destruct (assign_loop_total qc hy req_of ss w min (w_rqts w) HW Hkf Hp He HF ltac:(done) Hend ch (2 ^ 32 - 1) None false Hc ltac:(by left))
    as (bst & found & ch1 & EL & Hbst).
  destruct (assign_loop_alts _ _ _ _ _ _ _ _ _ _ _ _ _ EL) as (os & HA & Hfound & Hcase).
  destruct (alts_earliest _ _ _ _ _ _ _ _ _ _ HW Hc Hkf Hp He ltac:(done) HF HA) as (Hc1 & Hlen & Hall). specialize (Hall t0 Hor).
  assert (Hw : Forall (fun rq => 0 < r_wall rq) (w_rqts w)).
  { eapply Forall_impl; [exact HF|]. intros rq (_ & ? & _). done. }
  assert (HE : exists ss' ch' w', assign env qc hy ss ch w min = Ok (ss', ch', w') /\
     ((found = false /\ w' = unplaced w /\ ss' = ss) \/
      exists tf st x rq el er, bst = Some (tf, st, x, rq, el, er) /\ w' = placed w st x rq)).
  { unfold assign. unfold dget. rewrite Hs1. cbn [rbind]. rewrite EL. cbn [rbind]. destruct found; cbn [negb].
    - destruct (Hbst eq_refl) as [[[[[[tf st] x] rq] el] er] Eb].
      destruct Hcase as [[Hn _]|(i & rq0 & o & s & x0 & tf0 & el0 & er0 & H1 & H2 & (l & r & -> & H3 & H4) & _ & EG & Eb' & _)]; [congruence|].
      rewrite Eb'. assert (Hrw : 0 < r_wall rq0) by (rewrite Forall_forall in Hw; apply Hw; by eapply elem_of_list_lookup_2).
      assert (Hsid : sid s = l) by (destruct HW as [lst HR]; by apply (repr_elem _ _ _ _ HR) in H3 as [_ ?]).
      destruct (place_one env ss s (w_job (placed w (sb s) x0 rq0)) HW ltac:(congruence) ltac:(by apply plain_ok) Hrw eq_refl)
        as (el' & er' & ss2 & EG' & ES' & HI).
      cbn [w_job placed with_sched walltime] in EG'. rewrite H4 in EG.
      assert (el' = el0 /\ er' = er0) as [-> ->] by (split; congruence). rewrite ES'. cbn [rbind].
      exists ss2, ch1, (placed w (sb s) x0 rq0). split; [done|]. right. exists tf0, (sb s), x0, rq0, el0, er0. done.
    - exists ss, ch1, (unplaced w). split; [done|]. left. done. }
  destruct HE as (ss' & ch' & w' & E & Hres). exists ss', ch', w'. split; [done|].
  destruct Hres as [(Hf & -> & ->)|(tf & st & x & rq & el & er & -> & ->)].
  - left. split; [done|]. split; [done|]. intros rq t Hin Ht.
    apply elem_of_list_lookup in Hin as [k Hk].
    destruct (lookup_lt_is_Some_2 os k) as [o Ho]; [rewrite Hlen; by eapply lookup_lt_Some|].
    specialize (Hall k rq o Hk Ho). destruct o as [o|]; [|by apply Hall].
    exfalso. assert (found = true) by (apply Hfound; right; exists o; by eapply elem_of_list_lookup_2). congruence.
  - right. destruct Hcase as [[Hn _]|(i & rq0 & o & s & x0 & tf0 & el0 & er0 & H1 & H2 & Hoff & _ & _ & Eb & Hmin)]; [done|].
    assert (tf0 = tf /\ sb s = st /\ x0 = x /\ rq0 = rq) as (-> & <- & -> & ->) by (split_and!; congruence).
    destruct Hoff as (l & r & -> & H3 & H4).
    destruct (Hall i rq _ H1 H2) as (sl & Hsl & Ht0 & Hcs & _). assert (sl = s) as -> by congruence.
    destruct (alts_sound _ _ _ _ _ _ _ _ _ HW (cache_ok_valid _ _ _ _ Hc) Hw HA) as [_ Hsound].
    destruct (Hsound i rq x l r H1 H2) as (p & Hpw & -> & -> & Ht).
    assert (p.1 = s) as <- by (destruct Hpw as (Hp1 & _); congruence).
    assert (Hk : known_request hy rq) by (rewrite Forall_forall in HF; apply HF; by eapply elem_of_list_lookup_2).
    destruct (try_window_Some _ _ _ _ _ _ _ HW Hk Hpw Hp Ht) as (_ & Hx & Hfree & Hparts).
    exists i, rq, (sb p.1), x. split_and!; try done.
    intros k rq' t Hk' Ht' Hcs'.
    destruct (lookup_lt_is_Some_2 os k) as [o' Ho']; [rewrite Hlen; by eapply lookup_lt_Some|].
    specialize (Hall k rq' o' Hk' Ho'). destruct o' as [[[x' l'] r']|]; [|exfalso; by apply (Hall t)].
    destruct Hall as (sl' & Hsl' & _ & _ & Hfirst).
    destruct (Hmin k rq' _ sl' x' (sb sl' + r_wall rq' - 1) Hk' Ho' ltac:(exists l', r'; done)) as [Hm1 Hm2].
    assert (sb sl' <= t). { destruct (decide (t < sb sl')); [|lia]. exfalso. by apply (Hfirst t). }
    split; [lia|]. intros Hlt. specialize (Hm2 Hlt). lia.
Qed.

(** * A round without quotas, containers or special jobs never fails *)
Lemma round_total env qc hy req_of idstr sec ids : forall sss jobs,
  good_sets hy req_of sss ->
  (forall n ss ch, c_get n sss = Some (ss, ch) -> is_Some (slots ss !! 1) /\ end_ ss < 2 ^ 32 - 1) ->
  (forall id, id ∈ ids -> exists w, jobs !! id = Some w /\ is_Some (c_get (set_of w) sss) /\
     keys_for req_of w /\ plain (w_job w) /\ eff qc w = None /\ Forall (known_request hy) (w_rqts w) /\
     has_type "container" (w_job w) = false) ->
  exists sss' jobs', schedule_jobs env qc hy idstr sec ids sss jobs = Ok (sss', jobs').
Proof.
  induction ids as [|i ids IH]; intros sss jobs HG HS HJ; cbn [schedule_jobs]; [eauto|].
  destruct (HJ i ltac:(by left)) as (w & Hw & [[ss ch] Hg] & Hkf & Hp & He & HF & Hc).
  unfold dget. rewrite Hw. cbn [rbind].
  assert (HJ' : forall w' (sss' : csets), (forall n, is_Some (c_get n sss) -> is_Some (c_get n sss')) ->
     set_of w' = set_of w -> keys_for req_of w' -> plain (w_job w') -> eff qc w' = None -> Forall (known_request hy) (w_rqts w') ->
     has_type "container" (w_job w') = false ->
     forall id, id ∈ ids -> exists w0, <[i := w']> jobs !! id = Some w0 /\ is_Some (c_get (set_of w0) sss') /\
     keys_for req_of w0 /\ plain (w_job w0) /\ eff qc w0 = None /\ Forall (known_request hy) (w_rqts w0) /\ has_type "container" (w_job w0) = false).
  { intros w' sss' Hsss Hset H1 H2 H3 H4 H5 id Hid. destruct (decide (id = i)) as [->|Hne].
    - exists w'. rewrite lookup_insert. split_and!; try done. rewrite Hset. apply Hsss. eauto.
    - rewrite lookup_insert_ne by done. destruct (HJ id ltac:(by right)) as (w0 & ? & ? & ?). exists w0. split; [done|]. split; [auto|done]. }
  destruct (deps_loop jobs (w_deps w) (-1)) as [min|].
  2: { apply IH; [done|done|]. apply HJ'; done. }
  fold (set_of w). rewrite Hg. destruct (HG _ _ _ Hg) as [HW Hck]. destruct (HS _ _ _ Hg) as [H1 Hend].
  assert (Hor : exists t0, origin ss min t0).
  { destruct (decide (min < 0 \/ min < begin_ ss \/ end_ ss < min)); [exists (begin_ ss); by left|].
    destruct HW as [l HR]. destruct (contig_cover _ _ _ min (repr_contig _ _ HR) ltac:(lia)) as (s & Hs & Hms).
    exists (sb s). right. split; [lia|]. exists (sid s), s. split; [by apply (repr_lookup _ _ _ HR)|]. lia. }
  destruct Hor as [t0 Hor].
  destruct (assign_earliest env qc hy req_of ss ch w min t0 HW Hck Hkf Hp He HF H1 Hend Hor) as (ss' & ch' & w' & Ea & _).
  rewrite Ea. cbn [rbind].
  destruct (assign_cache_ok env qc hy req_of ss ch w min HW Hck Hkf (plain_ok _ Hp) HF) as [_ Hn]. destruct (Hn _ _ _ Ea) as [HW' Hck'].
  assert (Hpos : Forall (fun rq => 0 < r_wall rq) (w_rqts w)).
  { eapply Forall_impl; [exact HF|]. intros rq (_ & ? & _). done. }
  destruct (assign_types _ _ _ _ _ _ _ _ _ _ Ea) as (HT & Hid & _).
  assert (Hc' : has_type "container" (w_job w') = false) by (unfold has_type; rewrite HT; exact Hc).
  unfold open_container. rewrite Hc'. cbn [rbind]. apply IH.
  - intros n s c. rewrite c_get_set. case_bool_decide; [|apply HG]. intros E. assert (s = ss' /\ c = ch') as [-> ->] by (split; congruence). done.
  - intros n s c. rewrite c_get_set. case_bool_decide; [|apply HS]. intros E. assert (s = ss' /\ c = ch') as [-> ->] by (split; congruence).
    destruct (assign_sound _ _ _ _ _ _ _ _ _ _ HW (cache_ok_valid _ _ _ _ Hck) (plain_ok _ Hp) Hpos Ea) as [_ [[_ ->]|(rq & p & x & _ & _ & _ & _ & HI)]]; [done|].
    destruct HI as (_ & _ & -> & HK & _). split; [|done]. destruct H1 as [s1 H1]. destruct (HK 1 s1 H1) as (s1' & -> & _). eauto.
  - apply assign_shape in Ea as [->|(st & x & rq & ->)]; (apply HJ'; [|done..]);
      intros n [v Hv]; rewrite c_get_set; case_bool_decide; eauto.
Qed.
