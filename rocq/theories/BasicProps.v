(** * The basic scheduler: C241-C246 *)
From Verif Require Import Base SlotModel SlotSpec SlotProofs SlotJobs SlotLookup SlotOps SlotCheck SlotProps SlotShare
  HierarchyModel HierarchySpec HierarchyProofs HierarchyProps QuotasModel LoadModel SchedModel SchedSpec SchedProofs SchedAssign SchedRound SchedProps FifoModel FifoProps BasicModel.

(** One group: the two functions of this name agree. *)
Lemma basic_one X g hy : basic_loop X [g] hy ∅ = find_resource_hierarchies_job X [g] hy.
Proof.
  destruct g as [l cs]. unfold find_resource_hierarchies_job. cbn [basic_loop find_job_loop]. destruct (get_levels hy l) as [ls|]; [|done]. cbn [rbind].
  destruct (find_scattered _ _) as [r|]; [|done]. cbn [rbind]. destruct (nonempty r) eqn:E; [done|]. f_equal. unfold nonempty in E. apply negb_false_iff, bool_decide_eq_true in E as ->. set_solver.
Qed.
Definition nojob : job := mkJob 0 0 0 ∅ false None None NO_PLACEHOLDER None "" "" "" "" [].
Lemma nojob_plain : plain nojob. Proof. done. Qed.
Lemma bsearch_one hy m rq g ws : r_groups rq = [g] -> forall last, match search_loop None hy m nojob rq ws with
  | Ok (Some y) => bsearch hy m (r_groups rq) ws last = Ok (Some y)
  | Ok None => exists o, bsearch hy m (r_groups rq) ws last = Ok o /\ (o = last /\ ws = [] \/ exists p, p ∈ ws /\ o = Some (∅, sid p.1, sid p.2))
  | Err e => bsearch hy m (r_groups rq) ws last = Err e end.
Proof.
  intros Hg. induction ws as [|[sl sr] ws IH]; intros last; cbn [search_loop bsearch]; [exists last; split; [done|]; by left|].
  change (avail m (sid sl) (sid sr) nojob) with (intersec_itvs_slots m (sid sl) (sid sr)). destruct (intersec_itvs_slots _ _ _) as [x|e]; [|done]. cbn [rbind].
  rewrite Hg, basic_one, <- Hg. destruct (find_resource_hierarchies_job _ _ _) as [r|e]; [|done]. cbn [rbind]. destruct (nonempty r) eqn:E; [done|].
  assert (r = ∅) as -> by (unfold nonempty in E; by apply negb_false_iff, bool_decide_eq_true in E).
  specialize (IH (Some (∅, sid sl, sid sr))). destruct (search_loop _ _ _ _ _ _) as [[y|]|e]; [done| |done].
  destruct IH as (o & Eo & Ho). exists o. split; [done|]. right. destruct Ho as [[-> ->]|(p & Hp & ->)]; [exists (sl, sr); split; [left|done]|exists p; split; [by right|done]].
Qed.

(** What the search answers, whatever the request: some window, and resources free during it. *)
Lemma bsearch_sound hy ss w groups ws : WF ss -> 0 < w -> Forall (fun p => is_window ss w p) ws -> forall last x l r, bsearch hy (slots ss) groups ws last = Ok (Some (x, l, r)) ->
  last = Some (x, l, r) \/ exists p, p ∈ ws /\ l = sid p.1 /\ r = sid p.2 /\ forall k u, k ∈ x -> sb p.1 <= u < sb p.1 + w -> free_at ss u k.
Proof.
  intros HW Hw. induction 1 as [|[sl sr] ws Hp HF IH]; intros last x l r E; cbn [bsearch] in E; [left; congruence|].
  destruct (window_avail ss _ _ nojob HW Hw Hp nojob_plain) as (X & EX & HX). change (avail _ (sid (sl, sr).1) _ nojob) with (intersec_itvs_slots (slots ss) (sid sl) (sid sr)) in EX.
  rewrite EX in E. cbn [rbind] in E. apply rbind_Ok in E as (y & Ey & E).
  assert (Hfree : forall k u, k ∈ y -> sb sl <= u < sb sl + w -> free_at ss u k).
  { intros k u Hk Hu. assert (HkX : k ∈ X); [|by apply (proj1 (HX k) HkX)]. pose proof (basic_loop_spec _ _ _ _ _ Ey) as (parts & Hy & HF2). rewrite Hy in Hk. apply elem_of_union in Hk as [Hk|Hk]; [set_solver|].
    apply elem_of_union_list in Hk as (z & Hz & Hkz). apply elem_of_list_lookup in Hz as [n Hn]. destruct (Forall2_lookup_r _ _ _ _ _ HF2 Hn) as (g & _ & ls & _ & Hf). pose proof (find_scattered_free _ _ _ Hf). set_solver. }
  destruct (nonempty y).
  - right. exists (sl, sr). assert (y = x /\ sid sl = l /\ sid sr = r) as (<- & <- & <-) by (split_and!; congruence). split; [left|]. done.
  - destruct (IH _ _ _ _ E) as [E'|(p & H1 & H2)].
    + right. exists (sl, sr). assert (y = x /\ sid sl = l /\ sid sr = r) as (<- & <- & <-) by (split_and!; congruence). split; [left|]. done.
    + right. exists p. split; [by right|done].
Qed.
Lemma bfind_sound hy ss rq x l r : WF ss -> 0 < r_wall rq -> bfind hy ss rq = Ok (x, l, r) ->
  exists p, is_window ss (r_wall rq) p /\ l = sid p.1 /\ r = sid p.2 /\ forall k u, k ∈ x -> sb p.1 <= u < sb p.1 + r_wall rq -> free_at ss u k.
Proof.
  intros HW Hw E. unfold bfind in E. apply rbind_Ok in E as (ws & Ews & E). apply rbind_Ok in E as (o & Eo & E). destruct o as [y|]; [|done]. assert (y = (x, l, r)) as -> by congruence.
  destruct (traverse_zero ss _ HW Hw) as (s & Hs & _ & _ & E0). destruct (windows_from ss _ _ _ HW Hw Hs) as (pre & ws' & _ & E1 & HF & _). assert (ws' = ws) as -> by congruence. apply Forall_app in HF as [_ HF].
  destruct (bsearch_sound _ _ _ _ _ HW Hw HF _ _ _ _ Eo) as [?|(p & Hp & H1 & H2 & H3)]; [done|]. exists p. rewrite Forall_forall in HF. auto.
Qed.

(** The alternatives: what is kept is an answer of the search with the least finish, the first one. *)
Definition answer (hy : hierarchy) (ss : slotset) (rq : rqt) (x : procset) (s : slot) : Prop := exists l r, bfind hy ss rq = Ok (x, l, r) /\ slots ss !! l = Some s.
Lemma bassign_alts hy ss rqs : forall fin bst bst', bassign_loop hy ss rqs fin bst = Ok bst' ->
  (bst' = bst /\ forall rq x s, rq ∈ rqs -> answer hy ss rq x s -> fin <= sb s + r_wall rq - 1) \/
  (exists rq x s el er, rq ∈ rqs /\ answer hy ss rq x s /\ sb s + r_wall rq - 1 < fin /\ get_encompassing_slots (slots ss) (sb s) (sb s + r_wall rq - 1) 0 = Ok (el, er) /\
     bst' = Some (sb s + r_wall rq - 1, sb s, x, rq, el, er) /\ forall rq' x' s', rq' ∈ rqs -> answer hy ss rq' x' s' -> sb s + r_wall rq <= sb s' + r_wall rq').
Proof.
  induction rqs as [|rq rqs IH]; intros fin bst bst' E; cbn [bassign_loop] in E; [left; split; [congruence|]; intros rq x s Hin; by apply elem_of_nil in Hin|].
  apply rbind_Ok in E as ([[x l] r] & Ef & E). apply rbind_Ok in E as (s & Es & E). apply dget_Ok in Es. cbv zeta in E.
  assert (Hans : answer hy ss rq x s) by (exists l, r; done).
  assert (Hun : forall x' s', answer hy ss rq x' s' -> x' = x /\ s' = s). { intros x' s' (l' & r' & E1 & E2). assert (x' = x /\ l' = l) as [-> ->] by (split; congruence). split; [done|congruence]. }
  destruct (sb s + r_wall rq - 1 <? fin) eqn:El.
  - apply rbind_Ok in E as ([el er] & Eg & E). apply IH in E as [[-> H]|(rq2 & x2 & s2 & el2 & er2 & H1 & H2 & H3 & H4 & H5 & H6)].
    + right. exists rq, x, s, el, er. split; [left|]. split; [done|]. split; [lia|]. split; [done|]. split; [done|]. intros rq' x' s' Hin Ha. apply elem_of_cons in Hin as [-> |Hin]; [destruct (Hun _ _ Ha) as [_ ->]; lia|]. specialize (H _ _ _ Hin Ha). lia.
    + right. exists rq2, x2, s2, el2, er2. split; [by right|]. split; [done|]. split; [lia|]. split; [done|]. split; [done|]. intros rq' x' s' Hin Ha. apply elem_of_cons in Hin as [-> |Hin]; [destruct (Hun _ _ Ha) as [_ ->]; lia|]. by apply (H6 rq' x' s').
  - apply IH in E as [[-> H]|(rq2 & x2 & s2 & el2 & er2 & H1 & H2 & H3 & H4 & H5 & H6)].
    + left. split; [done|]. intros rq' x' s' Hin Ha. apply elem_of_cons in Hin as [-> |Hin]; [destruct (Hun _ _ Ha) as [_ ->]; lia|by apply (H rq' x' s')].
    + right. exists rq2, x2, s2, el2, er2. split; [by right|]. split; [done|]. split; [lia|]. split; [done|]. split; [done|]. intros rq' x' s' Hin Ha. apply elem_of_cons in Hin as [-> |Hin]; [destruct (Hun _ _ Ha) as [_ ->]; lia|]. by apply (H6 rq' x' s').
Qed.
Lemma bassign_first hy ss rqs : forall fin bst tf st x rq el er, bassign_loop hy ss rqs fin bst = Ok (Some (tf, st, x, rq, el, er)) ->
  bst = Some (tf, st, x, rq, el, er) \/ (tf < fin /\ tf = st + r_wall rq - 1 /\ exists i, rqs !! i = Some rq /\
    forall k rq' x' s', rqs !! k = Some rq' -> (k < i)%nat -> answer hy ss rq' x' s' -> st + r_wall rq < sb s' + r_wall rq').
Proof.
  induction rqs as [|rq0 rqs IH]; intros fin bst tf st x rq el er E; cbn [bassign_loop] in E; [left; congruence|].
  apply rbind_Ok in E as ([[x0 l] r] & Ef & E). apply rbind_Ok in E as (s & Es & E). apply dget_Ok in Es. cbv zeta in E.
  assert (Hun : forall x' s', answer hy ss rq0 x' s' -> s' = s). { intros x' s' (l' & r' & E1 & E2). assert (l' = l) as -> by congruence. congruence. }
  assert (Hup : forall b, sb s + r_wall rq0 - 1 >= b -> tf < b -> tf = st + r_wall rq - 1 -> forall i, rqs !! i = Some rq ->
    (forall k rq' x' s', rqs !! k = Some rq' -> (k < i)%nat -> answer hy ss rq' x' s' -> st + r_wall rq < sb s' + r_wall rq') ->
    exists i, (rq0 :: rqs) !! i = Some rq /\ forall k rq' x' s', (rq0 :: rqs) !! k = Some rq' -> (k < i)%nat -> answer hy ss rq' x' s' -> st + r_wall rq < sb s' + r_wall rq').
  { intros b Hb Htf Heq i Hi H. exists (S i). split; [done|]. intros [|k] rq' x' s' Hk Hlt Ha; cbn in Hk; [|apply (H k rq' x' s'); [done|lia|done]]. assert (rq' = rq0) as -> by congruence. rewrite (Hun _ _ Ha). lia. }
  destruct (sb s + r_wall rq0 - 1 <? fin) eqn:El.
  - apply rbind_Ok in E as ([el0 er0] & Eg & E). apply IH in E as [E|(H1 & H2 & i & H3 & H4)].
    + right. assert (tf = sb s + r_wall rq0 - 1 /\ st = sb s /\ rq = rq0) as (-> & -> & ->) by (split_and!; congruence). split; [lia|]. split; [lia|]. exists 0%nat. split; [done|]. intros k rq' x' s' _ Hk. lia.
    + right. split; [lia|]. split; [done|]. apply (Hup (sb s + r_wall rq0 - 1)) with i; [lia|done..].
  - apply IH in E as [E|(H1 & H2 & i & H3 & H4)]; [by left|]. right. split; [done|]. split; [done|]. apply (Hup fin) with i; [lia|done..].
Qed.
(** ... it exists when every alternative has an answer, within the dates of the slot set. *)
Lemma bfind_slot hy ss rq x l r : WF ss -> 0 < r_wall rq -> bfind hy ss rq = Ok (x, l, r) ->
  exists s, slots ss !! sid s = Some s /\ l = sid s /\ sb s + r_wall rq - 1 <= end_ ss /\ begin_ ss <= sb s /\ (forall k u, k ∈ x -> sb s <= u < sb s + r_wall rq -> free_at ss u k).
Proof.
  intros HW Hw E. destruct (bfind_sound _ _ _ _ _ _ HW Hw E) as ([sl sr] & (H1 & H2 & H3 & H4 & _) & -> & -> & Hf). cbn [fst snd] in *. exists sl. pose proof (slot_len _ _ HW H2). pose proof (slot_len _ _ HW H1). split; [done|]. split; [done|]. split; [lia|]. split; [lia|done].
Qed.
Lemma bassign_total hy ss rqs : WF ss -> Forall (fun rq => 0 < r_wall rq /\ exists y, bfind hy ss rq = Ok y) rqs -> forall fin bst, exists bst', bassign_loop hy ss rqs fin bst = Ok bst'.
Proof.
  intros HW. induction 1 as [|rq rqs [Hw ([[x l] r] & Ef)] HF IH]; intros fin bst; cbn [bassign_loop]; [eauto|]. rewrite Ef. cbn [rbind].
  destruct (bfind_slot _ _ _ _ _ _ HW Hw Ef) as (s & Hs & -> & _). unfold dget at 1. rewrite Hs. cbn [rbind]. cbv zeta. destruct (_ <? fin); [|apply IH].
  destruct (place_one (mkQenv ∅ []) ss s (with_sched nojob (sb s) (r_wall rq) ∅) HW Hs) as (el & er & ss2 & EG & _); [by apply plain_ok|done|done|]. cbn [with_sched walltime] in EG. rewrite EG. cbn [rbind]. apply IH.
Qed.
(** A placed job. *)
Lemma assign_basic_spec env hy ss w ss' w' : WF ss -> job_ok (w_job w) -> Forall (fun rq => 0 < r_wall rq) (w_rqts w) -> assign_basic env hy ss w = Ok (ss', w') ->
  exists rq x s, rq ∈ w_rqts w /\ answer hy ss rq x s /\ slots ss !! sid s = Some s /\ w' = placed w (sb s) x rq /\ inserted env ss (w_job w') ss' /\ (forall k u, k ∈ x -> sb s <= u < sb s + r_wall rq -> free_at ss u k) /\
    (forall rq' x' s', rq' ∈ w_rqts w -> answer hy ss rq' x' s' -> sb s + r_wall rq <= sb s' + r_wall rq') /\
    exists i, w_rqts w !! i = Some rq /\ forall k rq' x' s', w_rqts w !! k = Some rq' -> (k < i)%nat -> answer hy ss rq' x' s' -> sb s + r_wall rq < sb s' + r_wall rq'.
Proof.
  intros HW Hj HF E. unfold assign_basic in E. apply rbind_Ok in E as (s1 & _ & E). apply rbind_Ok in E as (b & EL & E). assert (EL2 := EL).
  apply bassign_alts in EL as [[-> _]|(rq & x & s & el & er & H1 & H2 & H3 & H4 & -> & H6)]; [done|].
  assert (Hw : 0 < r_wall rq) by (rewrite Forall_forall in HF; by apply HF). apply rbind_Ok in E as (ss1 & ES & E). assert (ss' = ss1 /\ w' = placed w (sb s) x rq) as [-> ->] by (split; congruence).
  assert (H2' := H2). destruct H2' as (l & r & Ef & Hl). destruct (bfind_slot _ _ _ _ _ _ HW Hw Ef) as (s0 & Hs0 & -> & _ & _ & Hfree). assert (s0 = s) as -> by congruence.
  destruct (place_one env ss s (w_job (placed w (sb s) x rq)) HW Hs0) as (el' & er' & ss2 & EG & ES' & HI); [done|done|done|]. cbn [w_job placed with_sched walltime] in EG.
  assert (el' = el /\ er' = er) as [-> ->] by (split; congruence). assert (ss2 = ss1) as -> by congruence.
  destruct (bassign_first _ _ _ _ _ _ _ _ _ _ _ EL2) as [?|(_ & _ & Hi)]; [done|]. exists rq, x, s. do 7 (split; [done|]). exact Hi.
Qed.
Lemma assign_basic_total env hy ss w : WF ss -> is_Some (slots ss !! 1) -> job_ok (w_job w) -> end_ ss < 2 ^ 32 - 1 -> w_rqts w <> [] -> Forall (fun rq => 0 < r_wall rq /\ exists y, bfind hy ss rq = Ok y) (w_rqts w) ->
  exists ss' w', assign_basic env hy ss w = Ok (ss', w').
Proof.
  intros HW [s1 H1] Hj He Hne HF. unfold assign_basic. unfold dget at 1. rewrite H1. cbn [rbind]. destruct (bassign_total hy ss _ HW HF (2 ^ 32 - 1) None) as [b Eb]. rewrite Eb. cbn [rbind].
  rewrite Forall_forall in HF. apply bassign_alts in Eb as [[-> H]|(rq & x & s & el & er & G1 & G2 & G3 & G4 & -> & G6)].
  - exfalso. destruct (w_rqts w) as [|rq l]; [done|]. destruct (HF rq) as (Hw & [[x k] r] & Ef); [left|]. destruct (bfind_slot _ _ _ _ _ _ HW Hw Ef) as (s & Hs & -> & Hb & _). specialize (H rq x s ltac:(left)). specialize (H ltac:(by exists (sid s), r)). lia.
  - destruct (HF rq G1) as (Hw & _). assert (G2' := G2). destruct G2' as (l & r & Ef & Hl). destruct (bfind_slot _ _ _ _ _ _ HW Hw Ef) as (s0 & Hs0 & -> & _ & _ & Hfree). assert (s0 = s) as -> by congruence.
    destruct (place_one env ss s (w_job (placed w (sb s) x rq)) HW Hs0) as (el' & er' & ss2 & EG & ES' & HI); [done|done|done|]. cbn [w_job placed with_sched walltime] in EG.
    assert (el' = el /\ er' = er) as [-> ->] by (split; congruence). cbv zeta. rewrite ES'. cbn [rbind]. eauto.
Qed.

(** ** One group *)
Lemma search_total hy ss rq ws : WF ss -> known_request hy rq -> Forall (fun p => is_window ss (r_wall rq) p) ws -> exists o, search_loop None hy (slots ss) nojob rq ws = Ok o.
Proof.
  intros HW (Hne & Hw & Hk). induction 1 as [|p ws Hp HF IH]; [by exists None|]. rewrite search_loop_step. unfold try_window.
  destruct (window_avail ss _ p nojob HW Hw Hp nojob_plain) as (X & -> & _). cbn [rbind]. destruct (find_job_total X hy _ Hk) as [r Er]. rewrite Er. cbn [rbind]. destruct (nonempty r); cbn [rbind]; eauto.
Qed.
Definition one_group (rq : rqt) : Prop := exists g, r_groups rq = [g].
Lemma bfind_one hy ss rq : WF ss -> known_request hy rq -> one_group rq ->
  (exists x s sr, bfind hy ss rq = Ok (x, sid s, sid sr) /\ slots ss !! sid s = Some s /\ can_start hy ss rq (sb s) /\ (forall t, can_start hy ss rq t -> sb s <= t) /\
     exists X, (forall r, r ∈ X <-> forall u, sb s <= u < sb s + r_wall rq -> free_at ss u r) /\ forall g, r_groups rq = [g] -> exists ls, levels_of hy (fst g) ls /\ served (snd g ∩ X) ls x) \/
  ((forall t, ~ can_start hy ss rq t) /\
   ((r_wall rq <= end_ ss - begin_ ss + 1 /\ exists s sr, bfind hy ss rq = Ok (∅, sid s, sid sr) /\ slots ss !! sid s = Some s) \/ (end_ ss - begin_ ss + 1 < r_wall rq /\ bfind hy ss rq = Err EName))).
Proof.
  intros HW Hk [g Hg]. assert (Hw : 0 < r_wall rq) by apply Hk. destruct (traverse_zero ss _ HW Hw) as (s0 & Hs0 & Hb0 & _ & E0).
  destruct (windows_from ss _ _ _ HW Hw Hs0) as (pre & ws & Ep & Ews & HF & _ & _ & _ & Hcov). assert (pre = []) as -> by (apply (app_inv_tail ws); cbn [app]; congruence). cbn [app] in *.
  destruct (search_total hy ss rq ws HW Hk HF) as [o Eo]. pose proof (search_from _ _ _ _ _ _ _ _ HW Hk nojob_plain Hs0 Ews Eo) as Hspec. pose proof (bsearch_one hy (slots ss) rq g ws Hg None) as Hbs. rewrite Eo in Hbs.
  unfold bfind. rewrite Ep. cbn [rbind]. destruct o as [[[x l] r]|].
  - left. destruct Hspec as (sl & sr & H1 & H2 & H3 & <- & <- & H4 & H5 & H6). rewrite Hbs. cbn [rbind]. exists x, sl, sr. split; [done|]. split; [done|].
    apply (try_window_Some _ _ _ _ _ _ _ HW Hk H3 nojob_plain) in H5 as (T1 & T2 & _ & X & parts & T3 & T4 & T5). split; [done|]. split.
    { intros t Ht. destruct (decide (sb sl <= t)) as [|Hn]; [done|]. exfalso. apply (H6 t); [|done]. pose proof (proj1 Ht). lia. }
    exists X. split; [done|]. intros g' Hg'. assert (g' = g) as -> by congruence. rewrite Hg in T5. apply Forall2_cons_inv_l in T5 as (y & l' & Hy & Hl' & E). apply Forall2_nil_inv_l in Hl' as ->. rewrite E in T4. cbn in T4. rewrite union_empty_r_L in T4. by rewrite T4.
  - right. split; [intros t Ht; apply (Hspec t); [|done]; pose proof (proj1 Ht); lia|]. destruct Hbs as (o & Ebs & [[-> ->]|([sl sr] & Hp & ->)]); rewrite Ebs; cbn [rbind].
    + right. split; [|done]. destruct (decide (r_wall rq <= end_ ss - begin_ ss + 1)) as [Hle|]; [|lia]. exfalso. destruct (Hcov s0 Hs0) as [e He]; [lia|lia|]. by apply elem_of_nil in He.
    + left. rewrite Forall_forall in HF. destruct (HF _ Hp) as (P1 & P2 & P3 & P4 & _). cbn [fst snd] in *. pose proof (slot_len _ _ HW P1). pose proof (slot_len _ _ HW P2). split; [lia|]. exists sl, sr. done.
Qed.

(** * C241: the earliest finish *)
(** When every alternative of the job has one group and can be satisfied some day: the alternative that can finish first is taken, the first of the list if there are several, at the first date it can start. *)
Theorem C241_earliest_partial env hy ss w : WF ss -> is_Some (slots ss !! 1) -> end_ ss < 2 ^ 32 - 1 -> job_ok (w_job w) -> w_rqts w <> [] ->
  (forall rq, rq ∈ w_rqts w -> known_request hy rq /\ one_group rq /\ exists t, can_start hy ss rq t) ->
  exists ss' w' rq st, assign_basic env hy ss w = Ok (ss', w') /\ WF ss' /\ rq ∈ w_rqts w /\ w_mld w' = r_mld rq /\ w_wall w' = Some (r_wall rq) /\ start_time (w_job w') = st /\
    can_start hy ss rq st /\ (forall rq' t, rq' ∈ w_rqts w -> can_start hy ss rq' t -> st + r_wall rq <= t + r_wall rq') /\
    (exists i, w_rqts w !! i = Some rq /\ forall k rq' t, w_rqts w !! k = Some rq' -> (k < i)%nat -> can_start hy ss rq' t -> st + r_wall rq < t + r_wall rq') /\
    (exists X, (forall r, r ∈ X <-> forall u, st <= u < st + r_wall rq -> free_at ss u r) /\ forall g, r_groups rq = [g] -> exists ls, levels_of hy (fst g) ls /\ served (snd g ∩ X) ls (res_set (w_job w'))).
Proof.
  intros HW H1 He Hj Hne Hall.
  assert (Hans : forall rq, rq ∈ w_rqts w -> exists x s sr, bfind hy ss rq = Ok (x, sid s, sid sr) /\ slots ss !! sid s = Some s /\ can_start hy ss rq (sb s) /\ (forall t, can_start hy ss rq t -> sb s <= t) /\
     exists X, (forall r, r ∈ X <-> forall u, sb s <= u < sb s + r_wall rq -> free_at ss u r) /\ forall g, r_groups rq = [g] -> exists ls, levels_of hy (fst g) ls /\ served (snd g ∩ X) ls x).
  { intros rq Hin. destruct (Hall rq Hin) as (Hk & Hg & t & Ht). destruct (bfind_one hy ss rq HW Hk Hg) as [H|[H _]]; [done|]. by apply H in Ht. }
  assert (Hpos : Forall (fun rq => 0 < r_wall rq) (w_rqts w)). { apply Forall_forall. intros rq Hin. destruct (Hall rq Hin) as ((_ & Hw & _) & _). done. }
  destruct (assign_basic_total env hy ss w HW H1 Hj He Hne) as (ss' & w' & E).
  { apply Forall_forall. intros rq Hin. rewrite Forall_forall in Hpos. split; [by apply Hpos|]. destruct (Hans rq Hin) as (x & s & sr & E & _). eauto. }
  exists ss', w'. destruct (assign_basic_spec _ _ _ _ _ _ HW Hj Hpos E) as (rq & x & s & Hrq & (l & r & Ef & Hl) & Hs & -> & Hins & _ & Hmin & i & Hi & Hfirst). exists rq, (sb s). split; [done|]. split; [apply Hins|].
  split; [done|]. split; [done|]. split; [done|]. split; [done|]. destruct (Hans rq Hrq) as (x2 & s2 & sr2 & E2 & L2 & C2 & M2 & X & HX & Hserv). assert (x2 = x) as -> by congruence. assert (s2 = s) as -> by congruence.
  split; [done|]. split; [|split; [|exists X; split; [done|exact Hserv]]].
  2: { exists i. split; [done|]. intros k rq' t Hk Hlt Ht. destruct (Hans rq' ltac:(by eapply elem_of_list_lookup_2)) as (x3 & s3 & sr3 & E3 & L3 & _ & M3 & _). specialize (Hfirst k rq' x3 s3 Hk Hlt ltac:(by exists (sid s3), (sid sr3))). specialize (M3 t Ht). lia. }
  intros rq' t Hin Ht. destruct (Hans rq' Hin) as (x3 & s3 & sr3 & E3 & L3 & _ & M3 & _). specialize (Hmin rq' x3 s3 Hin ltac:(by exists (sid s3), (sid sr3))). specialize (M3 t Ht). lia.
Qed.

(** * C242: a job that cannot be satisfied *)
(** Refuted: it is given a date all the same, and no resource. *)
Theorem C242_unsatisfiable_refuted env hy ss w rq : WF ss -> is_Some (slots ss !! 1) -> end_ ss < 2 ^ 32 - 1 -> job_ok (w_job w) -> w_rqts w = [rq] -> known_request hy rq -> one_group rq ->
  (forall t, ~ can_start hy ss rq t) -> r_wall rq <= end_ ss - begin_ ss + 1 ->
  exists ss' w', assign_basic env hy ss w = Ok (ss', w') /\ res_set (w_job w') = ∅ /\ w_wall w' = Some (r_wall rq) /\ w_mld w' = r_mld rq /\ begin_ ss <= start_time (w_job w') <= end_ ss.
Proof.
  intros HW H1 He Hj Hr Hk Hg Hno Hle. destruct (bfind_one hy ss rq HW Hk Hg) as [(x & s & sr & _ & _ & Hc & _)|[_ [[_ (s & sr & Ef & Hs)]|[Hgt _]]]]; [by apply Hno in Hc| |lia].
  assert (Hw : 0 < r_wall rq) by apply Hk. destruct (assign_basic_total env hy ss w HW H1 Hj He) as (ss' & w' & E); [by rewrite Hr|rewrite Hr; repeat constructor; eauto|].
  exists ss', w'. split; [done|]. apply assign_basic_spec in E as (rq' & x & s' & Hin & (l & r & Ef' & Hl) & Hs' & -> & _); [|done|done|by rewrite Hr; repeat constructor].
  rewrite Hr in Hin. apply elem_of_list_singleton in Hin as ->. assert (x = ∅) as -> by congruence. pose proof (slot_len _ _ HW Hs'). cbn [w_job placed with_sched res_set w_wall w_mld start_time]. split; [done|]. split; [done|]. split; [done|]. lia.
Qed.
(** Refuted: of two alternatives, the one that cannot be satisfied is taken when it is shorter: the job has no resource although it could have had some. *)
Definition read_w (r : res (slotset * wjob)) : res (Z * Z * option Z * bool) := '(_, w) <-- r ;; Ok (w_mld w, start_time (w_job w), w_wall w, bool_decide (res_set (w_job w) = ∅)).
Theorem C242_alternative_refuted : exists w ss' w', WF ex_ss100 /\ w_rqts w = [ex_rq 1 10 20; ex_rq 2 50 2] /\ assign_basic ex_env ex_hy ex_ss100 w = Ok (ss', w') /\ w_mld w' = 1 /\ res_set (w_job w') = ∅ /\
  (exists ss2 w2, assign_basic ex_env ex_hy ex_ss100 (ex_w 1 [] [] ∅ [ex_rq 2 50 2]) = Ok (ss2, w2) /\ w_mld w2 = 2 /\ res_set (w_job w2) <> ∅ /\ start_time (w_job w2) = 0).
Proof.
  exists (ex_w 1 [] [] ∅ [ex_rq 1 10 20; ex_rq 2 50 2]).
  assert (H1 : read_w (assign_basic ex_env ex_hy ex_ss100 (ex_w 1 [] [] ∅ [ex_rq 1 10 20; ex_rq 2 50 2])) = Ok (1, 0, Some 10, true)) by (vm_compute; reflexivity).
  assert (H2 : read_w (assign_basic ex_env ex_hy ex_ss100 (ex_w 1 [] [] ∅ [ex_rq 2 50 2])) = Ok (2, 0, Some 50, false)) by (vm_compute; reflexivity).
  assert (HW : WF ex_ss100) by (apply ss_of_slot_wf; lia).
  unfold read_w in H1, H2. apply rbind_Ok in H1 as ([ss1 w1] & E1 & H1). apply rbind_Ok in H2 as ([ss2 w2] & E2 & H2). exists ss1, w1. clear -E1 E2 H1 H2 HW.
  split; [exact HW|]. split; [reflexivity|]. split; [exact E1|]. clear E1 HW. split; [clear -H1; congruence|]. split; [clear -H1; assert (Hb : bool_decide (res_set (w_job w1) = ∅) = true) by congruence; by apply bool_decide_eq_true in Hb|].
  exists ss2, w2. split; [exact E2|]. clear -H2. split; [congruence|]. split; [assert (Hb : bool_decide (res_set (w_job w2) = ∅) = false) by congruence; by apply bool_decide_eq_false in Hb|congruence].
Qed.

(** * C243: no double booking *)
Definition ready (hy : hierarchy) (jobs : gmap Z wjob) (ids : list Z) : Prop := forall i w, i ∈ ids -> jobs !! i = Some w -> job_ok (w_job w) /\ Forall (fun rq => 0 < r_wall rq) (w_rqts w).
Lemma bschedule_step env hy i ids ss jobs ss' jobs' : bschedule env hy (i :: ids) ss jobs = Ok (ss', jobs') ->
  exists w ss1 w1, jobs !! i = Some w /\ set_of w = "default"%string /\ assign_basic env hy ss w = Ok (ss1, w1) /\ bschedule env hy ids ss1 (<[i := w1]> jobs) = Ok (ss', jobs').
Proof.
  intros E. cbn [bschedule] in E. apply rbind_Ok in E as (w & Ew & E). apply dget_Ok in Ew. case_bool_decide as Hd; [|done]. apply rbind_Ok in E as ([ss1 w1] & E1 & E). exists w, ss1, w1. done.
Qed.
Lemma bschedule_other env hy ids : forall ss jobs ss' jobs' k, bschedule env hy ids ss jobs = Ok (ss', jobs') -> k ∉ ids -> jobs' !! k = jobs !! k.
Proof.
  induction ids as [|i ids IH]; intros ss jobs ss' jobs' k E Hk; [cbn [bschedule] in E; congruence|].
  apply bschedule_step in E as (w & ss1 & w1 & _ & _ & _ & E). apply not_elem_of_cons in Hk as [H1 H2]. rewrite (IH _ _ _ _ _ E H2). by rewrite lookup_insert_ne.
Qed.
Lemma ready_tail hy jobs i ids w1 : NoDup (i :: ids) -> ready hy jobs (i :: ids) -> ready hy (<[i := w1]> jobs) ids.
Proof. intros Hn H k w Hk E. apply NoDup_cons in Hn as [Hi _]. rewrite lookup_insert_ne in E by set_solver. apply (H k w); [by right|done]. Qed.
Lemma placed_holds env hy ss w ss1 w1 : WF ss -> job_ok (w_job w) -> Forall (fun rq => 0 < r_wall rq) (w_rqts w) -> assign_basic env hy ss w = Ok (ss1, w1) ->
  WF ss1 /\ begin_ ss1 = begin_ ss /\ end_ ss1 = end_ ss /\ is_Some (w_wall w1) /\ (forall t r, job_holds w1 t r -> free_at ss t r) /\ (forall t r, job_holds w1 t r -> ~ free_at ss1 t r) /\ (forall t r, free_at ss1 t r -> free_at ss t r).
Proof.
  intros HW Hj HF E. apply assign_basic_spec in E as (rq & x & s & _ & _ & Hs & -> & HI & Hf & _); [|done..]. destruct (inserted_free _ _ _ _ (Hj : job_ok (w_job (placed w (sb s) x rq))) HI) as (F1 & F2 & _ & _).
  destruct HI as (W1 & W2 & W3 & _). split; [done|]. split; [done|]. split; [done|]. split; [by eexists|].
  assert (Hh : forall t r, job_holds (placed w (sb s) x rq) t r -> sb s <= t < sb s + r_wall rq /\ r ∈ x).
  { intros t r (wall & E & Ht & Hr). cbn [w_job placed with_sched res_set w_wall start_time] in *. assert (wall = r_wall rq) as -> by congruence. done. }
  split; [intros t r H; apply Hh in H as [H1 H2]; by apply Hf|]. split; [|done]. intros t r H Hfree. apply Hh in H as [H1 H2]. apply (F2 t r Hfree); done.
Qed.
(** Each job gets only what was free, and no instant of a resource is given twice. *)
Theorem C243_no_double env hy ids ss jobs ss' jobs' : WF ss -> NoDup ids -> ready hy jobs ids -> bschedule env hy ids ss jobs = Ok (ss', jobs') ->
  (forall i w t r, i ∈ ids -> jobs' !! i = Some w -> job_holds w t r -> free_at ss t r /\ ~ free_at ss' t r) /\
  (forall i k wi wk t r, i ∈ ids -> k ∈ ids -> i <> k -> jobs' !! i = Some wi -> jobs' !! k = Some wk -> job_holds wi t r -> ~ job_holds wk t r) /\
  (forall t r, free_at ss' t r -> free_at ss t r).
Proof.
  revert ss jobs ss' jobs'. induction ids as [|i ids IH]; intros ss jobs ss' jobs' HW Hn Hr E.
  { cbn [bschedule] in E. assert (ss' = ss) as -> by congruence. split; [|split; [|done]]; intros ? ? ? ?; [intros H; by apply elem_of_nil in H|intros ? ? H; by apply elem_of_nil in H]. }
  apply bschedule_step in E as (w & ss1 & w1 & Ew & _ & E1 & E). destruct (Hr i w ltac:(left) Ew) as [Hj HF]. destruct (placed_holds _ _ _ _ _ _ HW Hj HF E1) as (HW1 & _ & _ & _ & P1 & P2 & P3).
  assert (Hn' := Hn). apply NoDup_cons in Hn' as [Hi Hn']. destruct (IH _ _ _ _ HW1 Hn' (ready_tail hy _ _ _ _ Hn Hr) E) as (I1 & I2 & I3).
  assert (Hwi : jobs' !! i = Some w1) by (rewrite (bschedule_other _ _ _ _ _ _ _ _ E Hi); apply lookup_insert). split; [|split; [|auto]].
  - intros k wk t r Hk Ek Hh. apply elem_of_cons in Hk as [-> |Hk].
    + assert (wk = w1) as -> by congruence. split; [by apply P1|]. intros H. apply (P2 t r Hh). by apply I3.
    + destruct (I1 k wk t r Hk Ek Hh). split; [by apply P3|done].
  - intros a k wa wk t r Ha Hk Hne Ea Ek Hh Hh'. apply elem_of_cons in Ha as [-> |Ha]; apply elem_of_cons in Hk as [-> |Hk]; [done| | |by apply (I2 a k wa wk t r)].
    + assert (wa = w1) as -> by congruence. apply (P2 t r Hh). by apply (I1 k wk t r).
    + assert (wk = w1) as -> by congruence. apply (P2 t r Hh'). by apply (I1 a wa t r).
Qed.
(** Nothing else is lost: what was free and is not given remains free (the second after the end of a job may be lost with it). *)
Theorem C243_nothing_lost env hy ids ss jobs ss' jobs' : WF ss -> NoDup ids -> ready hy jobs ids -> bschedule env hy ids ss jobs = Ok (ss', jobs') ->
  forall t r, free_at ss t r -> (forall i w wall, i ∈ ids -> jobs' !! i = Some w -> w_wall w = Some wall -> start_time (w_job w) <= t <= start_time (w_job w) + wall -> r ∉ res_set (w_job w)) -> free_at ss' t r.
Proof.
  revert ss jobs ss' jobs'. induction ids as [|i ids IH]; intros ss jobs ss' jobs' HW Hn Hr E t r Hf Hall; [cbn [bschedule] in E; by assert (ss' = ss) as -> by congruence|].
  apply bschedule_step in E as (w & ss1 & w1 & Ew & _ & E1 & E). destruct (Hr i w ltac:(left) Ew) as [Hj HF].
  assert (Hn' := Hn). apply NoDup_cons in Hn' as [Hi Hn']. assert (Hwi : jobs' !! i = Some w1) by (rewrite (bschedule_other _ _ _ _ _ _ _ _ E Hi); apply lookup_insert).
  apply assign_basic_spec in E1 as (rq & x & s & _ & _ & Hs & -> & HI & _); [|done..]. destruct (inserted_free _ _ _ _ (Hj : job_ok (w_job (placed w (sb s) x rq))) HI) as (_ & _ & F3 & F4).
  apply (IH ss1 _ ss' jobs' ltac:(apply HI) Hn' (ready_tail hy _ _ _ _ Hn Hr) E); [|intros k wk wall Hk; apply Hall; by right].
  cbn [w_job placed with_sched start_time walltime res_set] in F3, F4. destruct (decide (r ∈ x)) as [Hx|Hx]; [|by apply F3]. apply F4; [done|].
  destruct (decide (t < sb s)) as [|H1]; [by left|]. destruct (decide (sb s + r_wall rq < t)) as [|H2]; [by right|]. exfalso. apply (Hall i (placed w (sb s) x rq) (r_wall rq) ltac:(left) Hwi); [done| |done]. cbn [w_job placed with_sched start_time]. lia.
Qed.
(** Two jobs that need six of the eight cores: the second waits for the end of the first. *)
Definition two_jobs (rq1 rq2 : rqt) : gmap Z wjob := <[1 := ex_w 1 [] [] ∅ [rq1]]> (<[2 := ex_w 2 [] [] ∅ [rq2]]> ∅).
Definition read_jobs (r : res (slotset * gmap Z wjob)) : res (list (option (Z * option Z * list Z))) :=
  '(_, jobs) <-- r ;; Ok ((fun i => (fun w => (start_time (w_job w), w_wall w, in_order (res_set (w_job w)))) <$> jobs !! i) <$> [1; 2]).
Theorem C243_case : read_jobs (bschedule ex_env ex_hy [1; 2] ex_ss100 (two_jobs (ex_rq 1 10 6) (ex_rq 2 20 6))) = Ok [Some (0, Some 10, [1; 2; 3; 4; 5; 6]); Some (10, Some 20, [1; 2; 3; 4; 5; 6])] /\
  ready ex_hy (two_jobs (ex_rq 1 10 6) (ex_rq 2 20 6)) [1; 2] /\ WF ex_ss100 /\ NoDup [1; 2].
Proof.
  split; [vm_compute; reflexivity|]. split; [|split; [apply ss_of_slot_wf; lia|repeat constructor; set_solver]].
  intros i w Hi E. unfold two_jobs in E. apply elem_of_cons in Hi as [-> |Hi]; [|apply elem_of_list_singleton in Hi as ->; rewrite lookup_insert_ne in E by lia]; rewrite lookup_insert in E; assert (Hw := E); clear E;
    match type of Hw with Some ?a = Some _ => assert (w = a) as -> by congruence end; (split; [split; [discriminate|intros [|]; discriminate]|repeat constructor]).
Qed.

(** * C244, C246: jobs that stop the cycle *)
Lemma bfind_err hy ss rq : WF ss -> 0 < r_wall rq -> end_ ss - begin_ ss + 1 < r_wall rq -> bfind hy ss rq = Err EName.
Proof.
  intros HW Hw Hgt. unfold bfind. destruct (traverse_zero ss _ HW Hw) as (s & Hs & _ & _ & E0). destruct (windows_from ss _ _ _ HW Hw Hs) as (pre & ws & _ & E1 & HF & _). rewrite E0, E1. cbn [rbind].
  destruct ws as [|p ws]; [done|]. exfalso. apply Forall_app in HF as [_ HF]. apply Forall_cons in HF as [(P1 & P2 & P3 & P4 & _) _]. pose proof (slot_len _ _ HW P1). pose proof (slot_len _ _ HW P2). lia.
Qed.
Lemma bassign_err hy ss rqs rq : WF ss -> rq ∈ rqs -> 0 < r_wall rq -> end_ ss - begin_ ss + 1 < r_wall rq -> forall fin bst, exists e, bassign_loop hy ss rqs fin bst = Err e.
Proof.
  intros HW Hin Hw Hgt. induction rqs as [|rq' rqs IH]; intros fin bst; [by apply elem_of_nil in Hin|]. cbn [bassign_loop]. apply elem_of_cons in Hin as [<- |Hin]; [rewrite bfind_err by done; by eexists|].
  destruct (bfind hy ss rq') as [[[x l] r]|e]; [|by eexists]. cbn [rbind]. destruct (dget l _) as [s|e]; [|by eexists]. cbn [rbind]. cbv zeta. destruct (_ <? fin); [|by apply IH].
  destruct (get_encompassing_slots _ _ _ _) as [[el er]|e]; [|by eexists]. cbn [rbind]. by apply IH.
Qed.
(** Refuted: one job with an alternative longer than the slot set, and the jobs after it are not scheduled either: the cycle fails. *)
Theorem C244_long_refuted env hy ids ss jobs i w rq : WF ss -> NoDup ids -> ready hy jobs ids -> i ∈ ids -> jobs !! i = Some w -> rq ∈ w_rqts w -> end_ ss - begin_ ss + 1 < r_wall rq ->
  exists e, bschedule env hy ids ss jobs = Err e.
Proof.
  intros HW Hn Hr Hi Ew Hrq Hgt. destruct (bschedule env hy ids ss jobs) as [[ss' jobs']|e] eqn:E; [exfalso|by eexists].
  revert ss jobs HW Hr Ew Hgt E. induction ids as [|k ids IH]; intros ss jobs HW Hr Ew Hgt E; [by apply elem_of_nil in Hi|].
  apply bschedule_step in E as (wk & ss1 & w1 & Ek & _ & E1 & E). destruct (Hr k wk ltac:(left) Ek) as [Hj HF]. destruct (placed_holds _ _ _ _ _ _ HW Hj HF E1) as (HW1 & B1 & B2 & _).
  apply elem_of_cons in Hi as [-> |Hi].
  - assert (wk = w) as -> by congruence. rewrite Forall_forall in HF. unfold assign_basic in E1. apply rbind_Ok in E1 as (s1 & _ & E1). destruct (bassign_err hy ss _ rq HW Hrq (HF _ Hrq) Hgt (2 ^ 32 - 1) None) as [e Ee]. by rewrite Ee in E1.
  - assert (Hn' := Hn). apply NoDup_cons in Hn' as [Hk Hn']. apply (IH Hn' Hi ss1 (<[k := w1]> jobs)); [done|by apply ready_tail|rewrite lookup_insert_ne by set_solver; done|lia|done].
Qed.
Theorem C244_case : read_jobs (bschedule ex_env ex_hy [1; 2] ex_ss100 (two_jobs (ex_rq 1 10 6) (ex_rq 2 102 6))) = Err EName /\ read_jobs (bschedule ex_env ex_hy [1; 2] ex_ss100 (two_jobs (ex_rq 1 10 6) (ex_rq 2 91 6))) = Ok [Some (0, Some 10, [1; 2; 3; 4; 5; 6]); Some (10, Some 91, [1; 2; 3; 4; 5; 6])] /\
  end_ ex_ss100 - begin_ ex_ss100 + 1 = 101.
Proof. split; [vm_compute; reflexivity|]. split; vm_compute; reflexivity. Qed.
(** Refuted: the jobs inside a container: a cycle with one of them fails, whatever the container; and a container opens nothing. *)
Theorem C246_inner_refuted env hy ids ss jobs i w : NoDup ids -> i ∈ ids -> jobs !! i = Some w -> set_of w <> "default"%string -> exists e, bschedule env hy ids ss jobs = Err e.
Proof.
  intros Hn Hi Ew Hset. destruct (bschedule env hy ids ss jobs) as [[ss' jobs']|e] eqn:E; [exfalso|by eexists].
  revert ss jobs Ew E. induction ids as [|k ids IH]; intros ss jobs Ew E; [by apply elem_of_nil in Hi|].
  apply bschedule_step in E as (wk & ss1 & w1 & Ek & Es & _ & E). apply elem_of_cons in Hi as [-> |Hi]; [by assert (wk = w) as -> by congruence|].
  assert (Hn' := Hn). apply NoDup_cons in Hn' as [Hk Hn']. apply (IH Hn' Hi ss1 (<[k := w1]> jobs)); [rewrite lookup_insert_ne by set_solver; done|done].
Qed.
Definition boxed : gmap Z wjob := <[1 := ex_w 1 [("container", "true")]%string [] ∅ [ex_rq 1 50 8]]> (<[2 := ex_w 2 [("inner", "1")]%string [] ∅ [ex_rq 2 10 2]]> ∅).
Theorem C246_case : read_jobs (bschedule ex_env ex_hy [1; 2] ex_ss100 boxed) = Err EKey /\ is_ok (bschedule ex_env ex_hy [1] ex_ss100 boxed) = true.
Proof. split; vm_compute; reflexivity. Qed.

(** * C245: several groups *)
(** What a placed job has: for each group of the alternative what it asks for, out of the resources that are free for the walltime, or nothing when it cannot be served. *)
Lemma bsearch_groups hy ss w groups ws : WF ss -> 0 < w -> Forall (fun p => is_window ss w p) ws -> forall last x l r, bsearch hy (slots ss) groups ws last = Ok (Some (x, l, r)) ->
  last = Some (x, l, r) \/ exists p X, p ∈ ws /\ l = sid p.1 /\ (forall k, k ∈ X <-> forall u, sb p.1 <= u < sb p.1 + w -> free_at ss u k) /\ basic_loop X groups hy ∅ = Ok x.
Proof.
  intros HW Hw. induction 1 as [|[sl sr] ws Hp HF IH]; intros last x l r E; cbn [bsearch] in E; [left; congruence|].
  destruct (window_avail ss _ _ nojob HW Hw Hp nojob_plain) as (X & EX & HX). change (avail _ (sid (sl, sr).1) _ nojob) with (intersec_itvs_slots (slots ss) (sid sl) (sid sr)) in EX.
  rewrite EX in E. cbn [rbind] in E. apply rbind_Ok in E as (y & Ey & E).
  assert (Hyes : Some (y, sid sl, sid sr) = Some (x, l, r) -> exists p X, p ∈ (sl, sr) :: ws /\ l = sid p.1 /\ (forall k, k ∈ X <-> forall u, sb p.1 <= u < sb p.1 + w -> free_at ss u k) /\ basic_loop X groups hy ∅ = Ok x).
  { intros E0. exists (sl, sr), X. assert (y = x /\ sid sl = l) as (<- & <-) by (split; congruence). split; [left|]. done. }
  destruct (nonempty y); [right; apply Hyes; congruence|]. destruct (IH _ _ _ _ E) as [E'|(p & X' & H1 & H2)]; [right; by apply Hyes|]. right. exists p, X'. split; [by right|done].
Qed.
Theorem C245_groups_partial env hy ss w ss' w' : WF ss -> job_ok (w_job w) -> Forall (fun rq => 0 < r_wall rq) (w_rqts w) -> assign_basic env hy ss w = Ok (ss', w') ->
  exists rq X parts, rq ∈ w_rqts w /\ w_mld w' = r_mld rq /\ w_wall w' = Some (r_wall rq) /\ (forall k, k ∈ X <-> forall u, start_time (w_job w') <= u < start_time (w_job w') + r_wall rq -> free_at ss u k) /\ res_set (w_job w') = ⋃ parts /\
   (Forall (fun g : rgroup => exists ls, levels_of hy (fst g) ls /\ proper_levels ls) (r_groups rq) ->
    Forall2 (fun (g : rgroup) y => exists ls, levels_of hy (fst g) ls /\ (served (snd g ∩ X) ls y \/ (y = ∅ /\ forall z, ~ served (snd g ∩ X) ls z))) (r_groups rq) parts).
Proof.
  intros HW Hj HF E. apply assign_basic_spec in E as (rq & x & s & Hin & (l & r & Ef & Hl) & Hs & -> & _); [|done..]. rewrite Forall_forall in HF. assert (Hw := HF _ Hin).
  unfold bfind in Ef. apply rbind_Ok in Ef as (ws & Ews & Ef). apply rbind_Ok in Ef as (o & Eo & Ef). destruct o as [y|]; [|done]. assert (y = (x, l, r)) as -> by congruence.
  destruct (traverse_zero ss _ HW Hw) as (s0 & Hs0 & _ & _ & E0). destruct (windows_from ss _ _ _ HW Hw Hs0) as (pre & ws' & _ & E1 & HFw & _). assert (ws' = ws) as -> by congruence. apply Forall_app in HFw as [_ HFw].
  destruct (bsearch_groups _ _ _ _ _ HW Hw HFw _ _ _ _ Eo) as [?|(p & X & Hp & -> & HX & Hb)]; [done|]. rewrite Forall_forall in HFw. pose proof (HFw _ Hp) as (P1 & _). assert (p.1 = s) as Hps by congruence. rewrite Hps in HX.
  apply basic_loop_spec in Hb as (parts & Hx & HF2). rewrite union_empty_l_L in Hx. exists rq, X, parts. split; [done|]. split; [done|]. split; [done|]. split; [done|]. split; [done|]. intros Hprop.
  apply Forall2_same_length_lookup in HF2 as [Hlen HF2]. apply Forall2_same_length_lookup. split; [done|]. intros k g y Hg Hy. destruct (HF2 k g y Hg Hy) as (ls & L1 & L2). exists ls. split; [done|].
  rewrite Forall_forall in Hprop. destruct (Hprop g) as (ls' & Q1 & Q2); [by eapply elem_of_list_lookup_2|]. assert (ls' = ls) as -> by (by eapply levels_of_fun). destruct (find_scattered_served _ _ _ Q2 L2) as [S1 S2].
  destruct (decide (y = ∅)) as [-> |Hy0]; [right; split; [done|]; intros z Hz; by apply (S2 z Hz)|left; by apply S1].
Qed.
(** Refuted: a job that asks for two groups, one of which no resource can serve, is placed with the other one alone; *)
Definition two_groups (cs : procset) : rqt := mkRqt 1 10 [([("core"%string, 2)], range 1 8); ([("core"%string, 1)], cs)].
Definition read_x (r : res (slotset * wjob)) : res (Z * list Z) := '(_, w) <-- r ;; Ok (start_time (w_job w), in_order (res_set (w_job w))).
Theorem C245_missing_refuted : exists ss' w', assign_basic ex_env ex_hy ex_ss100 (ex_w 1 [] [] ∅ [two_groups (range 20 30)]) = Ok (ss', w') /\ start_time (w_job w') = 0 /\ in_order (res_set (w_job w')) = [1; 2] /\
  forall z, ~ served (range 20 30 ∩ range 1 8) [(ex_cores, 1)] z.
Proof.
  assert (H : read_x (assign_basic ex_env ex_hy ex_ss100 (ex_w 1 [] [] ∅ [two_groups (range 20 30)])) = Ok (0, [1; 2])) by (vm_compute; reflexivity).
  unfold read_x in H. apply rbind_Ok in H as ([ss' w'] & E & H). exists ss', w'. split; [exact E|]. clear E. split; [congruence|]. split; [congruence|]. clear.
  assert (Hp : proper_levels [(ex_cores, 1)]) by (destruct (ex_rq_known 1 10 1 ltac:(lia) ltac:(lia)) as (_ & _ & HF); apply Forall_cons in HF as [(ls & L & P) _]; cbn [fst] in L; apply Forall2_cons_inv_l in L as ([lv n] & l' & [L1 L2] & L3 & ->); apply Forall2_nil_inv_l in L3 as ->; cbn [fst snd] in *; assert (ex_hy !! "core"%string = Some ex_cores) as L4 by reflexivity; assert (lv = ex_cores) as -> by congruence; by subst n).
  assert (Ef : match find_scattered (range 20 30 ∩ range 1 8) [(ex_cores, 1)] with Ok y => bool_decide (y = ∅) | Err _ => false end = true) by (vm_compute; reflexivity).
  destruct (find_scattered _ _) as [y|] eqn:E; [|done]. apply bool_decide_eq_true in Ef as ->. destruct (find_scattered_served _ _ _ Hp E) as [_ S2]. intros z Hz. by apply (S2 z Hz).
Qed.
(** ... and two groups that could have had different cores have the same ones. *)
Theorem C245_shared_refuted : exists ss' w', assign_basic ex_env ex_hy ex_ss100 (ex_w 1 [] [] ∅ [two_groups (range 1 8)]) = Ok (ss', w') /\ start_time (w_job w') = 0 /\ in_order (res_set (w_job w')) = [1; 2].
Proof.
  assert (H : read_x (assign_basic ex_env ex_hy ex_ss100 (ex_w 1 [] [] ∅ [two_groups (range 1 8)])) = Ok (0, [1; 2])) by (vm_compute; reflexivity).
  unfold read_x in H. apply rbind_Ok in H as ([ss' w'] & E & H). exists ss', w'. split; [exact E|]. clear E. split; congruence.
Qed.
(** The hypotheses of C241 and C242, from a run of the search. *)
Lemma can_by_run hy ss rq : WF ss -> known_request hy rq -> one_group rq -> match bfind hy ss rq with Ok (x, _, _) => nonempty x | Err _ => false end = true -> exists t, can_start hy ss rq t.
Proof.
  intros HW Hk Hg H. destruct (bfind_one hy ss rq HW Hk Hg) as [(x & s & sr & _ & _ & Hc & _)|[_ [[_ (s & sr & Ef & _)]|[_ Ef]]]]; [by exists (sb s)| |]; rewrite Ef in H; [|done]. by apply nonempty_true in H.
Qed.
Lemma cannot_by_run hy ss rq : WF ss -> known_request hy rq -> one_group rq -> match bfind hy ss rq with Ok (x, _, _) => nonempty x | Err _ => false end = false -> forall t, ~ can_start hy ss rq t.
Proof.
  intros HW Hk [g Hg] H. destruct (bfind_one hy ss rq HW Hk ltac:(by exists g)) as [(x & s & sr & Ef & _ & _ & _ & X & _ & Hs)|[Hn _]]; [|done]. rewrite Ef in H. apply nonempty_false in H as ->. destruct (Hs g Hg) as (ls & _ & [H _]). done.
Qed.
(** C241 at work: the alternative that finishes first although it is the second of the list. *)
Theorem C241_case : read_w (assign_basic ex_env ex_hy ex_ss100 (ex_w 1 [] [] ∅ [ex_rq 1 50 2; ex_rq 2 10 6])) = Ok (2, 0, Some 10, false) /\ WF ex_ss100 /\ is_Some (slots ex_ss100 !! 1) /\ end_ ex_ss100 < 2 ^ 32 - 1 /\
  forall rq, rq ∈ [ex_rq 1 50 2; ex_rq 2 10 6] -> known_request ex_hy rq /\ one_group rq /\ exists t, can_start ex_hy ex_ss100 rq t.
Proof.
  assert (HW : WF ex_ss100) by (apply ss_of_slot_wf; lia).
  split; [vm_compute; reflexivity|]. split; [exact HW|]. split; [by exists (mkSlot 1 0 0 0 100 (fresh_content false (range 1 8)))|]. split; [reflexivity|].
  intros rq H. apply elem_of_cons in H as [-> |H]; [|apply elem_of_list_singleton in H as ->]; (split; [apply ex_rq_known; lia|]; split; [by eexists|]; apply can_by_run; [exact HW|apply ex_rq_known; lia|by eexists|vm_compute; reflexivity]).
Qed.
(** Two alternatives that finish together: the first listed, in both orders. *)
Theorem C241_tie_case : read_w (assign_basic ex_env ex_hy ex_ss100 (ex_w 1 [] [] ∅ [ex_rq 1 10 2; ex_rq 2 10 6])) = Ok (1, 0, Some 10, false) /\ read_w (assign_basic ex_env ex_hy ex_ss100 (ex_w 1 [] [] ∅ [ex_rq 2 10 6; ex_rq 1 10 2])) = Ok (2, 0, Some 10, false).
Proof. split; vm_compute; reflexivity. Qed.
Theorem C242_case : read_w (assign_basic ex_env ex_hy ex_ss100 (ex_w 1 [] [] ∅ [ex_rq 1 10 20])) = Ok (1, 0, Some 10, true) /\ WF ex_ss100 /\ known_request ex_hy (ex_rq 1 10 20) /\ one_group (ex_rq 1 10 20) /\
  (forall t, ~ can_start ex_hy ex_ss100 (ex_rq 1 10 20) t) /\ 10 <= end_ ex_ss100 - begin_ ex_ss100 + 1.
Proof.
  assert (HW : WF ex_ss100) by (apply ss_of_slot_wf; lia). split; [vm_compute; reflexivity|]. split; [exact HW|]. split; [apply ex_rq_known; lia|]. split; [by eexists|]. split; [|vm_compute; discriminate].
  apply cannot_by_run; [exact HW|apply ex_rq_known; lia|by eexists|vm_compute; reflexivity].
Qed.
Print Assumptions C241_earliest_partial.
Print Assumptions C242_unsatisfiable_refuted.
Print Assumptions C242_alternative_refuted.
Print Assumptions C243_no_double.
Print Assumptions C243_case.
Print Assumptions C244_long_refuted.
Print Assumptions C244_case.
Print Assumptions C246_inner_refuted.
Print Assumptions C246_case.
Print Assumptions C245_groups_partial.
Print Assumptions C245_missing_refuted.
Print Assumptions C245_shared_refuted.
Print Assumptions C241_case.
Print Assumptions C242_case.
Print Assumptions C241_tie_case.
Print Assumptions C243_nothing_lost.
