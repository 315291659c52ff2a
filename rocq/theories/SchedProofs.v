From Verif Require Import Base SlotModel SlotSpec SlotProofs SlotJobs SlotLookup SlotOps SlotCheck SlotProps SlotShare
  HierarchyModel HierarchySpec HierarchyProofs HierarchyProps QuotasModel LoadModel SchedModel SchedSpec.

(** * Requests *)
Lemma free_blocks_mono free free' lv : free ⊆ free' -> (length (free_blocks free lv) <= length (free_blocks free' lv))%nat.
Proof.
  intros H. unfold free_blocks. induction lv as [|b lv IH]; [done|].
  rewrite !filter_cons. destruct (decide (b ⊆ free)) as [Hb|Hb].
  - rewrite decide_True by set_solver. cbn. lia.
  - destruct (decide (b ⊆ free')); cbn; lia.
Qed.

Lemma placement_mono free free' rest : free ⊆ free' -> forall cands n x, placement free cands n rest x -> placement free' cands n rest x.
Proof.
  intros H. induction rest as [|[lv m] rest IH]; intros cands n x; cbn [placement].
  - intros (bs & H1 & H2 & H3 & ->). exists bs. split; [done|]. split; [done|]. split; [|done].
    eapply Forall_impl; [exact H3|]. set_solver.
  - intros (bs & ys & H1 & H2 & H3 & ->). exists bs, ys. split; [done|]. split; [done|]. split; [|done].
    eapply Forall2_impl; [exact H3|]. eauto.
Qed.

Lemma served_mono free free' ls x : proper_levels ls -> free ⊆ free' -> served free ls x -> exists x', served free' ls x'.
Proof.
  intros Hp H [Hx Hs]. destruct ls as [|[lv n] rest]; [done|].
  destruct Hp as (Hne & Hb & _).
  destruct Hs as [[Hn Hs]|[(-> & -> & Hs & ->)|[(-> & -> & ->)|(-> & -> & ->)]]].
  - exists x. split; [done|]. left. split; [done|]. by eapply placement_mono.
  - exists (⋃ lv). split; [done|]. right; left. split; [done|]. split; [done|]. split; [|done].
    eapply Forall_impl; [exact Hs|]. set_solver.
  - eexists. split; [|right; right; left; done].
    apply union_list_nonempty; [|by apply free_blocks_nonempty].
    intros E. pose proof (free_blocks_mono free free' lv H) as Hl. rewrite E in Hl. cbn in Hl.
    destruct (free_blocks free lv) eqn:E2; [|cbn in Hl; lia]. apply Hx. done.
  - eexists. split; [|right; right; right; done].
    apply union_list_nonempty; [|by apply Forall_take, free_blocks_nonempty].
    intros E. pose proof (free_blocks_mono free free' lv H) as Hl.
    apply (f_equal length) in E. rewrite take_length in E. cbn [length] in E.
    set (a := length (free_blocks free lv)) in *. set (b := length (free_blocks free' lv)) in *.
    assert (Hb2 : (b / 2 <= b)%nat) by (apply Nat.div_le_upper_bound; lia).
    assert (b / 2 = 0)%nat as E0 by lia.
    assert (a / 2 = 0)%nat as E1 by (pose proof (Nat.div_le_mono a b 2 ltac:(lia) Hl); lia).
    apply Hx. fold a. rewrite E1. done.
Qed.

Lemma satisfiable_mono hy groups X Y :
  Forall (fun g : rgroup => exists ls, levels_of hy (fst g) ls /\ proper_levels ls) groups ->
  X ⊆ Y -> satisfiable hy groups X -> satisfiable hy groups Y.
Proof.
  intros Hk H Hs. unfold satisfiable in *. rewrite Forall_forall in *. intros g Hg.
  destruct (Hs g Hg) as (ls & x & Hl & Hx). destruct (Hk g Hg) as (ls' & Hl' & Hp).
  rewrite (levels_of_fun _ _ _ _ Hl' Hl) in Hp.
  destruct (served_mono (snd g ∩ X) (snd g ∩ Y) _ _ Hp ltac:(set_solver) Hx) as [x' Hx']. eauto.
Qed.

Lemma find_scattered_total free ls : proper_levels ls -> exists r, find_scattered free ls = Ok r.
Proof.
  destruct ls as [|[lv n] [|p rest]]; [done| |intros _; eexists; reflexivity].
  intros (Hne & _). unfold find_scattered. destruct (0 <? n); [eauto|].
  rewrite extract_abh_spec by done. eauto.
Qed.

Lemma find_job_total free hy groups :
  Forall (fun g : rgroup => exists ls, levels_of hy (fst g) ls /\ proper_levels ls) groups ->
  exists r, find_resource_hierarchies_job free groups hy = Ok r.
Proof.
  unfold find_resource_hierarchies_job. generalize (∅ : procset) as acc.
  induction groups as [|[l cs] groups IH]; intros acc H; cbn [find_job_loop]; [eauto|].
  rewrite Forall_cons in H. destruct H as [(ls & Hl & Hp) H]. cbn [fst] in Hl.
  rewrite (proj2 (get_levels_Ok _ _ _) Hl). cbn [rbind].
  destruct (find_scattered_total (cs ∩ free) ls Hp) as [r ->]. cbn [rbind].
  destruct (nonempty r); eauto.
Qed.

(** * Windows *)
Lemma free_at_slot ss s t r : WF ss -> slots ss !! sid s = Some s -> sb s <= t <= se s ->
  free_at ss t r <-> r ∈ itvs (cont s).
Proof.
  intros [l H] Hs Ht. split.
  - intros (c & (i & s' & Hi & Ht' & <-) & Hr).
    apply (repr_elem _ _ _ _ H) in Hi as [Hin <-]. apply (repr_elem _ _ _ _ H) in Hs as [Hin' _].
    rewrite (contig_unique _ _ _ _ _ _ (repr_contig _ _ H) Hin' Hin Ht Ht'). done.
  - intros Hr. exists (cont s). split; [|done]. exists (sid s), s. done.
Qed.

Definition is_window (ss : slotset) (w : Z) (p : slot * slot) : Prop :=
  slots ss !! sid p.1 = Some p.1 /\ slots ss !! sid p.2 = Some p.2 /\ sb p.1 <= sb p.2 /\
  w <= se p.2 - sb p.1 + 1 /\ (p.1 = p.2 \/ sb p.2 - sb p.1 < w).

Lemma slot_len ss s : WF ss -> slots ss !! sid s = Some s -> begin_ ss <= sb s /\ sb s <= se s /\ se s <= end_ ss.
Proof. intros [l H] Hs. apply (repr_elem _ _ _ _ H) in Hs as [Hs _]. by apply (repr_bounds _ l). Qed.

(** Free during the whole window of slots = free during the walltime. *)
Lemma window_free ss w p r : WF ss -> 0 < w -> is_window ss w p ->
  (forall u, sb p.1 <= u <= se p.2 -> free_at ss u r) <-> (forall u, sb p.1 <= u < sb p.1 + w -> free_at ss u r).
Proof.
  intros HW Hw (H1 & H2 & H3 & H4 & H5). split; intros H u Hu; [apply H; lia|].
  destruct (decide (u < sb p.1 + w)) as [Hlt|Hge]; [apply H; lia|].
  pose proof (slot_len _ _ HW H2) as HL2.
  assert (Hin : sb p.2 <= u <= se p.2).
  { destruct H5 as [H5|H5]; [rewrite H5 in *; lia|lia]. }
  apply (free_at_slot ss p.2); [done|done|done|].
  apply (free_at_slot ss p.2 (sb p.2)); [done|done|lia|]. apply H.
  destruct H5 as [H5|H5]; [rewrite H5 in *; lia|lia].
Qed.

Lemma window_avail ss w p j : WF ss -> 0 < w -> is_window ss w p -> plain j ->
  exists X, avail (slots ss) (sid p.1) (sid p.2) j = Ok X /\
    forall r, r ∈ X <-> forall u, sb p.1 <= u < sb p.1 + w -> free_at ss u r.
Proof.
  intros HW Hw Hp [Hts Hph]. assert (Hp' := Hp). destruct Hp as (H1 & H2 & H3 & _).
  unfold avail. rewrite Hts, Hph. cbn [orb]. replace (NO_PLACEHOLDER =? ALLOW) with false by done.
  destruct (intersec_WF ss _ _ _ _ HW H1 H2 H3) as (X & E & HX). exists X. split; [done|].
  intros r. rewrite HX. by apply window_free.
Qed.

(** The same resources are enough at a date and at the start of its slot. *)
Lemma can_start_slot hy ss rq t s : WF ss -> 0 < r_wall rq -> slots ss !! sid s = Some s -> sb s <= t <= se s ->
  can_start hy ss rq t -> can_start hy ss rq (sb s).
Proof.
  intros HW Hw Hs Ht (H1 & H2 & X & HX & Hsat).
  pose proof (slot_len _ _ HW Hs). split; [lia|]. split; [lia|]. exists X. split; [|done].
  intros r u Hr Hu. destruct (decide (u < t)) as [Hlt|Hge]; [|apply HX; [done|lia]].
  apply (free_at_slot ss s); [done|done|lia|]. apply (free_at_slot ss s t); [done|done|lia|].
  apply HX; [done|lia].
Qed.

Lemma can_start_mono hy ss ss' rq t :
  (forall u r, free_at ss' u r -> free_at ss u r) -> begin_ ss' = begin_ ss -> end_ ss' = end_ ss ->
  can_start hy ss' rq t -> can_start hy ss rq t.
Proof.
  intros H Hb He (H1 & H2 & X & HX & Hs). split; [lia|]. split; [lia|]. exists X. split; [|done]. eauto.
Qed.

(** * One window *)
Definition try_window (qc : option qconf) (hy : hierarchy) (m : gmap Z slot) (j : job) (rq : rqt) (p : slot * slot) : res (option procset) :=
  x <-- avail m (sid p.1) (sid p.2) j ;;
  r <-- find_resource_hierarchies_job x (r_groups rq) hy ;;
  if nonempty r then
    match qc with
    | None => Ok (Some r)
    | Some cf =>
        v <-- check_slots_quotas cf m (sid p.1) (sid p.2) j (nb_counted cf r) (r_wall rq) ;;
        Ok (match v with QOk => Some r | _ => None end)
    end
  else Ok None.

Lemma search_loop_step qc hy m j rq p ws :
  search_loop qc hy m j rq (p :: ws) =
  (o <-- try_window qc hy m j rq p ;;
   match o with Some r => Ok (Some (r, sid p.1, sid p.2)) | None => search_loop qc hy m j rq ws end).
Proof.
  destruct p as [sl sr]. cbn [search_loop fst snd]. unfold try_window. cbn [fst snd].
  destruct (avail m (sid sl) (sid sr) j) as [x|e]; [|done]. cbn [rbind].
  destruct (find_resource_hierarchies_job x (r_groups rq) hy) as [r|e]; [|done]. cbn [rbind].
  destruct (nonempty r); [|done]. destruct qc as [cf|]; [|done].
  destruct (check_slots_quotas _ _ _ _ _ _ _) as [[]|e]; done.
Qed.

Lemma search_loop_some qc hy m j rq ws x l r :
  search_loop qc hy m j rq ws = Ok (Some (x, l, r)) ->
  exists pre p post, ws = pre ++ p :: post /\ l = sid p.1 /\ r = sid p.2 /\
    try_window qc hy m j rq p = Ok (Some x) /\ Forall (fun q => try_window qc hy m j rq q = Ok None) pre.
Proof.
  induction ws as [|p ws IH]; [done|]. rewrite search_loop_step.
  destruct (try_window qc hy m j rq p) as [[y|]|e] eqn:E; [| |done]; cbn [rbind]; intros H.
  - assert (y = x /\ sid p.1 = l /\ sid p.2 = r) as (-> & <- & <-) by (split_and!; congruence).
    exists [], p, ws. done.
  - destruct (IH H) as (pre & p' & post & -> & H1 & H2 & H3 & H4).
    exists (p :: pre), p', post. split_and!; [done..|]. by constructor.
Qed.

Lemma search_loop_none qc hy m j rq ws :
  search_loop qc hy m j rq ws = Ok None <-> Forall (fun q => try_window qc hy m j rq q = Ok None) ws.
Proof.
  induction ws as [|p ws IH]; [done|]. rewrite search_loop_step, Forall_cons, <- IH.
  destruct (try_window qc hy m j rq p) as [[y|]|e] eqn:E; cbn [rbind]; split; try (intros []; congruence); try done.
Qed.

(** Leading windows that fail do not matter. *)
Lemma search_loop_skip qc hy m j rq pre ws :
  Forall (fun q => try_window qc hy m j rq q = Ok None) pre ->
  search_loop qc hy m j rq (pre ++ ws) = search_loop qc hy m j rq ws.
Proof.
  induction 1 as [|p pre Hp _ IH]; [done|]. cbn [app]. rewrite search_loop_step, Hp. cbn [rbind]. done.
Qed.

(** What one window yields for a plain job. *)
Lemma try_window_fail hy ss j rq p qc : WF ss -> known_request hy rq -> is_window ss (r_wall rq) p -> plain j ->
  ~ can_start hy ss rq (sb p.1) -> try_window qc hy (slots ss) j rq p = Ok None.
Proof.
  intros HW (Hne & Hw & Hk) Hp Hj Hn. unfold try_window.
  destruct (window_avail ss _ p j HW Hw Hp Hj) as (X & -> & HX). cbn [rbind].
  destruct (find_job_total X hy _ Hk) as [r E]. rewrite E. cbn [rbind].
  destruct (nonempty r) eqn:En; [|done]. exfalso. apply Hn. apply nonempty_true in En.
  pose proof (proj1 (find_job_complete _ _ _ _ Hne Hk E) En) as HF.
  destruct Hp as (H1 & H2 & H3 & H4 & _). pose proof (slot_len _ _ HW H1). pose proof (slot_len _ _ HW H2).
  split; [lia|]. split; [lia|]. exists X. split; [|done]. intros y u Hy. by apply HX.
Qed.

Lemma try_window_None hy ss j rq p : WF ss -> known_request hy rq -> is_window ss (r_wall rq) p -> plain j ->
  try_window None hy (slots ss) j rq p = Ok None -> ~ can_start hy ss rq (sb p.1).
Proof.
  intros HW (Hne & Hw & Hk) Hp Hj E (_ & _ & X & HX & Hs). unfold try_window in E.
  destruct (window_avail ss _ p j HW Hw Hp Hj) as (Y & EY & HY). rewrite EY in E. cbn [rbind] in E.
  destruct (find_job_total Y hy _ Hk) as [r Er]. rewrite Er in E. cbn [rbind] in E.
  destruct (nonempty r) eqn:En; [done|]. apply nonempty_false in En.
  apply (proj2 (find_job_complete _ _ _ _ Hne Hk Er)); [|done].
  eapply (satisfiable_mono hy _ X Y); [done| |done].
  intros y Hy. apply HY. intros u Hu. by apply HX.
Qed.

Lemma try_window_Some qc hy ss j rq p x : WF ss -> known_request hy rq -> is_window ss (r_wall rq) p -> plain j ->
  try_window qc hy (slots ss) j rq p = Ok (Some x) ->
  can_start hy ss rq (sb p.1) /\ x <> ∅ /\
  (forall r u, r ∈ x -> sb p.1 <= u < sb p.1 + r_wall rq -> free_at ss u r) /\
  exists X parts, (forall r, r ∈ X <-> forall u, sb p.1 <= u < sb p.1 + r_wall rq -> free_at ss u r) /\
    x = ⋃ parts /\
    Forall2 (fun (g : rgroup) y => exists ls, levels_of hy (fst g) ls /\ served (snd g ∩ X) ls y) (r_groups rq) parts.
Proof.
  intros HW (Hne & Hw & Hk) Hp Hj E. unfold try_window in E.
  destruct (window_avail ss _ p j HW Hw Hp Hj) as (X & EX & HX). rewrite EX in E. cbn [rbind] in E.
  destruct (find_job_total X hy _ Hk) as [r Er]. rewrite Er in E. cbn [rbind] in E.
  destruct (nonempty r) eqn:En; [|done]. apply nonempty_true in En.
  assert (r = x) as ->.
  { destruct qc as [cf|]; [|congruence]. destruct (check_slots_quotas _ _ _ _ _ _ _) as [[]|]; cbn [rbind] in E; congruence. }
  destruct Hp as (H1 & H2 & H3 & H4 & _). pose proof (slot_len _ _ HW H1). pose proof (slot_len _ _ HW H2).
  pose proof (proj1 (find_job_complete _ _ _ _ Hne Hk Er) En) as HF.
  split. { split; [lia|]. split; [lia|]. exists X. split; [|done]. intros y u Hy. by apply HX. }
  split; [done|]. split.
  { intros y u Hy. apply HX. destruct (find_job_within _ _ _ _ Er) as [Hin _]. set_solver. }
  destruct (find_job_sound _ _ _ _ Hk Er En) as (parts & -> & HF2). eauto.
Qed.

(** * The windows from a slot on *)
Lemma windows_from ss w i s : WF ss -> 0 < w -> slots ss !! i = Some s ->
  exists pre ws, traverse_with_width (slots ss) w 0 = Ok (pre ++ ws) /\
    traverse_with_width (slots ss) w i = Ok ws /\
    Forall (fun p => is_window ss w p) (pre ++ ws) /\
    StronglySorted (fun p q : slot * slot => sb (fst p) < sb (fst q)) (pre ++ ws) /\
    Forall (fun p => sb p.1 < sb s) pre /\
    Forall (fun p => sb s <= sb p.1) ws /\
    (forall s', slots ss !! sid s' = Some s' -> sb s <= sb s' -> w <= end_ ss - sb s' + 1 -> exists e, (s', e) ∈ ws).
Proof.
  intros HW Hw Hs. assert (HW' := HW). destruct HW as [l H].
  pose proof (repr_elem _ _ _ _ H Hs) as [Hin <-].
  apply elem_of_list_split in Hin as (l1 & l2 & ->).
  pose proof (traverse_with_width_all _ _ w H Hw) as Eall.
  pose proof (traverse_with_width_eq _ _ _ _ w H Hw) as Efrom.
  pose proof (repr_contig _ _ H) as HC.
  assert (Happ : forall l1 l2, exists pre, windows_of (l1 ++ l2) w = pre ++ windows_of l2 w /\ Forall (fun p => p.1 ∈ l1) pre).
  { clear. induction l1 as [|a l1 IH]; intros l2; [exists []; done|]. cbn [app windows_of].
    destruct (IH l2) as (pre & -> & HF).
    assert (HF' : Forall (fun p : slot * slot => p.1 ∈ a :: l1) pre) by (eapply Forall_impl; [exact HF|]; intros; by right).
    destruct (find_end _ _ _) as [e|]; [exists ((a, e) :: pre)|exists pre]; (split; [done|]); [|done].
    constructor; [by left|done]. }
  destruct (Happ l1 (s :: l2)) as (pre & Ep & Hpre). rewrite Ep in Eall.
  destruct (windows_WF ss w HW' Hw) as (ws & Ews & Hsort & Hmem & _).
  assert (ws = pre ++ windows_of (s :: l2) w) as -> by congruence.
  assert (HC2 := HC). apply contig_app in HC2 as (m & HC1 & HC2).
  exists pre, (windows_of (s :: l2) w). split; [done|]. split; [done|]. split.
  { apply Forall_forall. intros [a b] Hp. apply Hmem in Hp. done. }
  split; [done|]. split.
  { eapply Forall_impl; [exact Hpre|]. intros [a b] Ha. cbn [fst] in *.
    pose proof (contig_bounds _ _ _ _ HC1 Ha). cbn [contig] in HC2. lia. }
  split.
  { apply Forall_forall. intros p Hp. apply (windows_of_elem _ _ _ _ _ HC2) in Hp as (m1 & mid & m3 & E & Hh & _).
    assert (Hin : p.1 ∈ s :: l2) by (rewrite E; destruct mid; cbn in Hh; injection Hh as <-; mem).
    pose proof (contig_bounds _ _ _ _ HC2 Hin). cbn [contig] in HC2. lia. }
  intros s' Hs' Hle Hw'. apply (repr_elem _ _ _ _ H) in Hs' as [Hin' _].
  apply (proj2 (windows_of_complete _ w _ _ s' HC2 ltac:(
    apply elem_of_app in Hin' as [Hin'|?]; [|done]; exfalso;
    pose proof (contig_bounds _ _ _ _ HC1 Hin'); cbn [contig] in HC2; lia))). lia.
Qed.

(** The search from slot [i] on, for a plain job: the first window from there. *)
Lemma search_from hy ss j rq i s ws o : WF ss -> known_request hy rq -> plain j ->
  slots ss !! i = Some s -> traverse_with_width (slots ss) (r_wall rq) i = Ok ws ->
  search_loop None hy (slots ss) j rq ws = Ok o ->
  match o with
  | None => forall t, sb s <= t -> ~ can_start hy ss rq t
  | Some (x, l, r) => exists sl sr, slots ss !! l = Some sl /\ slots ss !! r = Some sr /\
      is_window ss (r_wall rq) (sl, sr) /\ sid sl = l /\ sid sr = r /\ sb s <= sb sl /\
      try_window None hy (slots ss) j rq (sl, sr) = Ok (Some x) /\
      forall t, sb s <= t < sb sl -> ~ can_start hy ss rq t
  end.
Proof.
  intros HW Hk Hj Hs Ew E. assert (Hk' := Hk). destruct Hk as (Hne & Hw & _).
  destruct (windows_from ss _ i s HW Hw Hs) as (pre & ws' & _ & Ew' & HF & Hsort & _ & Hfrom & Hcov).
  assert (ws' = ws) as -> by congruence. clear Ew'.
  apply Forall_app in HF as [_ HF].
  assert (Hslot : forall t, sb s <= t -> can_start hy ss rq t ->
     exists s' e, (s', e) ∈ ws /\ sb s' <= t <= se s' /\ can_start hy ss rq (sb s')).
  { intros t Ht Hc. assert (Hc' := Hc). destruct Hc as (Hb & He & _).
    assert (HW2 := HW). destruct HW2 as [l H].
    destruct (contig_cover _ _ _ t (repr_contig _ _ H)) as (s' & Hin & Hst); [lia|].
    pose proof (repr_lookup _ _ _ H Hin) as Hl.
    pose proof (can_start_slot hy ss rq t s' HW Hw Hl Hst Hc') as Hc2.
    destruct (Hcov s' Hl) as [e He']; [| |eauto].
    - destruct (decide (sb s <= sb s')); [done|exfalso].
      apply (repr_elem _ _ _ _ H) in Hs as [HinS _].
      assert (s' = s); [|subst; lia].
      eapply (contig_unique _ _ _ (sb s) _ _ (repr_contig _ _ H)); [done|done|lia|].
      pose proof (repr_bounds _ _ _ H HinS). lia.
    - destruct Hc2 as (? & ? & _). lia. }
  destruct o as [[[x l] r]|].
  - destruct (search_loop_some _ _ _ _ _ _ _ _ _ E) as ([|] & [sl sr] & post & -> & -> & -> & Ht & Hpre).
    + exists sl, sr. rewrite Forall_app, Forall_cons in HF. destruct HF as (_ & HP & _).
      assert (HP' := HP). destruct HP as (H1 & H2 & _). cbn [fst snd app] in *.
      rewrite Forall_cons in Hfrom. destruct Hfrom as [Hfr Hfrom]. cbn [fst] in Hfr.
      split_and!; [done..|]. intros t Ht' Hc.
      destruct (Hslot t ltac:(lia) Hc) as (s' & e & Hin & Hst & Hc').
      apply StronglySorted_app_inv_r in Hsort. apply StronglySorted_inv in Hsort as [_ Hsort].
      apply elem_of_cons in Hin as [Hin|Hin]; [assert (s' = sl) by congruence; subst; lia|].
      rewrite Forall_forall in Hsort. specialize (Hsort _ Hin). cbn [fst] in Hsort. lia.
    + set (pr := p :: l0) in *. clearbody pr. exists sl, sr. rewrite Forall_app, Forall_cons in HF. destruct HF as (HPre & HP & _).
      assert (HP' := HP). destruct HP as (H1 & H2 & _). cbn [fst snd] in *.
      assert (Hfr : sb s <= sb sl) by (rewrite Forall_app, Forall_cons in Hfrom; cbn [fst] in Hfrom; tauto).
      split_and!; [done..|]. intros t Ht' Hc.
      destruct (Hslot t ltac:(lia) Hc) as (s' & e & Hin & Hst & Hc').
      apply StronglySorted_app_inv_r in Hsort.
      apply elem_of_app in Hin as [Hin|Hin].
      * rewrite Forall_forall in Hpre, HPre. apply (try_window_None hy ss j rq (s', e)); [done|done|by apply HPre|done|by apply Hpre|done].
      * apply StronglySorted_app_inv_r in Hsort. apply StronglySorted_inv in Hsort as [_ Hsort].
        apply elem_of_cons in Hin as [Hin|Hin]; [assert (s' = sl) by congruence; subst; lia|].
        rewrite Forall_forall in Hsort. specialize (Hsort _ Hin). cbn [fst] in Hsort. lia.
  - intros t Ht Hc. destruct (Hslot t Ht Hc) as (s' & e & Hin & Hst & Hc').
    apply search_loop_none in E. rewrite Forall_forall in E, HF.
    apply (try_window_None hy ss j rq (s', e)); [done|done|by apply HF|done|by apply E|done].
Qed.

(** * find_first *)
Definition cache_ok (hy : hierarchy) (req_of : string -> Z * list rgroup) (ss : slotset) (ch : cache) : Prop :=
  forall k i, ch !! k = Some i -> exists s, slots ss !! i = Some s /\
    forall rq t, req_of k = (r_wall rq, r_groups rq) -> known_request hy rq -> t < sb s -> ~ can_start hy ss rq t.

Definition cache_valid (ss : slotset) (ch : cache) : Prop :=
  forall k i, ch !! k = Some i -> is_Some (slots ss !! i).
Lemma cache_ok_valid hy req_of ss ch : cache_ok hy req_of ss ch -> cache_valid ss ch.
Proof. intros H k i Hk. destruct (H k i Hk) as (s & -> & _). eauto. Qed.

Lemma traverse_first ss s l w : Repr ss (s :: l) -> 0 < w ->
  traverse_with_width (slots ss) w 0 = traverse_with_width (slots ss) w (sid s).
Proof. intros H Hw. rewrite (traverse_with_width_all _ _ _ H Hw). symmetry. by apply (traverse_with_width_eq ss []). Qed.

Lemma traverse_zero ss w : WF ss -> 0 < w -> exists s, slots ss !! sid s = Some s /\ sb s = begin_ ss /\
  first (slots ss) = Ok s /\ traverse_with_width (slots ss) w 0 = traverse_with_width (slots ss) w (sid s).
Proof.
  intros [l H] Hw. destruct l as [|s l]; [destruct (repr_ne _ _ H); done|].
  exists s. split; [apply (repr_lookup _ _ _ H); mem|]. split; [by apply (repr_first_begin _ _ l)|].
  split; [by apply (first_spec _ _ l)|]. by eapply traverse_first.
Qed.

(** Where the search starts, as a slot. *)
Lemma start_slot ss ch w rq min : WF ss -> cache_valid ss ch -> 0 < r_wall rq ->
  (min < 0 -> w_keys w <> ∅ -> is_Some (w_keys w !! r_mld rq)) ->
  exists i s, start_id ss ch w rq min = Ok i /\ slots ss !! sid s = Some s /\
    traverse_with_width (slots ss) (r_wall rq) i = traverse_with_width (slots ss) (r_wall rq) (sid s) /\
    (origin ss min (sb s) \/
     (min < 0 /\ w_keys w <> ∅ /\ exists k, w_keys w !! r_mld rq = Some k /\ ch !! k = Some (sid s))).
Proof.
  intros HW Hv Hw Hk. destruct (traverse_zero ss _ HW Hw) as (s & Hs & Hb & Hf & Et).
  unfold start_id. rewrite Hf. cbn [rbind]. destruct (min <? 0) eqn:Em.
  - assert (Ho : origin ss min (sb s)) by (left; split; lia).
    case_bool_decide as Hke; [exists (sid s), s; auto|].
    destruct (Hk ltac:(lia) Hke) as [k Ek]. rewrite Ek. destruct (ch !! k) as [i|] eqn:Ec; [|exists (sid s), s; auto].
    destruct (Hv k i Ec) as [s' Hs']. exists i, s'.
    assert (sid s' = i) as <-. { destruct HW as [l H]. by apply (repr_elem _ _ _ _ H) in Hs' as [_ <-]. }
    split; [done|]. split; [done|]. split; [done|]. right. split; [lia|]. split; [done|]. eauto.
  - destruct (slot_id_at_spec ss min HW) as (H1 & H2 & i & Ei). rewrite Ei.
    destruct (decide (i = 0)) as [->|Hi].
    + exists 0, s. split; [done|]. split; [done|]. split; [done|]. left. left. split; [|lia].
      apply H2 in Ei. lia.
    + destruct (H1 i Ei Hi) as (s' & Hs' & Hm). exists i, s'.
      assert (sid s' = i) as <-. { destruct HW as [l H]. by apply (repr_elem _ _ _ _ H) in Hs' as [_ <-]. }
      split; [done|]. split; [done|]. split; [done|]. left. right. split; [lia|]. eauto.
Qed.

Definition eff (qc : option qconf) (w : wjob) : option qconf := if w_noq w then None else qc.

(** Any answer comes from an accepted window (cache or not, quotas or not). *)
Lemma find_first_sound qc hy ss ch w rq min x l r ch' :
  WF ss -> cache_valid ss ch -> 0 < r_wall rq ->
  find_first qc hy ss ch w rq min = Ok (Some (x, l, r), ch') ->
  exists p, is_window ss (r_wall rq) p /\ l = sid p.1 /\ r = sid p.2 /\
    try_window (eff qc w) hy (slots ss) (w_job w) rq p = Ok (Some x).
Proof.
  intros HW Hv Hw E. unfold find_first in E.
  apply rbind_Ok in E as (i & Ei & E). apply rbind_Ok in E as (ws & Ew & E).
  apply rbind_Ok in E as (o & Eo & E). fold (eff qc w) in Eo, E.
  assert (o = Some (x, l, r)) as ->.
  { destruct o as [[[a b] c]|]; [|congruence]. destruct (eff qc w); [congruence|].
    destruct (_ && _); [|congruence]. destruct (w_keys w !! r_mld rq); congruence. }
  clear E. destruct (search_loop_some _ _ _ _ _ _ _ _ _ Eo) as (pre & p & post & -> & -> & -> & Ht & _).
  exists p. split; [|done].
  assert (Hk : min < 0 -> w_keys w <> ∅ -> is_Some (w_keys w !! r_mld rq)).
  { intros Hm Hke. unfold start_id in Ei. destruct (first (slots ss)) as [s0|]; [|done]. cbn [rbind] in Ei.
    replace (min <? 0) with true in Ei by lia. rewrite bool_decide_false in Ei by done.
    destruct (w_keys w !! r_mld rq); [eauto|done]. }
  destruct (start_slot ss ch w rq min HW Hv Hw Hk) as (i' & s & Ei' & Hs & Et & _).
  assert (i' = i) as -> by congruence. rewrite Et in Ew.
  destruct (windows_from ss _ _ s HW Hw Hs) as (pre' & ws' & _ & Ew' & HF & _).
  assert (ws' = pre ++ p :: post) as -> by congruence.
  rewrite !Forall_app, Forall_cons in HF. tauto.
Qed.

Lemma origin_range ss min t0 : WF ss -> origin ss min t0 -> begin_ ss <= t0.
Proof.
  intros HW [[_ ->]|(_ & i & s & Hs & _ & ->)]; [lia|].
  destruct HW as [l H]. apply (repr_elem _ _ _ _ H) in Hs as [Hs _]. pose proof (repr_bounds _ _ _ H Hs). lia.
Qed.

(** Without quotas, for plain jobs: never a crash, the earliest date from the origin, and a
    cache that stays right. *)
Lemma find_first_earliest qc hy req_of ss ch w rq min :
  WF ss -> cache_ok hy req_of ss ch -> keys_for req_of w -> rq ∈ w_rqts w ->
  known_request hy rq -> plain (w_job w) -> eff qc w = None ->
  exists o ch' t0, find_first qc hy ss ch w rq min = Ok (o, ch') /\ cache_ok hy req_of ss ch' /\ origin ss min t0 /\
    match o with
    | None => forall t, t0 <= t -> ~ can_start hy ss rq t
    | Some (x, l, r) => exists sl sr, slots ss !! l = Some sl /\ sid sl = l /\ sid sr = r /\ 
        is_window ss (r_wall rq) (sl, sr) /\ t0 <= sb sl /\
        try_window None hy (slots ss) (w_job w) rq (sl, sr) = Ok (Some x) /\
        forall t, t0 <= t < sb sl -> ~ can_start hy ss rq t
    end.
Proof.
  intros HW Hc Hkf Hin Hk Hp Heff. assert (Hw : 0 < r_wall rq) by apply Hk.
  assert (Hv := cache_ok_valid _ _ _ _ Hc).
  destruct (start_slot ss ch w rq min HW Hv Hw) as (i & s & Ei & Hs & Et & Ho).
  { intros _ Hke. destruct (Hkf Hke) as [_ H]. destruct (H rq Hin) as (k & -> & _). eauto. }
  destruct (windows_from ss _ _ s HW Hw Hs) as (pre & ws & _ & Ew & _). rewrite Ew in Et.
  destruct (search_loop None hy (slots ss) (w_job w) rq ws) as [o|e] eqn:Eo.
  2: { exfalso. (* try_window never fails *)
       destruct (windows_from ss _ _ s HW Hw Hs) as (pre' & ws' & _ & Ew' & HF & _).
       assert (ws' = ws) as -> by congruence. apply Forall_app in HF as [_ HF].
       clear -HF Eo HW Hk Hp Hw. induction ws as [|p ws IH]; [done|]. rewrite search_loop_step in Eo.
       rewrite Forall_cons in HF. destruct HF as [Hpw HF].
       unfold try_window in Eo. destruct (window_avail ss _ p (w_job w) HW Hw Hpw Hp) as (X & EX & _). rewrite EX in Eo.
       cbn [rbind] in Eo. destruct (find_job_total X hy _ (proj2 (proj2 Hk))) as [y Ey]. rewrite Ey in Eo. cbn [rbind] in Eo.
       destruct (nonempty y); cbn [rbind] in Eo; [done|]. auto. }
  pose proof (search_from hy ss (w_job w) rq _ s ws o HW Hk Hp Hs Ew Eo) as HS.
  assert (Ht0 : exists t0, origin ss min t0 /\ t0 <= sb s /\ forall t, t0 <= t < sb s -> ~ can_start hy ss rq t).
  { destruct Ho as [Ho|(Hm & Hke & k & Ek & Ech)].
    - exists (sb s). split; [done|]. split; [lia|]. intros; lia.
    - exists (begin_ ss). pose proof (slot_len _ _ HW Hs). split; [left; lia|]. split; [lia|].
      destruct (Hkf Hke) as [_ HR]. destruct (HR rq Hin) as (k' & Ek' & Hreq).
      assert (k' = k) as -> by congruence.
      destruct (Hc k _ Ech) as (s' & Hs' & Hcan). assert (s' = s) as -> by congruence.
      intros t Ht. eapply Hcan; [done|done|lia]. }
  destruct Ht0 as (t0 & Hor & Ht0 & Hno).
  unfold find_first. rewrite Ei. cbn [rbind]. rewrite Et. cbn [rbind]. fold (eff qc w). rewrite Heff, Eo. cbn [rbind].
  destruct o as [[[x l] r]|].
  - destruct HS as (sl & sr & Hl & Hr & Hwin & Hsl & Hsr & Hle & Htry & Hfirst).
    assert (Hall : forall t, t0 <= t < sb sl -> ~ can_start hy ss rq t).
    { intros t Ht. destruct (decide (t < sb s)); [apply Hno; lia|apply Hfirst; lia]. }
    assert (Hres : forall P : Prop, P -> exists sl0 sr0, slots ss !! l = Some sl0 /\ sid sl0 = l /\ sid sr0 = r /\ 
        is_window ss (r_wall rq) (sl0, sr0) /\ t0 <= sb sl0 /\
        try_window None hy (slots ss) (w_job w) rq (sl0, sr0) = Ok (Some x) /\
        forall t, t0 <= t < sb sl0 -> ~ can_start hy ss rq t).
    { intros _ _. exists sl, sr. split_and!; try done. lia. }
    destruct (negb (bool_decide (w_keys w = ∅)) && (min <? 0)) eqn:Eb.
    + apply andb_true_iff in Eb as [Eb1 Eb2]. apply negb_true_iff, bool_decide_eq_false in Eb1.
      destruct (Hkf Eb1) as [_ HR]. destruct (HR rq Hin) as (k & Ek & Hreq). rewrite Ek.
      exists (Some (x, l, r)), (<[k:=l]> ch), t0. split; [done|]. split; [|split; [done|by apply (Hres True)]].
      intros k' i' Hki. destruct (decide (k' = k)) as [->|Hne].
      * rewrite lookup_insert in Hki. assert (i' = l) as -> by congruence. exists sl. split; [done|].
        intros rq' t Hreq' Hk' Ht Hcs.
        assert (can_start hy ss rq t) as Hcs'.
        { unfold can_start in *. assert (r_wall rq' = r_wall rq /\ r_groups rq' = r_groups rq) as [<- <-] by (split; congruence). done. }
        apply (Hall t); [|done]. split; [|done]. destruct Hcs' as [Hb _].
        destruct Hor as [[_ ->]|(Hm & _)]; [done|lia].
      * rewrite lookup_insert_ne in Hki by done. by apply Hc.
    + exists (Some (x, l, r)), ch, t0. split; [done|]. split; [done|]. split; [done|]. by apply (Hres True).
  - exists None, ch, t0. split; [done|]. split; [done|]. split; [done|].
    intros t Ht. destruct (decide (t < sb s)); [apply Hno; lia|apply HS; lia].
Qed.

(** The cache does not change the answer. *)
Lemma find_first_nocache qc hy req_of ss ch w rq min :
  WF ss -> cache_ok hy req_of ss ch -> keys_for req_of w -> rq ∈ w_rqts w -> known_request hy rq ->
  find_first qc hy ss ∅ (nokeys w) rq min =
  match find_first qc hy ss ch w rq min with Ok (o, _) => Ok (o, ∅) | Err e => Err e end.
Proof.
  intros HW Hc Hkf Hin Hk. assert (Hw : 0 < r_wall rq) by apply Hk.
  assert (Hv := cache_ok_valid _ _ _ _ Hc).
  unfold find_first. fold (eff qc w). change (if w_noq (nokeys w) then None else qc) with (eff qc w).
  change (w_job (nokeys w)) with (w_job w). change (w_keys (nokeys w)) with (∅ : gmap Z string).
  rewrite (bool_decide_true (∅ = ∅)) by done. cbn [negb andb].
  assert (Hkey : w_keys w <> ∅ -> exists k, w_keys w !! r_mld rq = Some k /\ req_of k = (r_wall rq, r_groups rq) /\ plain (w_job w)).
  { intros Hke. destruct (Hkf Hke) as [Hp H]. destruct (H rq Hin) as (k & H1 & H2). eauto. }
  (* the two starting points *)
  destruct (traverse_zero ss _ HW Hw) as (s0 & Hs0 & Hb0 & Hf0 & Et0).
  assert (HE : exists i ws pre, start_id ss ch w rq min = Ok i /\
      traverse_with_width (slots ss) (r_wall rq) i = Ok ws /\
      exists i0, start_id ss ∅ (nokeys w) rq min = Ok i0 /\
      traverse_with_width (slots ss) (r_wall rq) i0 = Ok (pre ++ ws) /\
      Forall (fun q => try_window (eff qc w) hy (slots ss) (w_job w) rq q = Ok None) pre).
  { assert (Hsame : forall i0 s, start_id ss ch w rq min = Ok i0 -> start_id ss ∅ (nokeys w) rq min = Ok i0 ->
       slots ss !! sid s = Some s -> traverse_with_width (slots ss) (r_wall rq) i0 = traverse_with_width (slots ss) (r_wall rq) (sid s) ->
       exists i ws pre, start_id ss ch w rq min = Ok i /\
      traverse_with_width (slots ss) (r_wall rq) i = Ok ws /\
      exists i0, start_id ss ∅ (nokeys w) rq min = Ok i0 /\
      traverse_with_width (slots ss) (r_wall rq) i0 = Ok (pre ++ ws) /\
      Forall (fun q => try_window (eff qc w) hy (slots ss) (w_job w) rq q = Ok None) pre).
    { intros i0 s E1 E2 Hs Et. destruct (windows_from ss _ _ s HW Hw Hs) as (pre & ws & _ & Ew & _).
      exists i0, ws, []. rewrite Et. split; [done|]. split; [done|]. exists i0. rewrite Et. cbn [app]. split_and!; done. }
    unfold start_id in *. rewrite Hf0 in *. cbn [rbind] in *.
    change (w_keys (nokeys w)) with (∅ : gmap Z string) in *. rewrite (bool_decide_true (∅ = ∅)) in * by done.
    destruct (min <? 0) eqn:Em.
    - destruct (bool_decide (w_keys w = ∅)) eqn:Ek; [by apply (Hsame (sid s0) s0)|].
      apply bool_decide_eq_false in Ek. destruct (Hkey Ek) as (k & Ek1 & Hreq & Hp). rewrite Ek1 in *.
      destruct (ch !! k) as [i|] eqn:Ech; [|by apply (Hsame (sid s0) s0)].
      destruct (Hc k i Ech) as (s & Hs & Hno).
      assert (sid s = i) as <-. { destruct HW as [l H]. by apply (repr_elem _ _ _ _ H) in Hs as [_ <-]. }
      destruct (windows_from ss _ _ s HW Hw Hs) as (pre & ws & E0 & Ew & HF & _ & Hpre & _).
      exists (sid s), ws, pre. split; [done|]. split; [done|]. exists (sid s0). split; [done|]. split; [congruence|].
      apply Forall_app in HF as [HF _]. rewrite Forall_forall in HF, Hpre. apply Forall_forall. intros p Hpp.
      apply try_window_fail; [done|done|by apply HF|done|]. eapply Hno; [done|done|]. by apply Hpre.
    - destruct (slot_id_at_spec ss min HW) as (H1 & H2 & i & Ei). rewrite Ei in *.
      destruct (decide (i = 0)) as [->|Hi]; [by apply (Hsame 0 s0)|].
      destruct (H1 i eq_refl Hi) as (s' & Hs' & Hm).
      assert (sid s' = i) as <-. { destruct HW as [l H]. by apply (repr_elem _ _ _ _ H) in Hs' as [_ <-]. }
      by apply (Hsame (sid s') s'). }
  destruct HE as (i & ws & pre & E1 & E2 & i0 & E3 & E4 & HF).
  rewrite E1, E3. cbn [rbind]. rewrite E2, E4. cbn [rbind]. rewrite (search_loop_skip _ _ _ _ _ _ _ HF).
  destruct (search_loop _ _ _ _ _ _) as [o|e]; cbn [rbind]; [|done].
  destruct o as [[[x l] r]|]; [|done]. destruct (eff qc w); [done|].
  destruct (bool_decide (w_keys w = ∅)) eqn:Ek; [done|]. apply bool_decide_eq_false in Ek.
  destruct (Hkey Ek) as (k & -> & _). cbn [negb andb]. by destruct (min <? 0).
Qed.
