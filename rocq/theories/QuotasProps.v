(** Property theorems about quotas: C22-C25. *)
From Verif Require Import Base SlotModel SlotSpec SlotProofs SlotJobs SlotLookup SlotOps SlotCheck SlotProps SlotShare
  HierarchyModel HierarchySpec HierarchyProps QuotasModel QuotasSpec QuotasProofs LoadModel SchedModel SchedSpec SchedProofs SchedAssign SchedProps.

(** * C22: the counters are what the jobs consume *)
Theorem C22_counters : forall env jobs k,
  NoDup (q_job_types env) -> Forall named jobs -> key_type k ∈ q_job_types env ->
  cget (fold_left (fun c j => q_update env j c) jobs ∅) k = consumed env jobs k.
Proof.
  intros env jobs k HN HF Hk.
  assert (H : forall c, cget (fold_left (fun c j => q_update env j c) jobs c) k = add3 (cget c k) (consumed env jobs k)).
  { induction HF as [|j jobs Hj HF IH]; intros c; cbn [fold_left consumed].
    - by rewrite add3_0.
    - rewrite IH, cget_q_update by done. destruct (decide (key_match k j)) as [Hm|Hm].
      + rewrite (bool_decide_true (key_match k j)) by done. rewrite bool_decide_true by done.
        by rewrite add3_assoc.
      + rewrite (bool_decide_false (key_match k j)) by done. rewrite bool_decide_false by tauto. done. }
  rewrite H, cget_empty. rewrite add3_comm. apply add3_0.
Qed.
Print Assumptions C22_counters.

(** Types that are not configured are not counted. *)
Theorem C22_other_types : forall env jobs k,
  NoDup (q_job_types env) -> Forall named jobs -> key_type k ∉ q_job_types env ->
  cget (fold_left (fun c j => q_update env j c) jobs ∅) k = (0, 0, 0).
Proof.
  intros env jobs k HN HF Hk.
  assert (H : forall c, cget (fold_left (fun c j => q_update env j c) jobs c) k = cget c k).
  { induction HF as [|j jobs Hj HF IH]; intros c; cbn [fold_left]; [done|].
    rewrite IH, cget_q_update by done. rewrite bool_decide_false by tauto. done. }
  rewrite H. apply cget_empty.
Qed.
Print Assumptions C22_other_types.

Definition qjob (i st w : Z) (rs : procset) (u p : string) (types : list (string * string)) : job :=
  mkJob i st w rs false None None 0 None "" u "default" p types.
Definition q_ex_env : qenv := mkQenv (range 1 8) ["*"; "besteffort"]%string.
Definition q_ex_jobs : list job :=
  [qjob 1 0 10 (range 1 4) "bob" "pA" []; qjob 2 0 20 (range 3 9) "bob" "pB" [("besteffort"%string, "true"%string)];
   qjob 3 5 5 (range 1 2) "eve" "pA" []].
Example C22_example : NoDup (q_job_types q_ex_env) /\ Forall named q_ex_jobs /\
  consumed q_ex_env q_ex_jobs ("*", "*", "*", "bob")%string = (10, 2, 160) /\
  consumed q_ex_env q_ex_jobs ("default", "pA", "*", "*")%string = (6, 2, 50) /\
  consumed q_ex_env q_ex_jobs ("*", "*", "besteffort", "*")%string = (6, 1, 120).
Proof.
  split; [by_dec|]. split; [unfold named; by_dec|]. split_and!; vm_compute; reflexivity.
Qed.

(** The slots of a slot set: jobs inserted one after the other. *)
Fixpoint insert_each (env : qenv) (ss : slotset) (jobs : list job) : res slotset :=
  match jobs with
  | [] => Ok ss
  | j :: jobs' => ss' <-- split_slots_jobs env ss [j] true ;; insert_each env ss' jobs'
  end.
Definition runs_at (t : Z) (j : job) : bool := (start_time j <=? t) && (t <? start_time j + walltime j).

(** At every instant (other than the very end of a job, see C04) the counters have grown by the
    consumption of the jobs running at that instant. *)
Theorem C22_slot_counters : forall env jobs ss,
  WF ss -> NoDup (q_job_types env) ->
  Forall (fun j => job_ok j /\ named j /\ 0 <= walltime j /\ has_type "container" j = false) jobs ->
  exists ss', insert_each env ss jobs = Ok ss' /\ WF ss' /\
    forall t c', content_at ss' t c' -> (forall j, j ∈ jobs -> t <> start_time j + walltime j) ->
    exists c, content_at ss t c /\ quotas_rules_id c' = quotas_rules_id c /\
      forall q, quotas c = Some q -> exists q', quotas c' = Some q' /\
        forall k, key_type k ∈ q_job_types env ->
          cget q' k = add3 (cget q k) (consumed env (List.filter (runs_at t) jobs) k).
Proof.
  intros env jobs. induction jobs as [|j jobs IH]; intros ss HW HN HF; cbn [insert_each].
  - exists ss. split; [done|]. split; [done|]. intros t c Hc _. exists c. split; [done|]. split; [done|].
    intros q Hq. exists q. split; [done|]. intros k _. cbn [List.filter consumed]. by rewrite add3_0.
  - apply Forall_cons in HF as [(Hj & Hn & Hw & Hc) HF].
    destruct (split_slots_jobs_one env true j ss HW Hj Hw) as (ss1 & h & E & HW1 & _ & _ & Hh & _ & HC).
    rewrite E. cbn [rbind]. destruct (IH ss1 HW1 HN HF) as (ss' & E' & HW' & H). exists ss'. split; [done|]. split; [done|].
    intros t c' Hc' Hend. destruct (H t c' Hc') as (c1 & Hc1 & Hid & Hq).
    { intros j' Hj'. apply Hend. by right. }
    apply HC in Hc1 as (c & Hc0 & E1). exists c. split; [done|].
    unfold occ_end in Hh. pose proof (Hend j ltac:(by left)) as Hje.
    assert (Hrun : (start_time j <=? t) && (t <=? h) = runs_at t j) by (unfold runs_at; lia).
    rewrite Hrun in E1. cbn [List.filter]. destruct (runs_at t j).
    + destruct (sub_content_full _ _ _ _ (updc_sub_full env j c Hj)) as (_ & _ & _ & Hqq & Hidd). rewrite <- E1 in Hqq, Hidd.
      split; [congruence|]. intros q Eq. rewrite Hc, Eq in Hqq. cbn [fmap option_fmap option_map] in Hqq.
      destruct (Hq _ Hqq) as (q' & Eq' & Hk). exists q'. split; [done|]. intros k Hkt.
      rewrite (Hk k Hkt), cget_q_update by done. cbn [consumed].
      destruct (decide (key_match k j)) as [Hm|Hm].
      * rewrite (bool_decide_true (key_match k j)) by done. rewrite bool_decide_true by done. by rewrite add3_assoc.
      * rewrite (bool_decide_false (key_match k j)) by done. rewrite bool_decide_false by tauto. done.
    + subst c1. split; [done|]. exact Hq.
Qed.
Print Assumptions C22_slot_counters.
Example C22_slot_example :
  (let ss := from_ok ex_ss (insert_each q_ex_env (ss_of_pair true (range 1 9) 0) q_ex_jobs) in
   is_ok (insert_each q_ex_env (ss_of_pair true (range 1 9) 0) q_ex_jobs) &&
   forallb (fun s => negb ((sb s <=? 7) && (7 <=? se s)) ||
     bool_decide (cget (default ∅ (quotas (cont s))) ("*", "*", "*", "*")%string = (12, 3, 170))) (slots_list ss)) = true.
Proof. vm_compute. reflexivity. Qed.

(** * C23: a window is accepted only within the limits of the rule the job is subject to *)
Definition slots_nonneg (ss : slotset) : Prop :=
  forall t c, content_at ss t c -> exists q, quotas c = Some q /\ nonneg q.

Lemma selects_key_match rs types j k r : selects rs types j k r ->
  key_type k = "*"%string \/ key_type k ∈ (fst <$> jtypes j) -> key_match (instance k j) j.
Proof.
  intros Hs Ht. pose proof (instance_match _ _ _ _ _ Hs) as Hm. rewrite <- (instance_type k j) in Ht.
  destruct (instance k j) as [[[q p] t] u]. cbn [key_type] in Ht. unfold key_match. tauto.
Qed.

Theorem C23_window_within_limits_partial : forall cf ss j nb dur i k L R,
  WF ss -> slots ss !! i = Some L -> slots ss !! k = Some R -> sb L <= sb R ->
  slots_nonneg ss -> 0 <= nb -> 0 <= dur ->
  check_slots_quotas cf (slots ss) i k j nb dur = Ok QOk ->
  forall t c q key rl, sb L <= t <= se R -> content_at ss t c -> quotas c = Some q ->
    proper_rules (conf_rules cf (quotas_rules_id c)) ->
    selects (conf_rules cf (quotas_rules_id c)) (q_job_types (q_env cf)) j key rl ->
    key_type key ∈ q_job_types (q_env cf) -> key_type key = "*"%string \/ key_type key ∈ (fst <$> jtypes j) ->
    within_rule rl (add3 (cget q (instance key j)) (nb, 1, nb * dur)).
Proof.
  intros cf ss j nb dur i k L R [l H] HL HR Hle Hnn Hnb Hdur E t c q key rl Ht Hc Eq Hpr Hsel Hkt Hkt'.
  destruct (repr_elem _ _ _ _ H HL) as [HLin <-]. destruct (repr_elem _ _ _ _ H HR) as [HRin <-].
  destruct (repr_between _ _ _ _ H HLin HRin Hle) as (l1 & mid & l3 & -> & Hh).
  unfold check_slots_quotas in E. apply rbind_Ok in E as (l' & El & E). assert (sq_check cf j nb dur l' = QOk) as Hck by congruence. clear E.
  assert (Happ : mid ++ R :: l3 = (mid ++ [R]) ++ l3) by (rewrite <- app_assoc; done).
  assert (HF : Forall (fun y => exists q, quotas (cont y) = Some q /\ nonneg q) (mid ++ [R])).
  { apply Forall_forall. intros y Hy.
    assert (Hy' : y ∈ l1 ++ mid ++ R :: l3) by (rewrite Happ; apply elem_of_app; right; apply elem_of_app; by left).
    apply (Hnn (sb y)). exists (sid y), y. split; [by eapply repr_lookup|]. pose proof (repr_bounds _ _ _ H Hy'). split; [lia|done]. }
  destruct (sq_loop_spec ss mid l1 R l3 (S (size (slots ss))) L [] H) as (l'' & El' & _ & _ & HF').
  { rewrite (repr_size _ _ H), !app_length. lia. } { done. } { done. } { intros ? ? Hx. by apply elem_of_nil in Hx. }
  assert (l'' = l') as -> by congruence. clear El'.
  (* the slot of instant t *)
  pose proof (repr_contig _ _ H) as HC. apply contig_app in HC as (a & HC1 & HC2). rewrite Happ in HC2.
  apply contig_app in HC2 as (b & HC2 & HC3).
  assert (Ha : sb L = a + 1).
  { destruct mid as [|x mid]; cbn in Hh; injection Hh as <-; cbn [app contig] in HC2; lia. }
  assert (Hb : se R = b) by (clear - HC2; apply contig_app in HC2 as (b0 & _ & HC2); cbn [contig] in HC2; lia).
  destruct (contig_cover _ _ _ t HC2) as (s & Hs & Hst); [lia|].
  assert (c = cont s) as ->.
  { rewrite (content_at_cat _ _ _ _ H) in Hc. eapply cat_functional; [exact (repr_contig _ _ H)|exact Hc|].
    exists s. split; [|done]. rewrite Happ. apply elem_of_app; right. apply elem_of_app; by left. }
  rewrite Forall_forall in HF'. destruct (HF' s Hs) as (q' & d & Eq' & Hd & Hcle).
  assert (q' = q) as -> by congruence.
  apply (proj1 (sq_check_spec cf j nb dur l')) with (id := quotas_rules_id (cont s)) (c := d) in Hck; [|done].
  rewrite q_check_spec in Hck. specialize (Hck rl (instance key j) key).
  assert (Hf : find_applicable (q_job_types (q_env cf)) (init_rule_tree (conf_rules cf (quotas_rules_id (cont s)))) j =
    Some (rl, instance key j, key)) by (by apply find_applicable_spec).
  specialize (Hck Hf). eapply within_le; [|exact Hck].
  eapply le3_trans; [|apply update_counts; [done|done| |]].
  - specialize (Hcle (instance key j)). destruct (cget q (instance key j)) as [[? ?] ?], (cget d (instance key j)) as [[? ?] ?].
    cbn [add3 le3] in *. lia.
  - by rewrite instance_type.
  - by eapply selects_key_match.
Qed.
Print Assumptions C23_window_within_limits_partial.

(** Conversely, a window all whose slots are within the limits, for a job whose rules do not limit
    resource-seconds, is accepted. *)
Lemma sq_add_inv id c l : forall (P : Z -> counters -> Prop),
  (forall i d, (i, d) ∈ l -> P i d) -> P id (q_combine ∅ c) -> (forall d, (id, d) ∈ l -> P id (q_combine d c)) ->
  forall i d, (i, d) ∈ sq_add id c l -> P i d.
Proof.
  intros P. induction l as [|[i0 d0] l IH]; intros H1 H2 H3 i d H; cbn [sq_add] in H.
  - apply elem_of_list_singleton in H. assert (i = id /\ d = q_combine ∅ c) as [-> ->] by (split; congruence). done.
  - destruct (i0 =? id) eqn:E.
    + apply elem_of_cons in H as [H|H].
      * assert (i = i0 /\ d = q_combine d0 c) as [-> ->] by (split; congruence). assert (i0 = id) as -> by lia. apply H3. by left.
      * apply H1. by right.
    + apply elem_of_cons in H as [H|H].
      * assert (i = i0 /\ d = d0) as [-> ->] by (split; congruence). apply H1. by left.
      * apply IH; [intros; apply H1; by right|done|intros; apply H3; by right|done].
Qed.

Lemma sq_loop_inv (ss : slotset) (P : Z -> counters -> Prop) mid : forall l1 s l3 fuel h (l : list (Z * counters)),
  Repr ss (l1 ++ mid ++ s :: l3) -> (length mid < fuel)%nat -> head (mid ++ [s]) = Some h ->
  Forall (fun y => exists q, quotas (cont y) = Some q /\ P (quotas_rules_id (cont y)) (q_combine ∅ q) /\
     forall d, P (quotas_rules_id (cont y)) d -> P (quotas_rules_id (cont y)) (q_combine d q)) (mid ++ [s]) ->
  (forall i d, (i, d) ∈ l -> P i d) ->
  exists l', sq_loop fuel (slots ss) (sid h) (sid s) l = Ok l' /\ (forall i d, (i, d) ∈ l' -> P i d).
Proof.
  induction mid as [|a mid IH]; intros l1 s l3 fuel h l H Hf Hh HF Hl.
  - cbn in Hh. injection Hh as <-. destruct fuel as [|fuel]; [lia|]. cbn [sq_loop].
    assert (Hs : s ∈ l1 ++ [] ++ s :: l3) by mem.
    rewrite (repr_dget _ _ _ H Hs). cbn [rbind]. cbn [app] in HF |- *. apply Forall_singleton in HF as (q & Eq & H1 & H2).
    rewrite Eq. cbn [attr rbind]. rewrite Z.eqb_refl. eexists. split; [done|]. apply sq_add_inv; [done|done|]. intros d Hd. by apply H2, Hl.
  - cbn in Hh. injection Hh as <-. cbn in Hf. destruct fuel as [|fuel]; [lia|]. cbn [sq_loop].
    pose proof (nodup_ids_neq _ _ _ _ _ (repr_nodup _ _ H)) as Hneq.
    assert (Ha : a ∈ l1 ++ (a :: mid) ++ s :: l3) by mem.
    rewrite (repr_dget _ _ _ H Ha). cbn [rbind]. cbn [app] in HF |- *. apply Forall_cons in HF as [(q & Eq & H1 & H2) HF].
    rewrite Eq. cbn [attr rbind]. replace (sid a =? sid s) with false by lia.
    assert (exists b rest, mid ++ [s] = b :: rest) as (b & rest & Eb) by (destruct mid; cbn; eauto).
    assert (Eb' : mid ++ s :: l3 = b :: rest ++ l3).
    { replace (mid ++ s :: l3) with ((mid ++ [s]) ++ l3) by (rewrite <- app_assoc; done). rewrite Eb. done. }
    assert (H' := H). cbn [app] in H'. rewrite Eb' in H'.
    rewrite (repr_next _ _ _ _ _ H').
    apply (IH (l1 ++ [a]) s l3 fuel b).
    { rewrite <- app_assoc. exact H. } { lia. } { rewrite Eb. done. } { done. }
    apply sq_add_inv; [done|done|]. intros d Hd. by apply H2, Hl.
Qed.

Theorem C23_window_accepted : forall cf ss j nb dur i k L R,
  WF ss -> slots ss !! i = Some L -> slots ss !! k = Some R -> sb L <= sb R ->
  NoDup (q_job_types (q_env cf)) -> named j -> 0 <= nb -> 0 <= dur ->
  (forall id, proper_rules (conf_rules cf id)) ->
  (forall id key rl, selects (conf_rules cf id) (q_job_types (q_env cf)) j key rl -> lim_time rl = -1 /\
     (-1 < lim_res rl -> nb <= lim_res rl) /\ (-1 < lim_jobs rl -> 1 <= lim_jobs rl)) ->
  slots_nonneg ss ->
  (forall t c q key rl, sb L <= t <= se R -> content_at ss t c -> quotas c = Some q ->
    selects (conf_rules cf (quotas_rules_id c)) (q_job_types (q_env cf)) j key rl ->
    within_rule rl (add3 (cget q (instance key j)) (nb, 1, nb * dur))) ->
  check_slots_quotas cf (slots ss) i k j nb dur = Ok QOk.
Proof.
  intros cf ss j nb dur i k L R [l H] HL HR Hle HN Hnm Hnb Hdur Hpr Hlim Hnn Hok.
  destruct (repr_elem _ _ _ _ H HL) as [HLin <-]. destruct (repr_elem _ _ _ _ H HR) as [HRin <-].
  destruct (repr_between _ _ _ _ H HLin HRin Hle) as (l1 & mid & l3 & -> & Hh).
  assert (Happ : mid ++ R :: l3 = (mid ++ [R]) ++ l3) by (rewrite <- app_assoc; done).
  set (P := fun (id : Z) (d : counters) => forall key rl, selects (conf_rules cf id) (q_job_types (q_env cf)) j key rl ->
     let '(a, b, _) := cget d (instance key j) in within (lim_res rl) (a + nb) /\ within (lim_jobs rl) (b + 1)).
  pose proof (repr_contig _ _ H) as HC. apply contig_app in HC as (a & HC1 & HC2). rewrite Happ in HC2.
  apply contig_app in HC2 as (b & HC2 & HC3).
  assert (Ha : sb L = a + 1).
  { destruct mid as [|x mid]; cbn in Hh; injection Hh as <-; cbn [app contig] in HC2; lia. }
  assert (Hb : se R = b) by (clear - HC2; apply contig_app in HC2 as (b0 & _ & HC2); cbn [contig] in HC2; lia).
  destruct (sq_loop_inv ss P mid l1 R l3 (S (size (slots ss))) L [] H) as (l' & El & Hl').
  { rewrite (repr_size _ _ H), !app_length. lia. } { done. }
  { apply Forall_forall. intros y Hy.
    assert (Hy' : y ∈ l1 ++ mid ++ R :: l3) by (rewrite Happ; apply elem_of_app; right; apply elem_of_app; by left).
    pose proof (contig_bounds _ _ _ _ HC2 Hy) as Hby. pose proof (repr_bounds _ _ _ H Hy') as Hbs.
    assert (Hcy : content_at ss (sb y) (cont y)).
    { exists (sid y), y. split; [by eapply repr_lookup|]. split; [lia|done]. }
    destruct (Hnn _ _ Hcy) as (q & Eq & Hq). exists q. split; [done|].
    assert (Hstep : forall d, P (quotas_rules_id (cont y)) d \/ d = ∅ -> P (quotas_rules_id (cont y)) (q_combine d q)).
    { intros d Hd key rl Hsel. pose proof (Hok (sb y) (cont y) q key rl ltac:(lia) Hcy Eq Hsel) as Hw.
      destruct (Hlim _ _ _ Hsel) as (_ & Hl1 & Hl2). rewrite cget_combine. unfold cget in Hw.
      assert (Hd' : let '(a, b, _) := cget d (instance key j) in within (lim_res rl) (a + nb) /\ within (lim_jobs rl) (b + 1)).
      { destruct Hd as [Hd| ->]; [exact (Hd key rl Hsel)|]. rewrite cget_empty. unfold within. lia. }
      destruct (q !! instance key j) as [[[a2 b2] d2]|]; [|done]. cbn [default from_option id add3 within_rule] in Hw.
      destruct (cget d (instance key j)) as [[a1 b1] d1]. cbn [comb]. unfold within in *. lia. }
    split; [apply Hstep; auto|]. intros d Hd. apply Hstep. auto. }
  { intros i d Hd. by apply elem_of_nil in Hd. }
  unfold check_slots_quotas. rewrite El. cbn [rbind]. f_equal. apply sq_check_spec. intros id c Hin.
  apply q_check_spec. intros rl key' key Hf. apply find_applicable_spec in Hf as [Hsel ->]; [|done].
  rewrite cget_update. pose proof (Hl' _ _ Hin key rl Hsel) as Hp. destruct (Hlim _ _ _ Hsel) as (Ht & Hl1 & Hl2).
  destruct Hnm as (Hq & Hpj & Hu).
  destruct (cget c (instance key j)) as [[a1 b1] d1]. destruct (instance key j) as [[[q p] ty] u].
  rewrite tcount_exact by done. match goal with |- context [bool_decide ?X] => destruct (bool_decide X) end;
  cbn [scale3 add3 within_rule]; unfold within in *; rewrite Ht; split_and!; lia.
Qed.
Print Assumptions C23_window_accepted.

(** A job placed by the scheduler leaves, at every instant it runs, the counters of its rule
    (itself included) within the limits. *)
Theorem C23_placed_within_limits_partial : forall cf hy ss ch w min ss' ch' w',
  WF ss -> cache_valid ss ch -> slots_nonneg ss -> job_ok (w_job w) -> named (w_job w) ->
  NoDup (q_job_types (q_env cf)) -> has_type "container" (w_job w) = false -> w_noq w = false ->
  Forall (fun rq => 0 < r_wall rq) (w_rqts w) -> (forall id, proper_rules (conf_rules cf id)) ->
  assign (q_env cf) (Some cf) hy ss ch w min = Ok (ss', ch', w') -> start_time (w_job w') <> -1 ->
  forall t c' q' key rl, start_time (w_job w') <= t < start_time (w_job w') + walltime (w_job w') ->
    content_at ss' t c' -> quotas c' = Some q' ->
    selects (conf_rules cf (quotas_rules_id c')) (q_job_types (q_env cf)) (w_job w') key rl ->
    key_type key ∈ q_job_types (q_env cf) -> key_type key = "*"%string \/ key_type key ∈ (fst <$> jtypes (w_job w')) ->
    within_rule rl (cget q' (instance key (w_job w'))).
Proof.
  intros cf hy ss ch w min ss' ch' w' HW Hv Hnn Hj Hnm HN Hct Hnq Hwall Hpr E Hst t c' q' key rl Ht Hc' Hq' Hsel Hkt Hkm.
  destruct (assign_sound _ _ _ _ _ _ _ _ _ _ HW Hv Hj Hwall E) as (_ & [[-> ->]|(rq & p & x & Hrq & Hp & Htry & -> & HI)]).
  { done. }
  set (j' := w_job (placed w (sb p.1) x rq)) in *.
  unfold eff in Htry. rewrite Hnq in Htry. unfold try_window in Htry.
  apply rbind_Ok in Htry as (X & _ & Htry). apply rbind_Ok in Htry as (r & _ & Htry).
  destruct (nonempty r); [|done]. apply rbind_Ok in Htry as (v & Ev & Htry).
  destruct v; [|congruence..]. assert (r = x) as -> by congruence. clear Htry.
  destruct HI as (HW' & _ & _ & _ & _ & h & Hh & HC). apply HC in Hc' as (c & Hc & Ec'). 
  assert (Hw0 : 0 < r_wall rq) by (rewrite Forall_forall in Hwall; by apply Hwall).
  change (start_time j') with (sb p.1) in *. change (walltime j') with (r_wall rq) in *.
  unfold occ_end in Hh. change (start_time j') with (sb p.1) in Hh. change (walltime j') with (r_wall rq) in Hh.
  replace ((sb p.1 <=? t) && (t <=? h)) with true in Ec' by lia.
  assert (Hj' : job_ok j') by exact Hj.
  destruct (sub_content_full _ _ _ _ (updc_sub_full (q_env cf) j' c Hj')) as (_ & _ & _ & Hqq & Hid). rewrite <- Ec' in Hqq, Hid.
  change (has_type "container" j') with (has_type "container" (w_job w)) in Hqq. rewrite Hct in Hqq.
  destruct (Hnn _ _ Hc) as (q & Eq & _). rewrite Eq, Hq' in Hqq. cbn [fmap option_fmap option_map] in Hqq.
  assert (q' = q_update (q_env cf) j' q) as -> by congruence. rewrite Hid in Hsel.
  destruct Hp as (HL & HR & Hle & Hlen & _).
  assert (Hpp : sb p.1 <= sb p.2) by (pose proof (slot_len _ _ HW HL); pose proof (slot_len _ _ HW HR); lia).
  pose proof (C23_window_within_limits_partial cf ss (w_job w) (nb_counted cf x) (r_wall rq) (sid p.1) (sid p.2) p.1 p.2 HW HL HR Hpp Hnn
     ltac:(unfold nb_counted; lia) ltac:(lia) Ev t c q key rl ltac:(lia) Hc Eq (Hpr _) Hsel Hkt Hkm) as Hlim.
  rewrite cget_q_update; [|exact Hnm|done]. rewrite bool_decide_true; [exact Hlim|].
  split; [by rewrite instance_type|]. exact (selects_key_match _ _ _ _ _ Hsel Hkm).
Qed.
Print Assumptions C23_placed_within_limits_partial.

(** bob is limited to 4 resources: his second job of 3 resources waits for the first to end;
    eve's does not. *)
Definition star4 : qkey := ("*", "*", "*", "*")%string.
Definition ex_rules : rules := [(star4, mkRule (-1) (-1) (-1)); (("*", "*", "*", "bob")%string, mkRule 4 (-1) (-1))].
Definition ex_cf : qconf := mkQconf ex_env ex_rules (fun _ => []).
Definition ex_ssq : slotset :=
  from_ok ex_ss (split_slots_jobs ex_env (ss_of_slot (mkSlot 1 0 0 0 100 (fresh_content true (range 1 8)))) [qjob 9 0 20 (range 1 2) "bob" "p" []] true).
Lemma ex_rules_proper : proper_rules ex_rules.
Proof. split; [by_dec|]. repeat constructor; done. Qed.
Example C23_example :
  (let r := assign ex_env (Some ex_cf) ex_hy ex_ssq ∅ (ex_w 1 [] [] ∅ [ex_rq 1 10 3]) (-1) in
   match r with Ok (_, _, w') => (start_time (w_job w') =? 20) | Err _ => false end &&
   forallb (fun s => match quotas (cont s) with Some q => forallb (fun x => let '(a, b, d) := x in (0 <=? a) && (0 <=? b) && (0 <=? d)) ((map_to_list q).*2) | None => false end) (slots_list ex_ssq)) = true
  /\ selects ex_rules ["*"%string] (w_job (ex_w 1 [] [] ∅ [])) ("*", "*", "*", "bob")%string (mkRule 4 (-1) (-1)).
Proof.
  split; [vm_compute; reflexivity|].
  assert (find_applicable ["*"%string] (init_rule_tree ex_rules) (w_job (ex_w 1 [] [] ∅ [])) =
     Some (mkRule 4 (-1) (-1), ("*", "*", "*", "bob")%string, ("*", "*", "*", "bob")%string)) as H by (vm_compute; reflexivity).
  apply find_applicable_spec in H as [H _]; [done|]. exact ex_rules_proper.
Qed.

(** Full statement without "the type of the rule is one of Quotas.job_types": false.  A rule on a
    job type that the configuration does not list, or on "/", is never enforced. *)
Theorem C23_unlisted_type_refuted : exists cf ss j nb dur key rl,
  WF ss /\ proper_rules (conf_rules cf (-1)) /\
  (forall t c, content_at ss t c -> quotas_rules_id c = -1) /\
  selects (conf_rules cf (-1)) (q_job_types (q_env cf)) j key rl /\
  check_slots_quotas cf (slots ss) 1 1 j nb dur = Ok QOk /\ is_Some (slots ss !! 1) /\
  -1 < lim_res rl < nb.
Proof.
  set (key := ("*", "*", "deploy", "*")%string). set (rl := mkRule 2 (-1) (-1)).
  exists (mkQconf ex_env [(key, rl)] (fun _ => [])), (ss_of_pair true (range 1 8) 0),
    (qjob 1 0 0 ∅ "bob" "p" [("deploy"%string, "true"%string)]), 8, 10, key, rl.
  split. { apply (ss_of_slot_wf 0 MAX_TIME (fresh_content true (range 1 8))); done. }
  assert (Hp : proper_rules [(key, rl)]) by (split; [by_dec|repeat constructor; done]).
  split; [done|]. split.
  { intros t c (i & s & Hi & _ & <-). unfold ss_of_pair in Hi. cbn [slots] in Hi.
    apply lookup_singleton_Some in Hi as [_ <-]. done. }
  split.
  { assert (find_applicable ["*"%string] (init_rule_tree [(key, rl)]) (qjob 1 0 0 ∅ "bob" "p" [("deploy"%string, "true"%string)]) = Some (rl, key, key)) as H
      by (vm_compute; reflexivity).
    apply find_applicable_spec in H as [H _]; done. }
  split; [vm_compute; reflexivity|]. split; [|cbn; lia]. unfold ss_of_pair. cbn [slots]. rewrite lookup_singleton. eauto.
Qed.
Print Assumptions C23_unlisted_type_refuted.

(** * C24: which rule a job is subject to *)
(** A rule applies to a job when each component is "*", "/" or the job's own. *)
Definition applies (k : qkey) (j : job) : Prop :=
  let '(q, p, t, u) := k in
  (q = "*" \/ q = "/" \/ q = jqueue j)%string /\ (p = "*" \/ p = "/" \/ p = jproject j)%string /\
  (t = "*" \/ t = "/" \/ t ∈ (fst <$> jtypes j))%string /\ (u = "*" \/ u = "/" \/ u = juser j)%string.

(** What the code selects, exactly. *)
Theorem C24_selection : forall rs types j, proper_rules rs ->
  (forall r c k, find_applicable types (init_rule_tree rs) j = Some (r, c, k) <-> selects rs types j k r /\ c = instance k j) /\
  (find_applicable types (init_rule_tree rs) j = None <-> forall k r, ~ selects rs types j k r).
Proof.
  intros rs types j Hp. split; [intros; by apply find_applicable_spec|]. split.
  - intros E k r Hs. assert (find_applicable types (init_rule_tree rs) j = Some (r, instance k j, k)) by (by apply find_applicable_spec). congruence.
  - intros H. destruct (find_applicable _ _ _) as [[[r c] k]|] eqn:E; [|done].
    apply find_applicable_spec in E as [E _]; [|done]. by apply H in E.
Qed.
Print Assumptions C24_selection.

(** Full statement: if some rule of the set applies to the job, a rule is selected.  False: the
    search does not go back to "*" when a more specific branch leads nowhere ... *)
Theorem C24_found_refuted : exists rs types j k r,
  proper_rules rs /\ (k, r) ∈ rs /\ applies k j /\ find_applicable types (init_rule_tree rs) j = None.
Proof.
  exists [(("default", "projA", "*", "*")%string, mkRule 10 (-1) (-1)); (("*", "*", "*", "bob")%string, mkRule 2 (-1) (-1))], ["*"%string],
    (qjob 1 0 0 ∅ "bob" "projB" []), ("*", "*", "*", "bob")%string, (mkRule 2 (-1) (-1)).
  split; [split; [by_dec|repeat constructor; done]|]. split; [right; by left|]. split; [cbn; auto 10|]. vm_compute. reflexivity.
Qed.
Print Assumptions C24_found_refuted.
(** ... and only the first type of the job is looked at. *)
Theorem C24_second_type_refuted : exists rs types j k r,
  proper_rules rs /\ (k, r) ∈ rs /\ applies k j /\ key_type k ∈ types /\ find_applicable types (init_rule_tree rs) j = None.
Proof.
  exists [(("*", "*", "besteffort", "*")%string, mkRule 10 (-1) (-1))], ["*"; "besteffort"]%string,
    (qjob 1 0 0 ∅ "bob" "projB" [("timesharing"%string, ""%string); ("besteffort"%string, "true"%string)]), ("*", "*", "besteffort", "*")%string, (mkRule 10 (-1) (-1)).
  split; [split; [by_dec|repeat constructor; done]|]. split; [by left|]. split; [|split; [by_dec|vm_compute; reflexivity]].
  unfold applies. split; [auto|]. split; [auto|]. split; [|auto]. right. right. by_dec.
Qed.
Print Assumptions C24_second_type_refuted.

(** Proved: when every branch of the rule set has its "*" rule, every job is subject to a rule, and
    the rule selected always applies to the job (or to the first configured type). *)
Definition closed_rules (rs : rules) : Prop :=
  (exists r, (star4, r) ∈ rs) /\
  forall q p t u r, ((q, p, t, u), r) ∈ rs ->
    (exists r, ((q, "*", "*", "*")%string, r) ∈ rs) /\ (exists r, ((q, p, "*", "*")%string, r) ∈ rs) /\ (exists r, ((q, p, t, "*")%string, r) ∈ rs).

Lemma pick_ex (rs : rules) (P : string -> Prop) v : (forall x, P x \/ ~ P x) -> P "*"%string -> exists k, pick P v k.
Proof.
  intros Hdec Hs. unfold pick. destruct (Hdec v) as [H|H]; [eauto|]. destruct (Hdec "/"%string); [eauto 6|]. eauto 10.
Qed.

Theorem C24_found_partial : forall rs types j, proper_rules rs -> closed_rules rs -> types <> [] ->
  exists r c k, find_applicable types (init_rule_tree rs) j = Some (r, c, k) /\ (k, r) ∈ rs /\ c = instance k j.
Proof.
  intros rs types j Hp [[r0 H0] Hcl] Ht.
  destruct (tree_spec rs (proj1 Hp)) as (T1 & T2 & T3 & T4).
  destruct (pick_ex rs (fun q => exists p t u r, ((q, p, t, u), r) ∈ rs) (jqueue j)) as [kq P1].
  { intros x. rewrite <- T1. destruct (_ !! x); [left; eauto|right]. intros []; done. } { unfold star4 in H0. eauto 6. }
  destruct (pick_seen _ _ _ P1) as (p1 & t1 & u1 & r1 & H1).
  destruct (pick_ex rs (fun p => exists t u r, ((kq, p, t, u), r) ∈ rs) (jproject j)) as [kp P2].
  { intros x. rewrite <- T2. destruct (_ !! x); [left; eauto|right]. intros []; done. }
  { destruct (Hcl _ _ _ _ _ H1) as ([r2 ?] & _). eauto 6. }
  destruct (pick_seen _ _ _ P2) as (t2 & u2 & r2 & H2).
  assert (exists t0, head ((fst <$> jtypes j) ++ types) = Some t0) as [t0 Et].
  { destruct ((fst <$> jtypes j) ++ types) eqn:E; [|cbn; eauto]. apply app_eq_nil in E as [_ ?]. done. }
  destruct (pick_ex rs (fun t => exists u r, ((kq, kp, t, u), r) ∈ rs) t0) as [kt P3].
  { intros x. rewrite <- T3. destruct (_ !! x); [left; eauto|right]. intros []; done. }
  { destruct (Hcl _ _ _ _ _ H2) as (_ & [r3 ?] & _). eauto 6. }
  destruct (pick_seen _ _ _ P3) as (u3 & r3 & H3).
  destruct (pick_ex rs (fun u => exists r, ((kq, kp, kt, u), r) ∈ rs) (juser j)) as [ku P4].
  { intros x. setoid_rewrite <- T4. destruct (_ !! x); [left; eauto|right]. intros []; done. }
  { destruct (Hcl _ _ _ _ _ H3) as (_ & _ & [r4 ?]). eauto 6. }
  destruct (pick_seen _ _ _ P4) as (r4 & H4).
  exists r4, (instance (kq, kp, kt, ku) j), (kq, kp, kt, ku). split; [|done]. apply find_applicable_spec; [done|]. split; [|done].
  split; [done|]. split; [done|]. split; [done|]. split; [|done]. eauto.
Qed.
Print Assumptions C24_found_partial.

Theorem C24_selected_applies : forall rs types j r c k, proper_rules rs ->
  find_applicable types (init_rule_tree rs) j = Some (r, c, k) -> jtypes j <> [] \/ head types = Some "*"%string ->
  (k, r) ∈ rs /\ applies k j.
Proof.
  intros rs types j r c k Hp E Hh. apply find_applicable_spec in E as [Hs _]; [|done].
  destruct k as [[[kq kp] kt] ku]. destruct Hs as (Hin & P1 & P2 & (t0 & Et & P3) & P4). split; [done|].
  assert (H : forall P v k, pick P v k -> k = "*"%string \/ k = "/"%string \/ k = v).
  { intros P v k. intros [[_ ->]|[(_ & _ & ->)|(_ & _ & _ & ->)]]; auto. }
  split; [by eapply H|]. split; [by eapply H|]. split; [|by eapply H].
  apply H in P3 as [->|[->| ->]]; [auto|auto|].
  destruct (jtypes j) as [|[ty v] tys] eqn:Ej.
  - destruct Hh as [?|Hh]; [done|]. cbn in Et. left. congruence.
  - cbn in Et. right. right. cbn. injection Et as <-. by left.
Qed.
Print Assumptions C24_selected_applies.
Example C24_example : closed_rules ex_rules /\ proper_rules ex_rules /\
  find_applicable ["*"%string] (init_rule_tree ex_rules) (qjob 1 0 0 ∅ "eve" "p" []) = Some (mkRule (-1) (-1) (-1), star4, star4).
Proof.
  split; [|split; [exact ex_rules_proper|vm_compute; reflexivity]]. split; [eexists; by left|].
  intros q p t u r H. unfold ex_rules, star4 in *. apply elem_of_cons in H as [H|H]; [|apply elem_of_list_singleton in H];
  (assert (q = "*" /\ p = "*" /\ t = "*")%string as (-> & -> & ->) by (split_and!; congruence)); split_and!; eexists; by left.
Qed.

(** * C25: resource-seconds *)
(** Full statement: the resource-time compared with the limit is that of each job counted once.
    False: on a window of two slots a job present in both is counted twice, and a window within
    the limit at every instant, even for the total of all the jobs, is refused. *)
Definition ex_cf25 : qconf := mkQconf ex_env [(star4, mkRule (-1) (-1) 100)] (fun _ => []).
Definition ex_jobs25 : list job := [qjob 1 0 60 (range 1 1) "bob" "p" []].
Definition ex_ss25 : slotset :=
  from_ok ex_ss (run_slot_ops ex_env (ss_of_slot (mkSlot 1 0 0 0 99 (fresh_content true (range 1 8))))
                   [OpSplitSlotsJobs ex_jobs25 true; OpFindAndSplit 30]).
Lemma contents_all ss (P : content -> bool) : forallb (fun s => P (cont s)) (slots_list ss) = true ->
  forall t c, content_at ss t c -> P c = true.
Proof. intros H t c (i & s & Hi & _ & <-). exact (slots_all ss (fun s => P (cont s)) H i s Hi). Qed.

Theorem C25_counted_once_refuted : exists cf ss jobs j nb dur i k rl,
  WF ss /\ conf_rules cf (-1) = [(star4, rl)] /\
  (forall t c, content_at ss t c -> quotas_rules_id c = -1) /\
  (forall t c, content_at ss t c -> exists q, quotas c = Some q /\ le3 (cget q star4) (consumed (q_env cf) jobs star4)) /\
  within_rule rl (add3 (consumed (q_env cf) jobs star4) (nb, 1, nb * dur)) /\
  check_slots_quotas cf (slots ss) i k j nb dur = Ok (QTime (lim_time rl)).
Proof.
  exists ex_cf25, ex_ss25, ex_jobs25, (qjob 2 0 0 ∅ "eve" "p" []), 1, 40, 1, 3, (mkRule (-1) (-1) 100).
  split.
  { refine (proj1 (run_slot_ops_wf ex_env [OpSplitSlotsJobs ex_jobs25 true; OpFindAndSplit 30] _ _ (ss_of_slot_wf 0 99 (fresh_content true (range 1 8)) _) _)); [lia|].
    apply from_ok_eq. vm_compute. reflexivity. }
  split; [done|]. split.
  { intros t c Hc. apply Z.eqb_eq. revert t c Hc. apply (contents_all ex_ss25 (fun c => quotas_rules_id c =? -1)). vm_compute. reflexivity. }
  split.
  { intros t c Hc.
    set (P := fun c => match quotas c with Some q => let '(a, b, d) := cget q star4 in (a <=? 1) && (b <=? 1) && (d <=? 60) | None => false end).
    assert (H : P c = true) by (revert t c Hc; apply contents_all; vm_compute; reflexivity).
    unfold P in H. destruct (quotas c) as [q|]; [|done]. exists q. split; [done|].
    assert (consumed (q_env ex_cf25) ex_jobs25 star4 = (1, 1, 60)) as -> by (vm_compute; reflexivity).
    destruct (cget q star4) as [[a b] d]. cbn [le3]. lia. }
  split; [|vm_compute; reflexivity].
  assert (consumed (q_env ex_cf25) ex_jobs25 star4 = (1, 1, 60)) as -> by (vm_compute; reflexivity).
  cbn [add3 within_rule lim_res lim_jobs lim_time]. unfold within. lia.
Qed.
Print Assumptions C25_counted_once_refuted.

(** Proved: on a window of one slot the check is exact, resource-seconds included.  (On longer
    windows it errs on the safe side: C23_window_within_limits_partial.) *)
Theorem C25_counted_once_partial : forall cf ss j nb dur i s q,
  slots ss !! i = Some s -> quotas (cont s) = Some q -> nonneg q ->
  NoDup (q_job_types (q_env cf)) -> named j ->
  let rs := conf_rules cf (quotas_rules_id (cont s)) in
  proper_rules rs ->
  (forall key rl, selects rs (q_job_types (q_env cf)) j key rl ->
     key_type key ∈ q_job_types (q_env cf) /\ (key_type key = "*"%string \/ key_type key ∈ (fst <$> jtypes j))) ->
  exists v, check_slots_quotas cf (slots ss) i i j nb dur = Ok v /\
    (v = QOk <-> forall key rl, selects rs (q_job_types (q_env cf)) j key rl ->
       within_rule rl (add3 (cget q (instance key j)) (nb, 1, nb * dur))).
Proof.
  intros cf ss j nb dur i s q Hs Eq Hq HN Hnm rs Hp Htr.
  unfold check_slots_quotas. cbn [sq_loop]. unfold dget. rewrite Hs. cbn [rbind]. rewrite Eq. cbn [attr rbind]. rewrite Z.eqb_refl.
  cbn [rbind]. eexists. split; [done|]. rewrite sq_check_spec. cbn [sq_add].
  assert (Hcomb : forall k, cget (q_combine ∅ q) k = cget q k).
  { intros k. rewrite cget_combine, cget_empty. specialize (Hq k). unfold cget in *.
    destruct (q !! k) as [[[a b] d]|]; [|done]. cbn [default from_option id comb] in *. t3. }
  assert (Hone : forall key rl, selects rs (q_job_types (q_env cf)) j key rl ->
    cget (q_update_with (q_job_types (q_env cf)) (jqueue j) (jproject j) (juser j) (fst <$> jtypes j) nb dur (q_combine ∅ q)) (instance key j)
    = add3 (cget q (instance key j)) (nb, 1, nb * dur)).
  { intros key rl Hsel. rewrite cget_update, Hcomb. apply (f_equal (add3 _)).
    destruct (Htr _ _ Hsel) as [H1 H2]. pose proof (selects_key_match _ _ _ _ _ Hsel H2) as Hm. rewrite <- (instance_type key j) in H1.
    destruct Hnm as (N1 & N2 & N3). destruct (instance key j) as [[[a b] t] u]. cbn [key_type] in H1. destruct Hm as (M1 & M2 & M3 & M4).
    rewrite tcount_exact by done. rewrite bool_decide_true by tauto. cbn [scale3]. t3. }
  split.
  - intros H key rl Hsel. rewrite <- (Hone key rl Hsel).
    specialize (H (quotas_rules_id (cont s)) (q_combine ∅ q) ltac:(by left)). rewrite q_check_spec in H.
    apply (H rl (instance key j) key). by apply find_applicable_spec.
  - intros H id c Hin. apply elem_of_list_singleton in Hin. assert (id = quotas_rules_id (cont s) /\ c = q_combine ∅ q) as [-> ->] by (split; congruence).
    apply q_check_spec. intros r k k0 Hf. apply find_applicable_spec in Hf as [Hsel ->]; [|done]. rewrite (Hone k0 r Hsel). by apply H.
Qed.
Print Assumptions C25_counted_once_partial.
Example C25_example :
  (forall t, conf_rules ex_cf25 t = [(star4, mkRule (-1) (-1) 100)]) /\ proper_rules [(star4, mkRule (-1) (-1) 100)] /\
  check_slots_quotas ex_cf25 (slots ex_ss25) 3 3 (qjob 2 0 0 ∅ "eve" "p" []) 1 40 = Ok QOk /\
  check_slots_quotas ex_cf25 (slots ex_ss25) 3 3 (qjob 2 0 0 ∅ "eve" "p" []) 1 41 = Ok (QTime 100).
Proof.
  split; [done|]. split; [split; [by_dec|repeat constructor; done]|]. split; vm_compute; reflexivity.
Qed.
