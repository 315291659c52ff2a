(** Property theorems about slot sets (C01-C05, C07-C10). *)
From Verif Require Import Base SlotModel SlotSpec SlotProofs SlotJobs SlotLookup SlotOps SlotCheck.

(** * C01: the slots always partition the time range *)
Theorem C01_partition : forall env b e c ops ss',
  b <= e ->
  run_slot_ops env (ss_of_slot (mkSlot 1 0 0 b e c)) ops = Ok ss' ->
  exists l, Repr ss' l /\ begin_ ss' = b /\ end_ ss' = e.
Proof.
  intros env b e c ops ss' H E.
  destruct (run_slot_ops_wf env ops _ _ (ss_of_slot_wf b e c H) E) as ([l HR] & Hb & He).
  exists l. split; [exact HR|]. split; [exact Hb|exact He].
Qed.
Print Assumptions C01_partition.

(** Every instant of the range is in exactly one slot. *)
Theorem C01_one_slot_per_instant : forall env b e c ops ss' t,
  b <= e ->
  run_slot_ops env (ss_of_slot (mkSlot 1 0 0 b e c)) ops = Ok ss' ->
  b <= t <= e ->
  exists! s, slots ss' !! sid s = Some s /\ sb s <= t <= se s.
Proof.
  intros env b e c ops ss' t H E Ht.
  destruct (C01_partition env b e c ops ss' H E) as (l & HR & <- & <-).
  destruct (contig_cover _ _ _ _ (repr_contig _ _ HR) Ht) as (s & Hs & Hst).
  exists s. split; [split; [eapply repr_lookup; eauto|done]|].
  intros s' [Hs' Hst']. apply (repr_elem _ _ _ _ HR) in Hs' as [Hs' _].
  eapply (contig_unique _ _ _ t); eauto using repr_contig.
Qed.
Print Assumptions C01_one_slot_per_instant.

(** A job used in the examples. *)
Definition ex_job (i st w : Z) (rs : procset) : job :=
  mkJob i st w rs false None None 0 None "" "u" "default" "p" [].
Definition ex_env : qenv := mkQenv (range 1 8) ["*"%string].
Definition ex_ss : slotset := ss_of_pair false (range 1 8) 0.
(** A slot set of several slots, obtained through the API. *)
Definition ex_ss3 : slotset :=
  from_ok ex_ss (split_slots_jobs ex_env ex_ss [ex_job 1 5 10 (range 1 4); ex_job 2 10 10 (range 5 6)] true).

Example C01_example : exists ss',
  run_slot_ops ex_env (ss_of_slot (mkSlot 1 0 0 0 100 (fresh_content false (range 1 8))))
    [OpSplitSlotsJobs [ex_job 1 5 10 (range 1 4)] true; OpSplitBefore 1 7; OpFindAndSplit 20;
     OpSplitSlotsJobs [ex_job 1 3 4 (range 2 2)] false] = Ok ss' /\ size (slots ss') = 6%nat.
Proof. eexists. split; [apply (from_ok_eq ex_ss); vm_compute; reflexivity|]. vm_compute. reflexivity. Qed.

Lemma ex_ss3_eq :
  split_slots_jobs ex_env ex_ss [ex_job 1 5 10 (range 1 4); ex_job 2 10 10 (range 5 6)] true = Ok ex_ss3.
Proof. apply from_ok_eq. vm_compute. reflexivity. Qed.

Lemma ex_ss_WF : WF ex_ss.
Proof. apply ss_of_pair_wf. unfold MAX_TIME. lia. Qed.

Lemma ex_ss3_WF : WF ex_ss3.
Proof.
  assert (E' : run_slot_ops ex_env ex_ss [OpSplitSlotsJobs [ex_job 1 5 10 (range 1 4); ex_job 2 10 10 (range 5 6)] true] = Ok ex_ss3)
    by (cbn [run_slot_ops slot_step]; rewrite ex_ss3_eq; reflexivity).
  exact (proj1 (run_slot_ops_wf _ _ _ _ ex_ss_WF E')).
Qed.

(** * C02: splitting keeps the content *)
Theorem C02_split_before : forall ss k s date,
  WF ss -> slots ss !! k = Some s -> sb s <= date <= se s ->
  exists ss' i j, split_at_before ss k date = Ok (ss', (i, j)) /\
    WF ss' /\ begin_ ss' = begin_ ss /\ end_ ss' = end_ ss /\
    (forall t c, content_at ss' t c <-> content_at ss t c) /\
    (sb s < se s -> exists n x, slots ss' !! n = Some x /\ sb x = date).
Proof.
  intros ss k s date HW Hk Hd.
  destruct (sa_before_accepts ss k s date HW Hk Hd) as (ss' & i & j & E).
  exists ss', i, j. destruct (sa_before _ _ _ _ _ _ HW E) as (H1 & H2 & H3 & H4 & (a & b & Ha & Hb & H5)).
  split; [done|]. split; [done|]. split; [done|]. split; [done|]. split; [done|].
  intros _. destruct H5 as [(_ & _ & H5)|(_ & _ & _ & [H5|[H5 _]])]; eauto.
Qed.
Print Assumptions C02_split_before.

Theorem C02_split_after : forall ss k s date,
  WF ss -> slots ss !! k = Some s -> sb s <= date <= se s ->
  exists ss' i j, split_at_after ss k date = Ok (ss', (i, j)) /\
    WF ss' /\ begin_ ss' = begin_ ss /\ end_ ss' = end_ ss /\
    (forall t c, content_at ss' t c <-> content_at ss t c) /\
    (sb s < se s -> exists n x, slots ss' !! n = Some x /\ sb x = date).
Proof.
  intros ss k s date HW Hk Hd.
  destruct (sa_after_accepts ss k s date HW Hk Hd) as (ss' & i & j & E).
  exists ss', i, j. destruct (sa_after _ _ _ _ _ _ HW E) as (H1 & H2 & H3 & H4 & (a & b & Ha & Hb & H5)).
  split; [done|]. split; [done|]. split; [done|]. split; [done|]. split; [done|].
  intros _. destruct H5 as [(_ & _ & H5)|(_ & _ & _ & [H5|[H5 _]])]; eauto.
Qed.
Print Assumptions C02_split_after.

(** The two slots whose numbers are returned are the two halves: neighbours in the chain,
    meeting at the date (or the single one-second slot at the date). *)
Theorem C02_halves : forall ss k date ss' i j,
  WF ss ->
  split_at_before ss k date = Ok (ss', (i, j)) \/ split_at_after ss k date = Ok (ss', (i, j)) ->
  exists a b, slots ss' !! i = Some a /\ slots ss' !! j = Some b /\
     ((i = j /\ sb a = date /\ se a = date) \/
      (sb b = se a + 1 /\ next a = j /\ prev b = i /\ (sb b = date \/ (sb a = date /\ se a = date)))).
Proof.
  intros ss k date ss' i j HW [E|E];
    [apply sa_before in E as (_ & _ & _ & _ & (a & b & Ha & Hb & H5))
    |apply sa_after in E as (_ & _ & _ & _ & (a & b & Ha & Hb & H5))]; try done;
    exists a, b; (split; [done|]; split; [done|]); destruct H5 as [(H5 & H6 & H7)|H5]; [left; lia|auto|left; lia|auto].
Qed.
Print Assumptions C02_halves.

Example C02_example : exists s, WF ex_ss3 /\ slots ex_ss3 !! 2 = Some s /\ sb s <= 2 <= se s /\ sb s < se s.
Proof.
  exists (slot_of ex_ss3 2). split; [exact ex_ss3_WF|]. split; [apply slot_of_eq; vm_compute; reflexivity|].
  vm_compute. intuition congruence.
Qed.

(** * C03: inserting a job removes its resources during its whole window *)
Theorem C03_insert_job : forall env ss j,
  WF ss -> job_ok j -> 0 <= walltime j ->
  exists ss', split_slots_jobs env ss [j] true = Ok ss' /\
    WF ss' /\ begin_ ss' = begin_ ss /\ end_ ss' = end_ ss /\
    (forall t r, r ∈ res_set j -> start_time j <= t < start_time j + walltime j -> ~ free_at ss' t r) /\
    (forall t r, r ∉ res_set j -> (free_at ss' t r <-> free_at ss t r)) /\
    (forall t c, t < start_time j \/ start_time j + walltime j < t ->
       (content_at ss' t c <-> content_at ss t c)).
Proof.
  intros env ss j HW Hj Hw.
  destruct (split_slots_jobs_one env true j ss HW Hj Hw) as (ss' & h & E & HW' & Hb & He & Hh & _ & HC).
  exists ss'. split; [done|]. split; [done|]. split; [done|]. split; [done|]. unfold occ_end in Hh.
  split; [|split].
  - intros t r Hr Ht (c' & Hc' & Hr'). apply HC in Hc' as (c & Hc & ->).
    replace ((start_time j <=? t) && (t <=? h)) with true in Hr' by lia.
    rewrite updc_sub_itvs in Hr' by done. apply elem_of_difference in Hr' as [_ Hr']. done.
  - intros t r Hr. unfold free_at. setoid_rewrite HC. split.
    + intros (c' & (c & Hc & ->) & Hr'). exists c. split; [done|].
      destruct (_ && _); [|done]. rewrite updc_sub_itvs in Hr' by done. apply elem_of_difference in Hr'. tauto.
    + intros (c & Hc & Hr'). eexists. split; [eauto|].
      destruct (_ && _); [|done]. rewrite updc_sub_itvs by done. apply elem_of_difference. tauto.
  - intros t c Ht. rewrite HC. replace ((start_time j <=? t) && (t <=? h)) with false by lia.
    split; [intros (c0 & Hc0 & ->); done|eauto].
Qed.
Print Assumptions C03_insert_job.

(** Removing (adding back) a plain job's resources makes them available during the window. *)
Theorem C03_add_job : forall env ss j,
  WF ss -> plain j -> 0 <= walltime j ->
  exists ss', split_slots_jobs env ss [j] false = Ok ss' /\
    WF ss' /\ begin_ ss' = begin_ ss /\ end_ ss' = end_ ss /\
    (forall t r, r ∈ res_set j -> start_time j <= t < start_time j + walltime j ->
        begin_ ss <= t <= end_ ss -> free_at ss' t r) /\
    (forall t r, r ∉ res_set j -> (free_at ss' t r <-> free_at ss t r)) /\
    (forall t r, free_at ss t r -> free_at ss' t r) /\
    (forall t c, t < start_time j \/ start_time j + walltime j < t ->
       (content_at ss' t c <-> content_at ss t c)).
Proof.
  intros env ss j HW [Hts Hph] Hw.
  assert (Hj : job_ok j).
  { unfold job_ok. rewrite Hts, Hph. split; [done|]. intros [H|H]; vm_compute in H; done. }
  assert (Hadd : forall c, itvs (updc env false j c) = itvs c ∪ res_set j).
  { intros c. rewrite updc_add_itvs by done. rewrite Hts, Hph. done. }
  destruct (split_slots_jobs_one env false j ss HW Hj Hw) as (ss' & h & E & HW' & Hb & He & Hh & _ & HC).
  exists ss'. split; [done|]. split; [done|]. split; [done|]. split; [done|]. unfold occ_end in Hh.
  split; [|split; [|split]].
  - intros t r Hr Ht Hbt. destruct HW as [l HR].
    destruct (cat_total _ _ _ t (repr_contig _ _ HR)) as [c Hc]; [lia|].
    rewrite <- (content_at_cat _ _ _ _ HR) in Hc.
    eexists. split; [apply HC; eauto|].
    replace ((start_time j <=? t) && (t <=? h)) with true by lia. rewrite Hadd. apply elem_of_union. auto.
  - intros t r Hr. unfold free_at. setoid_rewrite HC. split.
    + intros (c' & (c & Hc & ->) & Hr'). exists c. split; [done|].
      destruct (_ && _); [|done]. rewrite Hadd in Hr'. apply elem_of_union in Hr' as [?|?]; done.
    + intros (c & Hc & Hr'). eexists. split; [eauto|].
      destruct (_ && _); [|done]. rewrite Hadd. apply elem_of_union. tauto.
  - intros t r (c & Hc & Hr). eexists. split; [apply HC; eauto|].
    destruct (_ && _); [|done]. rewrite Hadd. apply elem_of_union. tauto.
  - intros t c Ht. rewrite HC. replace ((start_time j <=? t) && (t <=? h)) with false by lia.
    split; [intros (c0 & Hc0 & ->); done|eauto].
Qed.
Print Assumptions C03_add_job.

Example C03_example : WF ex_ss3 /\ job_ok (ex_job 3 12 6 (range 7 8)) /\ free_at ex_ss3 12 7.
Proof.
  split; [exact ex_ss3_WF|]. split; [split; [done|intros [H|H]; vm_compute in H; done]|].
  apply free_b_true. vm_compute. reflexivity.
Qed.

(** * C04: resources are free again at start + walltime *)
(** Full statement: for every well-formed slot set and job (walltime >= 1, not already finished
    when the slot set begins), at start+walltime the availability is unchanged.  It is false:
    when a slot ends exactly at start+walltime that whole slot is taken. *)
Theorem C04_end_refuted : exists env ss j ss' t r,
  WF ss /\ plain j /\ 1 <= walltime j /\ begin_ ss <= start_time j /\
  split_slots_jobs env ss [j] true = Ok ss' /\
  t = start_time j + walltime j /\ free_at ss t r /\ ~ free_at ss' t r.
Proof.
  (* slots [0..4] [5..9] [10..14] [15..19] [20..]: the job at 10 lasting 4 seconds ends in a
     slot whose last second is 14 = 10 + 4 *)
  set (ss' := from_ok ex_ss3 (split_slots_jobs ex_env ex_ss3 [ex_job 3 10 4 (range 7 8)] true)).
  exists ex_env, ex_ss3, (ex_job 3 10 4 (range 7 8)), ss', 14, 7.
  split; [exact ex_ss3_WF|]. split; [split; reflexivity|]. split; [cbn; lia|].
  split; [vm_compute; congruence|].
  split; [apply from_ok_eq; vm_compute; reflexivity|]. split; [reflexivity|]. split.
  - apply free_b_true. vm_compute. reflexivity.
  - apply free_b_false. vm_compute. reflexivity.
Qed.
Print Assumptions C04_end_refuted.

(** Proved part: exact when no slot ends exactly at start + walltime. *)
Theorem C04_end_partial : forall env ss j,
  WF ss -> job_ok j -> 1 <= walltime j -> start_time j + walltime j <> begin_ ss ->
  (forall k x, slots ss !! k = Some x -> se x <> start_time j + walltime j) ->
  exists ss', split_slots_jobs env ss [j] true = Ok ss' /\ WF ss' /\
    forall t r, free_at ss' t r <->
       free_at ss t r /\ (start_time j <= t < start_time j + walltime j -> r ∉ res_set j).
Proof. exact (fun env ss j => insert_one_free_exact env j ss). Qed.
Print Assumptions C04_end_partial.

Example C04_example : 
  (forall k x, slots ex_ss3 !! k = Some x -> se x <> 12 + 6) /\ 12 + 6 <> begin_ ex_ss3.
Proof.
  split; [|vm_compute; congruence]. intros k x Hk E.
  assert (Hn : negb (se x =? 18) = true).
  { apply (slots_all ex_ss3 (fun x => negb (se x =? 18))) with k; [vm_compute; reflexivity|exact Hk]. }
  lia.
Qed.

(** * C05: a list of jobs sorted by start time *)
Theorem C05_insert_sorted : forall env ss jobs,
  WF ss -> Forall job_ok jobs -> Forall (fun j => 0 <= walltime j) jobs ->
  StronglySorted (fun a b => start_time a <= start_time b) jobs ->
  exists ss', split_slots_jobs env ss jobs true = Ok ss' /\
    WF ss' /\ begin_ ss' = begin_ ss /\ end_ ss' = end_ ss /\
    (forall t r, free_at ss' t r ->
       free_at ss t r /\
       forall j, j ∈ jobs -> start_time j <= t < start_time j + walltime j -> r ∉ res_set j) /\
    (forall t r, free_at ss t r ->
       (forall j, j ∈ jobs -> start_time j <= t <= start_time j + walltime j -> r ∉ res_set j) ->
       free_at ss' t r).
Proof. exact (fun env ss jobs => insert_jobs_free env jobs ss). Qed.
Print Assumptions C05_insert_sorted.

Example C05_example : WF ex_ss /\
  StronglySorted (fun a b => start_time a <= start_time b)
    [ex_job 1 5 10 (range 1 4); ex_job 2 5 3 (range 7 8); ex_job 3 10 10 (range 5 6)].
Proof.
  split; [exact ex_ss_WF|].
  repeat constructor; cbn; lia.
Qed.

(** * C07: the slot at a date *)
Theorem C07_slot_at : forall ss date,
  WF ss ->
  (exists i, slot_id_at (slots ss) date 0 = Ok i) /\
  (forall i, slot_id_at (slots ss) date 0 = Ok i -> i <> 0 ->
     exists s, slots ss !! i = Some s /\ sb s <= date <= se s) /\
  (slot_id_at (slots ss) date 0 = Ok 0 <-> date < begin_ ss \/ end_ ss < date).
Proof.
  intros ss date HW. destruct (slot_id_at_spec ss date HW) as (H1 & H2 & H3). auto.
Qed.
Print Assumptions C07_slot_at.

(** Same with an explicit starting slot: dates before that slot are reported as absent. *)
Theorem C07_slot_at_from : forall ss k s date,
  WF ss -> slots ss !! k = Some s ->
  (exists i, slot_id_at (slots ss) date k = Ok i) /\
  (forall i, slot_id_at (slots ss) date k = Ok i -> i <> 0 ->
     exists x, slots ss !! i = Some x /\ sb x <= date <= se x) /\
  (slot_id_at (slots ss) date k = Ok 0 <-> date < sb s \/ end_ ss < date).
Proof.
  intros ss k s date [l H] Hk. apply (repr_elem _ _ _ _ H) in Hk as [Hs <-].
  apply elem_of_list_split in Hs as (l1 & l2 & ->).
  destruct (slot_id_at_from ss l1 s l2 date H) as [[Hr (x & Hx & Hd & E)]|[Hr E]].
  - assert (Hx' : x ∈ l1 ++ s :: l2) by (apply elem_of_app; auto).
    split; [eauto|]. split.
    + intros i Hi _. rewrite E in Hi. injection Hi as <-. exists x. split; [eapply repr_lookup; eauto|done].
    + split; [|lia]. intros E'. rewrite E in E'. injection E' as E'.
      pose proof (repr_nz _ _ _ H Hx'). done.
  - split; [eauto|]. split.
    + intros i Hi Hnz. rewrite E in Hi. injection Hi as <-. done.
    + split; [lia|done].
Qed.
Print Assumptions C07_slot_at_from.

(** The pair of slots containing both ends of a date range. *)
Theorem C07_encompassing_range : forall ss start stop,
  WF ss -> begin_ ss <= start -> start <= stop -> stop <= end_ ss ->
  exists f e sf sl, get_encompassing_range (slots ss) start stop = Ok (f, e) /\
    slots ss !! f = Some sf /\ sb sf <= start <= se sf /\
    slots ss !! e = Some sl /\ sb sl <= stop <= se sl.
Proof. exact get_encompassing_range_spec. Qed.
Print Assumptions C07_encompassing_range.

Example C07_example : WF ex_ss3 /\ slot_id_at (slots ex_ss3) 12 0 = Ok 1 /\ slot_id_at (slots ex_ss3) (-1) 0 = Ok 0.
Proof. split; [exact ex_ss3_WF|]. split; vm_compute; reflexivity. Qed.

(** * C08: window intersection *)
Theorem C08_intersection : forall ss i k L R,
  WF ss -> slots ss !! i = Some L -> slots ss !! k = Some R -> sb L <= sb R ->
  exists x, intersec_itvs_slots (slots ss) i k = Ok x /\
    forall r, r ∈ x <-> forall t, sb L <= t <= se R -> free_at ss t r.
Proof. exact intersec_WF. Qed.
Print Assumptions C08_intersection.

Example C08_example : exists L R x, WF ex_ss3 /\ slots ex_ss3 !! 2 = Some L /\ slots ex_ss3 !! 5 = Some R /\
  sb L < sb R /\ intersec_itvs_slots (slots ex_ss3) 2 5 = Ok x /\ 7 ∈ x /\ 1 ∉ x.
Proof.
  exists (slot_of ex_ss3 2), (slot_of ex_ss3 5). eexists.
  split; [exact ex_ss3_WF|]. do 2 (split; [apply slot_of_eq; vm_compute; reflexivity|]).
  split; [vm_compute; reflexivity|]. split; [apply (from_ok_eq ∅); vm_compute; reflexivity|].
  split; [eapply bool_decide_eq_true_1|eapply bool_decide_eq_false_1]; vm_compute; reflexivity.
Qed.

(** * C09: time-sharing / placeholder windows *)
(** Full statement: every resource offered for a window is, in every slot of the window, free or
    shareable with the job.  False: a slot that offers nothing is forgotten. *)
Definition ts_job : job :=
  mkJob 9 0 0 ∅ true (Some "u"%string) (Some "n"%string) 0 None "n" "u" "default" "p" [].
(* A busy period [0..9] (everything taken by job 1), then everything free. *)
Definition busy_ss : slotset :=
  from_ok ex_ss (split_slots_jobs ex_env ex_ss [ex_job 1 0 10 (range 1 8)] true).

Lemma busy_ss_WF : WF busy_ss.
Proof.
  assert (E : split_slots_jobs ex_env ex_ss [ex_job 1 0 10 (range 1 8)] true = Ok busy_ss)
    by (apply from_ok_eq; vm_compute; reflexivity).
  assert (E' : run_slot_ops ex_env ex_ss [OpSplitSlotsJobs [ex_job 1 0 10 (range 1 8)] true] = Ok busy_ss)
    by (cbn [run_slot_ops slot_step]; rewrite E; reflexivity).
  exact (proj1 (run_slot_ops_wf _ _ _ _ ex_ss_WF E')).
Qed.

Theorem C09_window_refuted : exists ss j i k L R x r t,
  WF ss /\ job_ok j /\ slots ss !! i = Some L /\ slots ss !! k = Some R /\ sb L <= sb R /\
  intersec_ts_ph_itvs_slots (slots ss) i k j = Ok x /\
  r ∈ x /\ sb L <= t <= se R /\ ~ (exists c, content_at ss t c /\ usable_by j c r).
Proof.
  exists busy_ss, ts_job, 1, 2, (slot_of busy_ss 1), (slot_of busy_ss 2). eexists. exists 3, 5.
  split; [exact busy_ss_WF|].
  split; [split; [intros _; split; eauto|intros [H|H]; vm_compute in H; done]|].
  do 2 (split; [apply slot_of_eq; vm_compute; reflexivity|]).
  split; [vm_compute; congruence|].
  split; [apply (from_ok_eq ∅); vm_compute; reflexivity|].
  split; [eapply bool_decide_eq_true_1; vm_compute; reflexivity|]. split; [vm_compute; intuition congruence|].
  intros (c & Hc & Hu).
  pose (P := fun c : content => negb (bool_decide (3 ∈ itvs c)) && bool_decide (ts_itvs c = ∅)).
  assert (Hall : forallb (fun s => negb ((sb s <=? 5) && (5 <=? se s)) || P (cont s)) (slots_list busy_ss) = true)
    by (vm_compute; reflexivity).
  pose proof (content_at_all busy_ss 5 P Hall c Hc) as Hb. unfold P in Hb.
  rewrite andb_true_iff, negb_true_iff, bool_decide_eq_true, bool_decide_eq_false in Hb. destruct Hb as [Hb1 Hb2].
  destruct Hu as [Hu|[Hu|Hu]]; [done| |].
  - destruct Hu as (_ & u & n & d & y & _ & _ & Hd & _). rewrite Hb2 in Hd. done.
  - destruct Hu as (Hp & _). cbn in Hp. done.
Qed.
Print Assumptions C09_window_refuted.

(** Proved part: sound when some resource is offered throughout the slots before the last one
    (then no slot of the window is forgotten). *)
Theorem C09_window_partial : forall ss j i k L R r0,
  WF ss -> job_ok j -> slots ss !! i = Some L -> slots ss !! k = Some R -> sb L <= sb R ->
  (forall t, sb L <= t < sb R -> exists c x, content_at ss t c /\ ts_ph_itvs j c = Ok x /\ r0 ∈ x) ->
  exists x, intersec_ts_ph_itvs_slots (slots ss) i k j = Ok x /\
    (forall r t, r ∈ x -> sb L <= t <= se R -> exists c, content_at ss t c /\ usable_by j c r) /\
    (forall r, (forall t, sb L <= t <= se R -> free_at ss t r) -> r ∈ x).
Proof.
  intros ss j i k L R r0 HW Hj HL HR Hle H0.
  destruct (intersec_ts_WF ss j i k L R r0 HW Hj HL HR Hle H0) as (x & E & Hx).
  exists x. split; [exact E|]. split.
  - intros r t Hr Ht. destruct (proj1 (Hx r) Hr t Ht) as (c & y & Hc & Ey & Hy).
    exists c. split; [exact Hc|]. eapply ts_ph_elem; eauto.
  - intros r Hf. apply Hx. intros t Ht. destruct (Hf t Ht) as (c & Hc & Hr).
    destruct (ts_ph_ok j c Hj) as [y Ey]. exists c, y. split; [done|]. split; [done|].
    clear - Ey Hr. unfold ts_ph_itvs in Ey.
    set (z := if jts j then _ else _) in Ey.
    assert (Hz : r ∈ z).
    { unfold z. destruct (jts j); [|done]. destruct (_ !! "*"%string) as [d|].
      - destruct (d !! _); [set_solver|]. destruct (d !! _); set_solver.
      - destruct (_ !! juser j) as [d|]; [|done]. destruct (d !! _); [set_solver|]. destruct (d !! _); set_solver. }
    destruct (bool_decide _); [|injection Ey as <-; done].
    destruct (jph_name j) as [n|]; [|done]. destruct (ph_itvs c !! n); injection Ey as <-; set_solver.
Qed.
Print Assumptions C09_window_partial.

Example C09_example : exists L R x, WF ex_ss3 /\ job_ok ts_job /\
  slots ex_ss3 !! 2 = Some L /\ slots ex_ss3 !! 5 = Some R /\ sb L <= sb R /\
  (forall t, sb L <= t < sb R -> exists c x, content_at ex_ss3 t c /\ ts_ph_itvs ts_job c = Ok x /\ 7 ∈ x) /\
  intersec_ts_ph_itvs_slots (slots ex_ss3) 2 5 ts_job = Ok x /\ 7 ∈ x.
Proof.
  assert (Hj : job_ok ts_job) by (split; [intros _; split; eauto|intros [H|H]; vm_compute in H; done]).
  exists (slot_of ex_ss3 2), (slot_of ex_ss3 5). eexists. split; [exact ex_ss3_WF|].
  split; [exact Hj|].
  do 2 (split; [apply slot_of_eq; vm_compute; reflexivity|]).
  split; [vm_compute; congruence|]. split.
  { intros t Ht. destruct ex_ss3_WF as [l HR].
    destruct (cat_total _ _ _ t (repr_contig _ _ HR)) as [c Hc].
    { change (sb (slot_of ex_ss3 2)) with 0 in Ht. 
      assert (sb (slot_of ex_ss3 5) = 20) as E by (vm_compute; reflexivity). rewrite E in Ht.
      change (begin_ ex_ss3) with 0. change (end_ ex_ss3) with MAX_TIME. unfold MAX_TIME. lia. }
    rewrite <- (content_at_cat _ _ _ _ HR) in Hc.
    assert (Hb : match ts_ph_itvs ts_job c with Ok x => bool_decide (7 ∈ x) | Err _ => false end = true).
    { assert (Hall : forallb (fun s => match ts_ph_itvs ts_job (cont s) with Ok x => bool_decide (7 ∈ x) | Err _ => false end) (slots_list ex_ss3) = true)
        by (vm_compute; reflexivity).
      destruct Hc as (i & s & Hi & _ & <-). exact (slots_all ex_ss3 _ Hall i s Hi). }
    destruct (ts_ph_itvs ts_job c) as [x|] eqn:Ex; [|done]. exists c, x.
    split; [done|]. split; [done|]. by apply bool_decide_eq_true in Hb. }
  split; [apply (from_ok_eq ∅); vm_compute; reflexivity|].
  eapply bool_decide_eq_true_1. vm_compute. reflexivity.
Qed.

(** * C10: enumeration of windows *)
Theorem C10_windows : forall ss width,
  WF ss -> 0 < width ->
  exists ws, traverse_with_width (slots ss) width 0 = Ok ws /\
    (* in chronological order, one window per start *)
    StronglySorted (fun p q : slot * slot => sb (fst p) < sb (fst q)) ws /\
    (* exactly the runs of slots at least [width] long that no shorter run replaces *)
    (forall s e, (s, e) ∈ ws <->
       slots ss !! sid s = Some s /\ slots ss !! sid e = Some e /\ sb s <= sb e /\
       width <= se e - sb s + 1 /\ (s = e \/ sb e - sb s < width)) /\
    (* one for every start from which enough time remains *)
    (forall i s, slots ss !! i = Some s -> width <= end_ ss - sb s + 1 -> exists e, (s, e) ∈ ws).
Proof. exact windows_WF. Qed.
Print Assumptions C10_windows.

Example C10_example : exists ws, WF ex_ss3 /\ traverse_with_width (slots ex_ss3) 8 0 = Ok ws /\
  ((fun p => (sb p.1, se p.2)) <$> ws) = [(0,9);(5,14);(10,19);(15,MAX_TIME);(20,MAX_TIME)].
Proof.
  eexists. split; [exact ex_ss3_WF|]. split; [apply (from_ok_eq []); vm_compute; reflexivity|].
  vm_compute. reflexivity.
Qed.
