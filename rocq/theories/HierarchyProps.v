(** Property theorems about resource selection (C11-C16). *)
From Verif Require Import Base HierarchyModel HierarchySpec HierarchyProofs.

(** Cores 1-8, two per cpu, four per host. *)
Definition ex_cores : list procset := (fun i => range i i) <$> [1;2;3;4;5;6;7;8].
Definition ex_cpus : list procset := [range 1 2; range 3 4; range 5 6; range 7 8].
Definition ex_hosts : list procset := [range 1 4; range 5 8].

(** * C11 *)
Theorem C11_first_blocks : forall free lv n, 0 < n ->
  find_scattered free [(lv, n)] = Ok
    (if n <=? Z.of_nat (length (free_blocks free lv))
     then ⋃ (take (Z.to_nat n) (free_blocks free lv)) else ∅).
Proof.
  intros free lv n Hn. unfold find_scattered. replace (0 <? n) with true by lia.
  by rewrite extract_n_spec by lia.
Qed.
Print Assumptions C11_first_blocks.

Theorem C11_nonempty_iff : forall free lv n r, 0 < n -> Forall (fun b : procset => b <> ∅) lv ->
  find_scattered free [(lv, n)] = Ok r ->
  (r <> ∅ <-> n <= Z.of_nat (length (free_blocks free lv))).
Proof.
  intros free lv n r Hn Hb E. rewrite C11_first_blocks in E by done. injection E as <-.
  destruct (n <=? _) eqn:E; [|split; [done|lia]]. split; [lia|intros H].
  apply union_list_nonempty.
  - intros E2. apply (f_equal length) in E2. rewrite take_length in E2. cbn in E2. lia.
  - apply Forall_take, free_blocks_nonempty. done.
Qed.
Print Assumptions C11_nonempty_iff.

Example C11_example :
  find_scattered (range 2 8) [(ex_cpus, 2)] = Ok (⋃ [range 3 4; range 5 6]) /\
  find_scattered (range 2 8) [(ex_cpus, 4)] = Ok ∅ /\ Forall (fun b : procset => b <> ∅) ex_cpus.
Proof.
  assert (E : free_blocks (range 2 8) ex_cpus = [range 3 4; range 5 6; range 7 8]).
  { unfold free_blocks, ex_cpus. rewrite filter_cons_False; [|by_dec].
    rewrite !filter_cons_True by by_dec. by rewrite filter_nil. }
  rewrite !C11_first_blocks, E by lia. split; [done|]. split; [done|].
  repeat constructor; by_dec.
Qed.

(** * C12 *)
Theorem C12_all_best_half : forall free lv, lv <> [] ->
  find_scattered free [(lv, -1)] = Ok (if bool_decide (Forall (fun b => b ⊆ free) lv) then ⋃ lv else ∅) /\
  find_scattered free [(lv, -2)] = Ok (⋃ (free_blocks free lv)) /\
  find_scattered free [(lv, -3)] =
    Ok (⋃ (take (length (free_blocks free lv) / 2)%nat (free_blocks free lv))).
Proof. intros free lv H. unfold find_scattered. cbn [Z.ltb Z.compare]. rewrite !extract_abh_spec by done. done. Qed.
Print Assumptions C12_all_best_half.

Theorem C12_only_free : forall free lv n r,
  find_scattered free [(lv, n)] = Ok r -> r ⊆ free.
Proof.
  intros free lv n r. unfold find_scattered. destruct (0 <? n) eqn:E.
  - intros [= <-]. apply extract_n_free.
  - destruct lv as [|b lv]; [done|]. rewrite extract_abh_spec by done. intros [= <-].
    destruct (n =? -1); [case_bool_decide; [by apply (union_list_subseteq (b :: lv))|apply empty_subseteq]|].
    destruct (n =? -2); [apply union_list_subseteq, free_blocks_free|].
    destruct (n =? -3); [apply union_list_subseteq, Forall_take, free_blocks_free|apply empty_subseteq].
Qed.
Print Assumptions C12_only_free.

Example C12_example :
  find_scattered (range 2 8) [(ex_cpus, -1)] = Ok ∅ /\
  find_scattered (range 1 8) [(ex_cpus, -1)] = Ok (⋃ ex_cpus) /\
  find_scattered (range 2 8) [(ex_cpus, -2)] = Ok (⋃ [range 3 4; range 5 6; range 7 8]) /\
  find_scattered (range 2 8) [(ex_cpus, -3)] = Ok (⋃ [range 3 4]).
Proof.
  assert (E : free_blocks (range 2 8) ex_cpus = [range 3 4; range 5 6; range 7 8]).
  { unfold free_blocks, ex_cpus. rewrite filter_cons_False; [|by_dec].
    rewrite !filter_cons_True by by_dec. by rewrite filter_nil. }
  destruct (C12_all_best_half (range 2 8) ex_cpus) as (H1 & H2 & H3); [done|].
  destruct (C12_all_best_half (range 1 8) ex_cpus) as (H4 & _ & _); [done|].
  rewrite H1, H2, H3, H4, E. split; [|split; [|split]]; try done.
Qed.

(** * C13 and C14: multi-level requests *)
Lemma find_scattered_multi free lv1 n1 p rest r :
  find_scattered free ((lv1, n1) :: p :: rest) = Ok r -> r = find_n_h free lv1 n1 (p :: rest).
Proof. intros E. change (Ok (find_n_h free lv1 n1 (p :: rest)) = Ok r) in E. congruence. Qed.

Theorem C13_hierarchical_exact : forall free lv1 n1 lv2 n2 rest r,
  0 < n1 -> proper_levels ((lv1, n1) :: (lv2, n2) :: rest) ->
  find_scattered free ((lv1, n1) :: (lv2, n2) :: rest) = Ok r -> r <> ∅ ->
  r ⊆ free /\ placement free lv1 n1 ((lv2, n2) :: rest) r.
Proof.
  intros free lv1 n1 lv2 n2 rest r Hn (_ & H1 & H2 & H3 & H4 & _) E Hr.
  apply find_scattered_multi in E as ->. split; [apply find_n_h_free|].
  apply find_n_h_correct; [done|by split_and!|done].
Qed.
Print Assumptions C13_hierarchical_exact.

(** Free resources only, without any hypothesis on the levels. *)
Theorem C13_only_free : forall free ls r, find_scattered free ls = Ok r -> r ⊆ free.
Proof.
  intros free [|[lv n] [|[lv2 n2] rest]] r E; [done|eapply C12_only_free; eauto|].
  apply find_scattered_multi in E as ->. apply find_n_h_free.
Qed.
Print Assumptions C13_only_free.

Theorem C14_complete : forall free lv1 n1 lv2 n2 rest,
  0 < n1 -> proper_levels ((lv1, n1) :: (lv2, n2) :: rest) ->
  (exists x, placement free lv1 n1 ((lv2, n2) :: rest) x) <->
  (exists r, find_scattered free ((lv1, n1) :: (lv2, n2) :: rest) = Ok r /\ r <> ∅).
Proof.
  intros free lv1 n1 lv2 n2 rest Hn (_ & H1 & H2 & H3 & H4 & _). 
  destruct (find_n_h_correct free rest lv1 n1 lv2 n2 Hn) as [Ha Hb]; [by split_and!|]. split.
  - intros [x Hx]. eexists. split; [reflexivity|]. eapply Hb, Hx.
  - intros (r & E & Hr). apply find_scattered_multi in E as ->. eauto.
Qed.
Print Assumptions C14_complete.

Lemma ex_proper : proper_levels [(ex_hosts, 1); (ex_cpus, 1); (ex_cores, 2)].
Proof.
  assert (Hd : forall top lv : list procset,
    forallb (fun b => forallb (fun x => bool_decide (x ⊆ b \/ b ∩ x = ∅)) lv) top = true ->
    forall b x, b ∈ top -> x ∈ lv -> x ⊆ b \/ b ∩ x = ∅).
  { intros top lv H b x Hb Hx. rewrite forallb_forall in H. apply elem_of_list_In in Hb, Hx.
    specialize (H _ Hb). rewrite forallb_forall in H. specialize (H _ Hx). by apply bool_decide_eq_true in H. }
  assert (He : forall lv : list procset, forallb nonempty lv = true -> Forall (fun b : procset => b <> ∅) lv).
  { intros lv H. apply Forall_forall. intros b Hb. rewrite forallb_forall in H.
    apply elem_of_list_In, H in Hb. by apply nonempty_true. }
  split; [done|]. split; [apply He; vm_compute; reflexivity|]. split.
  { split; [apply Hd; vm_compute; reflexivity|]. split; [apply Hd; vm_compute; reflexivity|done]. }
  split; [unfold nonempty_blocks; rewrite !Forall_cons; split_and!; [apply He; vm_compute; reflexivity..|constructor]|].
  split; [unfold positive_counts; rewrite !Forall_cons; split_and!; [cbn; lia..|constructor]|]. left. lia.
Qed.

(** On [{2,3,4}] one host with one cpu with two cores: cores 3 and 4. *)
Example C13_C14_example : exists r,
  find_scattered (range 2 4) [(ex_hosts, 1); (ex_cpus, 1); (ex_cores, 2)] = Ok r /\ r = range 3 4 /\ r <> ∅.
Proof. eexists. split; [reflexivity|]. split; by_dec. Qed.

(** The nesting hypothesis is needed for completeness at the middle levels (blocks of a middle
    level shared by two upper blocks are never used). *)
Theorem C14_nesting_needed : exists free lv1 lv2 lv3 x,
  placement free lv1 1 [((fun b => range 1 4 ∩ b) <$> lv2, 1); (lv3, 1)] x /\
  lv1 = [range 1 4; range 5 8] /\ lv2 = [range 1 8] /\
  find_scattered free [(lv1, 1); (lv2, 1); (lv3, 1)] = Ok ∅.
Proof.
  exists (range 1 8), [range 1 4; range 5 8], [range 1 8], [range 1 1], (⋃ [⋃ [⋃ [range 1 1]]]).
  split; [|split; [done|split; [done|]]].
  - exists [range 1 4], [⋃ [⋃ [range 1 1]]].
    split; [apply sublist_skip, sublist_nil_l|]. split; [done|]. split; [|done]. constructor; [|done].
    exists [range 1 4 ∩ range 1 8], [⋃ [range 1 1]]. split; [|split; [done|split; [|done]]].
    + unfold inside. cbn [fmap list_fmap]. rewrite filter_cons_True by by_dec. done.
    + constructor; [|done]. exists [range 1 1]. split; [|split; [done|split; [|done]]].
      * unfold inside. rewrite filter_cons_True by by_dec. done.
      * constructor; [|done]. by_dec.
  - change (Ok (find_n_h (range 1 8) [range 1 4; range 5 8] 1 [([range 1 8], 1); ([range 1 1], 1)]) = Ok ∅).
    apply f_equal. by_dec.
Qed.
Print Assumptions C14_nesting_needed.

(** * How many resources: when the blocks of each level do not overlap and the bottom blocks have
    [k] resources each, a served request holds exactly (product of the numbers) * k resources. *)
Theorem C13_resource_count : forall free rest lv n k x,
  disjoint_blocks lv -> Forall (fun p => disjoint_blocks (fst p)) rest ->
  Forall (fun b : procset => Z.of_nat (size b) = k) (bottom lv rest) ->
  placement free lv n rest x ->
  Z.of_nat (size x) = total n rest * k.
Proof. exact placement_size. Qed.
Print Assumptions C13_resource_count.

Example C13_resource_count_example :
  disjoint_blocks ex_hosts /\ Forall (fun p => disjoint_blocks (fst p)) [(ex_cpus, 1); (ex_cores, 2)] /\
  Forall (fun b : procset => Z.of_nat (size b) = 1) (bottom ex_hosts [(ex_cpus, 1); (ex_cores, 2)]) /\
  (exists x, placement (range 2 4) ex_hosts 1 [(ex_cpus, 1); (ex_cores, 2)] x) /\
  total 1 [(ex_cpus, 1); (ex_cores, 2)] * 1 = 2.
Proof.
  split; [apply disjoint_blocks_b; vm_compute; reflexivity|].
  split; [rewrite !Forall_cons; split_and!; [apply disjoint_blocks_b; vm_compute; reflexivity..|constructor]|].
  split; [by_dec|]. split; [|done].
  apply (C14_complete (range 2 4) ex_hosts 1 ex_cpus 1 [(ex_cores, 2)]); [lia|apply ex_proper|].
  destruct C13_C14_example as (r & E & _ & Hr). eauto.
Qed.

(** * C15: every group, within its constraints *)
Theorem C15_all_groups : forall free groups hy r,
  Forall (fun g => exists ls, levels_of hy (fst g) ls /\ proper_levels ls) groups ->
  find_resource_hierarchies_job free groups hy = Ok r -> r <> ∅ ->
  exists parts, r = ⋃ parts /\
    Forall2 (fun (g : rgroup) x => exists ls, levels_of hy (fst g) ls /\ served (snd g ∩ free) ls x) groups parts.
Proof. exact find_job_sound. Qed.
Print Assumptions C15_all_groups.

(** Nothing outside the constraints and the free resources, whatever the request. *)
Theorem C15_within : forall free groups hy r,
  find_resource_hierarchies_job free groups hy = Ok r ->
  r ⊆ free /\ forall x, x ∈ r -> exists g, g ∈ groups /\ x ∈ snd g.
Proof. exact find_job_within. Qed.
Print Assumptions C15_within.

(** And the request is refused only when some group cannot be served. *)
Theorem C15_refused_iff : forall free groups hy r,
  groups <> [] ->
  Forall (fun g => exists ls, levels_of hy (fst g) ls /\ proper_levels ls) groups ->
  find_resource_hierarchies_job free groups hy = Ok r ->
  (r <> ∅ <-> Forall (fun g : rgroup => exists ls x, levels_of hy (fst g) ls /\ served (snd g ∩ free) ls x) groups).
Proof. exact find_job_complete. Qed.
Print Assumptions C15_refused_iff.

Definition ex_hy : hierarchy :=
  <["host"%string := ex_hosts]> (<["cpu"%string := ex_cpus]> (<["core"%string := ex_cores]> ∅)).
Example C15_example : exists r,
  let groups := [([("host"%string, 1); ("cpu"%string, 1)], range 1 4); ([("core"%string, -2)], range 5 6)] in
  find_resource_hierarchies_job (range 2 8) groups ex_hy = Ok r /\ r = range 3 6 /\ r <> ∅ /\
  Forall (fun g : rgroup => exists ls, levels_of ex_hy (fst g) ls /\ proper_levels ls) groups.
Proof.
  exists (from_ok ∅ (find_resource_hierarchies_job (range 2 8)
    [([("host"%string, 1); ("cpu"%string, 1)], range 1 4); ([("core"%string, -2)], range 5 6)] ex_hy)).
  split; [apply from_ok_eq; vm_compute; reflexivity|]. split; [by_dec|]. split; [by_dec|].
  destruct ex_proper as (_ & H1 & (H2 & H3) & H4 & H5 & _).
  apply Forall_cons in H4 as [H4 H4']. apply Forall_cons in H4' as [H4' _]. cbn [fst snd] in *.
  repeat apply Forall_cons_2; [| |constructor]; cbn [fst snd].
  - exists [(ex_hosts, 1); (ex_cpus, 1)]. split; [repeat constructor|]. split; [done|]. split; [done|].
    split; [split; done|]. split; [by repeat constructor|]. split; [|left; lia]. repeat constructor.
  - exists [(ex_cores, -2)]. split; [repeat constructor|]. split; [done|]. split; [done|]. split; [done|].
    split; [constructor|]. split; [constructor|by right].
Qed.

(** * C16: refuted -- two groups asking each for one core, with every core free and eligible,
    are both given core 1: the job gets one core instead of two. *)
Theorem C16_groups_disjoint_refuted : exists free (g1 g2 : rgroup) hy r,
  find_resource_hierarchies_job free [g1; g2] hy = Ok r /\
  find_resource_hierarchies_job free [g1] hy = Ok r /\
  find_resource_hierarchies_job free [g2] hy = Ok r /\
  fst g1 = [("core"%string, 1)] /\ fst g2 = [("core"%string, 1)] /\
  size free = 8%nat /\ size r = 1%nat.
Proof.
  exists (range 1 8), ([("core"%string, 1)], range 1 8), ([("core"%string, 1)], range 1 8), ex_hy, (range 1 1).
  assert (H : forall g, is_ok (find_resource_hierarchies_job (range 1 8) g ex_hy) = true ->
    bool_decide (from_ok ∅ (find_resource_hierarchies_job (range 1 8) g ex_hy) = range 1 1) = true ->
    find_resource_hierarchies_job (range 1 8) g ex_hy = Ok (range 1 1)).
  { intros g H1 H2. apply bool_decide_eq_true in H2. rewrite <- H2. by apply from_ok_eq. }
  split; [apply H; vm_compute; reflexivity|]. split; [apply H; vm_compute; reflexivity|].
  split; [apply H; vm_compute; reflexivity|]. done.
Qed.
Print Assumptions C16_groups_disjoint_refuted.

(** What holds: groups whose eligible resources are disjoint get disjoint resources, so the job
    gets as many resources as its groups in total. *)
Theorem C16_groups_disjoint_partial : forall free groups hy r,
  Forall (fun g => exists ls, levels_of hy (fst g) ls /\ proper_levels ls) groups ->
  (forall i j g g', groups !! i = Some g -> groups !! j = Some g' -> i <> j -> snd g ∩ snd g' = ∅) ->
  find_resource_hierarchies_job free groups hy = Ok r -> r <> ∅ ->
  exists parts, r = ⋃ parts /\ disjoint_blocks parts /\
    Forall2 (fun (g : rgroup) x => exists ls, levels_of hy (fst g) ls /\ served (snd g ∩ free) ls x) groups parts.
Proof.
  intros free groups hy r Hp Hd E Hr. destruct (find_job_sound _ _ _ _ Hp E Hr) as (parts & -> & HF).
  exists parts. split; [done|]. split; [|done].
  intros i j a b Ha Hb Hij.
  destruct (Forall2_lookup_r _ _ _ _ _ HF Ha) as (g & Hg & ls & _ & Hs).
  destruct (Forall2_lookup_r _ _ _ _ _ HF Hb) as (g' & Hg' & ls' & _ & Hs').
  specialize (Hd i j g g' Hg Hg' Hij). apply served_within in Hs, Hs'. set_solver.
Qed.
Print Assumptions C16_groups_disjoint_partial.
Example C16_example : snd ([("core"%string, 1)], range 1 4) ∩ snd ([("core"%string, 1)], range 5 8) = (∅ : procset) /\
  exists r, find_resource_hierarchies_job (range 1 8) [([("core"%string, 1)], range 1 4); ([("core"%string, 1)], range 5 8)] ex_hy = Ok r
    /\ size r = 2%nat.
Proof.
  split; [by_dec|].
  exists (from_ok ∅ (find_resource_hierarchies_job (range 1 8) [([("core"%string, 1)], range 1 4); ([("core"%string, 1)], range 5 8)] ex_hy)).
  split; [apply from_ok_eq; vm_compute; reflexivity|by_dec].
Qed.
