From Verif Require Import Base HierarchyModel HierarchySpec.

Lemma inter_eq_subseteq (a x : procset) : x = a ∩ x <-> x ⊆ a.
Proof.
  split.
  - intros E. rewrite E. apply intersection_subseteq_l.
  - intros H. apply leibniz_equiv. intros y. rewrite elem_of_intersection. split; [|tauto].
    intros Hy. split; [apply H; done|done].
Qed.

Lemma union_assoc_L' (a b c : procset) : a ∪ b ∪ c = a ∪ (b ∪ c).
Proof. by rewrite (assoc_L (∪)). Qed.

Lemma extract_loop_spec free lv : forall n acc,
  0 <= n ->
  extract_loop free lv n acc =
    (n - Z.of_nat (length (take (Z.to_nat n) (free_blocks free lv))),
     acc ∪ ⋃ (take (Z.to_nat n) (free_blocks free lv))).
Proof.
  induction lv as [|x lv IH]; intros n acc Hn; cbn [extract_loop free_blocks].
  - unfold free_blocks. rewrite filter_nil, take_nil. cbn [length union_list foldr]. f_equal; [lia|]. by rewrite union_empty_r_L.
  - unfold free_blocks in *. destruct (0 <? n) eqn:E.
    + destruct (bool_decide (x = free ∩ x)) eqn:E2.
      * apply bool_decide_eq_true in E2. assert (Hx : x ⊆ free) by by apply inter_eq_subseteq.
        rewrite filter_cons_True by done. rewrite <- E2, IH by lia.
        replace (Z.to_nat n) with (S (Z.to_nat (n - 1))) by lia. cbn [firstn length].
        f_equal; [lia|]. cbn [union_list foldr]. by rewrite union_assoc_L'.
      * apply bool_decide_eq_false in E2. rewrite filter_cons_False; [by rewrite IH by lia|].
        intros H. apply E2. by apply inter_eq_subseteq.
    + assert (n = 0) as -> by lia. change (Z.to_nat 0) with 0%nat. rewrite take_0. cbn [length union_list foldr].
      rewrite union_empty_r_L. done.
Qed.

Lemma extract_n_spec free lv n : 0 <= n ->
  extract_n free lv n =
    if n <=? Z.of_nat (length (free_blocks free lv))
    then ⋃ (take (Z.to_nat n) (free_blocks free lv)) else ∅.
Proof.
  intros Hn. unfold extract_n. rewrite extract_loop_spec by done.
  rewrite take_length. destruct (n <=? _) eqn:E.
  - replace (n - _ =? 0) with true by lia. by rewrite union_empty_l_L.
  - replace (n - _ =? 0) with false by lia. done.
Qed.

Lemma extract_n_neg free lv n : n < 0 -> extract_n free lv n = ∅.
Proof.
  intros Hn. unfold extract_n.
  assert (extract_loop free lv n ∅ = (n, ∅)) as ->.
  { destruct lv; cbn; [done|]. replace (0 <? n) with false by lia. done. }
  replace (n =? 0) with false by lia. done.
Qed.

Lemma union_list_nonempty (bs : list procset) :
  bs <> [] -> Forall (fun b => b <> ∅) bs -> ⋃ bs <> ∅.
Proof.
  destruct bs as [|b bs]; [done|]. intros _ H. apply Forall_cons in H as [H _].
  cbn. intros E. apply empty_union_L in E as [E _]. done.
Qed.

Lemma union_list_subseteq (bs : list procset) X : Forall (fun b => b ⊆ X) bs -> ⋃ bs ⊆ X.
Proof.
  induction bs as [|b bs IH]; cbn; intros H; [apply empty_subseteq|].
  apply Forall_cons in H as [H1 H2]. apply union_least; auto.
Qed.

Lemma free_blocks_free free lv : Forall (fun b => b ⊆ free) (free_blocks free lv).
Proof. apply Forall_forall. intros b Hb. unfold free_blocks in Hb. apply elem_of_list_filter in Hb. tauto. Qed.

Lemma free_blocks_nonempty free lv :
  Forall (fun b : procset => b <> ∅) lv -> Forall (fun b => b <> ∅) (free_blocks free lv).
Proof.
  intros H. apply Forall_forall. intros b Hb. unfold free_blocks in Hb. apply elem_of_list_filter in Hb as [_ Hb].
  rewrite Forall_forall in H. auto.
Qed.

Lemma sublist_filter' {A} (P : A -> Prop) {Pdec : forall x, Decision (P x)} (l : list A) : base.filter P l `sublist_of` l.
Proof.
  induction l as [|x l IH]; [done|]. destruct (decide (P x)).
  - rewrite filter_cons_True by done. by apply sublist_skip.
  - rewrite filter_cons_False by done. by apply sublist_cons.
Qed.
Lemma sublist_filter_mono {A} (P : A -> Prop) {Pdec : forall x, Decision (P x)} (l k : list A) :
  l `sublist_of` k -> Forall P l -> l `sublist_of` base.filter P k.
Proof.
  induction 1 as [|x l k Hlk IH|x l k Hlk IH]; intros HF; [done| |].
  - apply Forall_cons in HF as [H1 H2]. rewrite filter_cons_True by done. apply sublist_skip. auto.
  - destruct (decide (P x)); [rewrite filter_cons_True by done; apply sublist_cons; auto|
      rewrite filter_cons_False by done; auto].
Qed.
Lemma sublist_take' {A} n (l : list A) : take n l `sublist_of` l.
Proof. rewrite <- (take_drop n l) at 2. apply sublist_inserts_r. done. Qed.

(** all / best / half *)
Lemma count_loop_spec free lv : forall acc b,
  count_loop free lv acc b = (acc ∪ ⋃ (free_blocks free lv), b + Z.of_nat (length (free_blocks free lv))).
Proof.
  unfold free_blocks. induction lv as [|x lv IH]; intros acc b; cbn [count_loop].
  - rewrite filter_nil. cbn [length union_list foldr]. f_equal; [by rewrite union_empty_r_L|lia].
  - destruct (bool_decide (x = free ∩ x)) eqn:E.
    + apply bool_decide_eq_true in E. rewrite filter_cons_True by (by apply inter_eq_subseteq).
      rewrite <- E, IH. cbn [union_list foldr length]. f_equal; [by rewrite union_assoc_L'|lia].
    + apply bool_decide_eq_false in E. rewrite filter_cons_False by (intros H; apply E; by apply inter_eq_subseteq). apply IH.
Qed.

Lemma half_loop_spec free lv : forall todo acc,
  0 <= todo <= Z.of_nat (length (free_blocks free lv)) ->
  half_loop free lv todo acc = Ok (acc ∪ ⋃ (take (Z.to_nat todo) (free_blocks free lv))).
Proof.
  unfold free_blocks. induction lv as [|x lv IH]; intros todo acc Ht; cbn [half_loop].
  - rewrite filter_nil in *. cbn in Ht. replace (0 <? todo) with false by lia. rewrite take_nil. cbn [union_list foldr].
    by rewrite union_empty_r_L.
  - destruct (0 <? todo) eqn:E0.
    + destruct (bool_decide (x = free ∩ x)) eqn:E.
      * apply bool_decide_eq_true in E. rewrite filter_cons_True in * by (by apply inter_eq_subseteq).
        cbn [length] in Ht. rewrite <- E, IH by lia.
        replace (Z.to_nat todo) with (S (Z.to_nat (todo - 1))) by lia. cbn [firstn union_list foldr].
        by rewrite union_assoc_L'.
      * apply bool_decide_eq_false in E.
        rewrite filter_cons_False in * by (intros H; apply E; by apply inter_eq_subseteq). by apply IH.
    + replace (Z.to_nat todo) with 0%nat by lia. rewrite take_0. cbn [union_list foldr]. by rewrite union_empty_r_L.
Qed.

Lemma filter_all_length {A} (P : A -> Prop) {Pdec : forall x, Decision (P x)} (l : list A) :
  length (base.filter P l) = length l <-> Forall P l.
Proof.
  induction l as [|x l IH]; [done|]. destruct (decide (P x)).
  - rewrite filter_cons_True by done. cbn. rewrite Forall_cons. split; [intros H; split; [done|]; apply IH; lia|].
    intros [_ H]. apply IH in H. lia.
  - rewrite filter_cons_False by done. cbn. rewrite Forall_cons. split; [|tauto].
    pose proof (filter_length P l). lia.
Qed.
Lemma filter_all {A} (P : A -> Prop) {Pdec : forall x, Decision (P x)} (l : list A) : Forall P l -> base.filter P l = l.
Proof. intros H. by apply list_filter_all || (induction H as [|x l Hx H IH]; [done|rewrite filter_cons_True by done; by rewrite IH]). Qed.

Lemma extract_abh_spec free lv n : lv <> [] ->
  extract_abh free lv n = Ok
    (if n =? -1 then (if bool_decide (Forall (fun b => b ⊆ free) lv) then ⋃ lv else ∅)
     else if n =? -2 then ⋃ (free_blocks free lv)
     else if n =? -3 then ⋃ (take (length (free_blocks free lv) / 2)%nat (free_blocks free lv))
     else ∅).
Proof.
  intros Hne. unfold extract_abh. destruct lv as [|x0 lv0]; [done|].
  set (lv := x0 :: lv0) in *. clearbody lv. clear Hne x0 lv0.
  rewrite count_loop_spec. rewrite union_empty_l_L. rewrite Z.add_0_l.
  destruct (n =? -1) eqn:E1.
  - cbn [andb]. destruct (Z.of_nat (length lv) =? _) eqn:E2.
    + assert (HF : Forall (fun b => b ⊆ free) lv).
      { apply (filter_all_length (fun b => b ⊆ free)). unfold free_blocks in E2. lia. }
      rewrite bool_decide_true by done. f_equal. unfold free_blocks. f_equal. by apply filter_all.
    + rewrite bool_decide_false.
      * replace (n =? -2) with false by lia. replace (n =? -3) with false by lia. done.
      * intros HF. apply (filter_all_length (fun b => b ⊆ free)) in HF. unfold free_blocks in E2. lia.
  - cbn [andb]. destruct (n =? -2) eqn:E2; [by rewrite union_empty_l_L|]. destruct (n =? -3) eqn:E3; [|done].
    rewrite half_loop_spec.
    + rewrite union_empty_l_L. repeat f_equal.
      change 2 with (Z.of_nat 2). rewrite <- Nat2Z.inj_div. lia.
    + change 2 with (Z.of_nat 2). rewrite <- Nat2Z.inj_div. split; [lia|].
      apply inj_le. apply Nat.div_le_upper_bound; lia.
Qed.

(** * The recursive search *)

(** blocks that yield something *)
Definition good (f : procset -> procset) (bks : list procset) : list procset :=
  base.filter (fun b => f b <> ∅) bks.

Lemma take_loop_spec f bks : forall n nb acc, 0 <= nb <= n ->
  take_loop f bks n nb acc =
   (nb + Z.of_nat (length (take (Z.to_nat (n - nb)) (good f bks))),
    acc ∪ ⋃ (f <$> take (Z.to_nat (n - nb)) (good f bks))).
Proof.
  unfold good. induction bks as [|b bks IH]; intros n nb acc Hn; cbn [take_loop].
  - rewrite filter_nil, take_nil. cbn [length fmap list_fmap union_list foldr]. f_equal; [lia|by rewrite union_empty_r_L].
  - destruct (nb =? n) eqn:E.
    + replace (Z.to_nat (n - nb)) with 0%nat by lia. rewrite take_0. cbn [length fmap list_fmap union_list foldr]. f_equal; [lia|by rewrite union_empty_r_L].
    + destruct (nonempty (f b)) eqn:Eb.
      * apply nonempty_true in Eb. rewrite filter_cons_True by done. rewrite IH by lia.
        replace (Z.to_nat (n - nb)) with (S (Z.to_nat (n - (nb + 1)))) by lia.
        cbn [firstn length]. rewrite fmap_cons. cbn [union_list foldr]. f_equal; [lia|by rewrite union_assoc_L'].
      * apply nonempty_false in Eb. rewrite filter_cons_False by (rewrite Eb; auto). by apply IH.
Qed.

Lemma take_loop_neg f bks n : n < 0 -> forall nb acc, 0 <= nb -> 0 <= fst (take_loop f bks n nb acc).
Proof.
  intros Hn. induction bks as [|b bks IH]; intros nb acc Hnb; cbn [take_loop]; [done|].
  replace (nb =? n) with false by lia. destruct (nonempty (f b)); apply IH; lia.
Qed.

(** The candidates examined inside a block. *)
Definition search (itvs : procset) (lv : list procset) (m : Z) (rest : list (list procset * Z)) (bk : procset) : procset :=
  match rest with
  | [] => extract_n itvs (sub_blocks bk lv) m
  | _ => find_n_h itvs (children bk lv) m rest
  end.

Lemma find_n_h_unfold itvs top n lv m rest :
  find_n_h itvs top n ((lv, m) :: rest) =
  let avail := keep_no_empty itvs top in
  let f := search itvs lv m rest in
  if Z.of_nat (length avail) <? n then ∅
  else let '(nb_r, acc) := take_loop f avail n 0 ∅ in if nb_r =? n then acc else ∅.
Proof. done. Qed.

Lemma find_n_h_spec itvs top n lv m rest :
  let gd := good (search itvs lv m rest) (keep_no_empty itvs top) in
  find_n_h itvs top n ((lv, m) :: rest) =
  if (0 <=? n) && (n <=? Z.of_nat (length gd)) then ⋃ (search itvs lv m rest <$> take (Z.to_nat n) gd) else ∅.
Proof.
  intros gd. rewrite find_n_h_unfold. cbn zeta.
  assert (Hlen : (length gd <= length (keep_no_empty itvs top))%nat).
  { unfold gd, good. apply filter_length. }
  destruct (Z.of_nat (length (keep_no_empty itvs top)) <? n) eqn:E.
  - replace (n <=? _) with false by lia. by rewrite andb_false_r.
  - destruct (0 <=? n) eqn:En.
    + rewrite take_loop_spec by lia. fold gd. rewrite take_length.
      rewrite !Z.sub_0_r, Z.add_0_l, union_empty_l_L.
      destruct (n <=? Z.of_nat (length gd)) eqn:E2; cbn [andb].
      * replace (_ =? n) with true by lia. done.
      * replace (_ =? n) with false by lia. done.
    + cbn [andb]. pose proof (take_loop_neg (search itvs lv m rest) (keep_no_empty itvs top) n) as H.
      destruct (take_loop _ _ _ _ _) as [nb acc] eqn:Et. 
      specialize (H ltac:(lia) 0 ∅ ltac:(lia)). rewrite Et in H. cbn in H.
      replace (nb =? n) with false by lia. done.
Qed.

(** Everything returned is free, without any hypothesis. *)
Lemma extract_n_free itvs lv n : extract_n itvs lv n ⊆ itvs.
Proof.
  destruct (Z.le_gt_cases 0 n); [|rewrite extract_n_neg by lia; apply empty_subseteq].
  rewrite extract_n_spec by done. destruct (_ <=? _); [|apply empty_subseteq].
  apply union_list_subseteq. apply Forall_take, free_blocks_free.
Qed.

Lemma find_n_h_free itvs rest : forall top n, find_n_h itvs top n rest ⊆ itvs.
Proof.
  induction rest as [|[lv m] rest IH]; intros top n; [apply empty_subseteq|].
  rewrite find_n_h_spec. destruct (_ && _); [|apply empty_subseteq].
  apply union_list_subseteq. apply Forall_fmap, Forall_take, Forall_forall. intros b _. cbn.
  unfold search. destruct rest; [apply extract_n_free|apply IH].
Qed.

Lemma nested_sub_blocks (bk : procset) lv :
  (forall x, x ∈ lv -> x ⊆ bk \/ bk ∩ x = ∅) -> Forall (fun b : procset => b <> ∅) lv ->
  sub_blocks bk lv = inside bk lv.
Proof.
  intros Hn Hne. unfold sub_blocks, inside. induction lv as [|x lv IH]; [done|].
  apply Forall_cons in Hne as [Hx Hne]. rewrite fmap_cons.
  assert (IH' : base.filter (λ x0 : procset, x0 ≠ ∅) ((λ x0 : procset, bk ∩ x0) <$> lv) = base.filter (λ x0 : procset, x0 ⊆ bk) lv).
  { apply IH; [|done]. intros y Hy. apply Hn. apply elem_of_cons. auto. }
  destruct (Hn x) as [H|H]; [apply elem_of_cons; auto| |].
  - rewrite (filter_cons_True (fun x => x ⊆ bk)) by done.
    assert (bk ∩ x = x) as -> by (symmetry; by apply inter_eq_subseteq).
    rewrite filter_cons_True by done. by rewrite IH'.
  - rewrite H. rewrite filter_cons_False by auto.
    rewrite (filter_cons_False (fun x => x ⊆ bk)); [done|].
    intros Hs. apply Hx. apply inter_eq_subseteq in Hs. congruence.
Qed.

Lemma nested_inside bk top rest : nested top rest -> bk ∈ top ->
  match rest with [] => True | (lv, _) :: rest' => nested (inside bk lv) rest' end.
Proof.
  destruct rest as [|[lv m] rest]; [done|]. intros [_ H] _.
  destruct rest as [|[lv2 m2] rest]; [done|]. cbn in *. destruct H as [H1 H2]. split; [|done].
  intros b x Hb. unfold inside in Hb. apply elem_of_list_filter in Hb as [_ Hb]. auto.
Qed.

Lemma placement_free free rest : forall cands n x, placement free cands n rest x -> x ⊆ free.
Proof.
  induction rest as [|[lv m] rest IH]; intros cands n x; cbn [placement].
  - intros (bs & _ & _ & HF & ->). by apply union_list_subseteq.
  - intros (bs & ys & _ & _ & HF & ->). apply union_list_subseteq.
    apply Forall_forall. intros y Hy. apply elem_of_list_lookup in Hy as [i Hi].
    destruct (Forall2_lookup_r _ _ _ _ _ HF Hi) as (b & _ & Hb). eauto.
Qed.

Lemma placement_within free rest : forall (b : procset) lv m x,
  placement free (inside b lv) m rest x -> x ⊆ b.
Proof.
  induction rest as [|[lv2 m2] rest IH]; intros b lv m x; cbn [placement].
  - intros (bs & Hs & _ & _ & ->). apply union_list_subseteq. apply Forall_forall. intros y Hy.
    assert (Hy' : y ∈ inside b lv). { eapply elem_of_submseteq; eauto using sublist_submseteq. }
    unfold inside in Hy'. apply elem_of_list_filter in Hy'. tauto.
  - intros (bs & ys & Hs & _ & HF & ->). apply union_list_subseteq. apply Forall_forall. intros y Hy.
    apply elem_of_list_lookup in Hy as [i Hi].
    destruct (Forall2_lookup_r _ _ _ _ _ HF Hi) as (b' & Hb' & Hp).
    apply IH in Hp. etrans; [exact Hp|].
    assert (Hy' : b' ∈ inside b lv).
    { apply elem_of_list_lookup_2 in Hb'. eapply elem_of_submseteq; eauto using sublist_submseteq. }
    unfold inside in Hy'. apply elem_of_list_filter in Hy'. tauto.
Qed.

Lemma placement_nonempty free rest : forall cands n x,
  0 < n -> Forall (fun b : procset => b <> ∅) cands -> positive_counts rest -> nonempty_blocks rest ->
  placement free cands n rest x -> x <> ∅.
Proof.
  induction rest as [|[lv m] rest IH]; intros cands n x Hn Hc Hp Hb; cbn [placement].
  - intros (bs & Hs & Hl & _ & ->). apply union_list_nonempty; [destruct bs; [cbn in Hl; lia|done]|].
    apply Forall_forall. intros b Hb'. rewrite Forall_forall in Hc. apply Hc.
    eapply elem_of_submseteq; eauto using sublist_submseteq.
  - intros (bs & ys & Hs & Hl & HF & ->).
    apply Forall_cons in Hp as [Hp1 Hp], Hb as [Hb1 Hb]. cbn [fst snd] in Hp1, Hb1.
    apply union_list_nonempty.
    { apply Forall2_length in HF. destruct ys; [cbn in HF; lia|done]. }
    apply Forall_forall. intros y Hy. apply elem_of_list_lookup in Hy as [i Hi].
    destruct (Forall2_lookup_r _ _ _ _ _ HF Hi) as (b' & _ & Hpl).
    eapply IH; [exact Hp1| |exact Hp|exact Hb|exact Hpl].
    apply Forall_forall. intros z Hz. unfold inside in Hz. apply elem_of_list_filter in Hz as [_ Hz].
    rewrite Forall_forall in Hb1. auto.
Qed.

(** * Soundness and completeness of the search, together *)
Definition well_nested (top : list procset) (rest : list (list procset * Z)) : Prop :=
  nested top rest /\ Forall (fun b : procset => b <> ∅) top /\ nonempty_blocks rest /\ positive_counts rest.

Lemma extract_n_placement free cands m : 0 < m -> Forall (fun b : procset => b <> ∅) cands ->
  (extract_n free cands m <> ∅ -> placement free cands m [] (extract_n free cands m)) /\
  (forall y, placement free cands m [] y -> extract_n free cands m <> ∅).
Proof.
  intros Hm Hne. rewrite extract_n_spec by lia. cbn [placement]. split.
  - destruct (m <=? _) eqn:E; [|done]. intros _.
    exists (take (Z.to_nat m) (free_blocks free cands)). split.
    { etrans; [apply sublist_take'|]. apply sublist_filter'. }
    rewrite take_length. split; [lia|]. split; [|done]. apply Forall_take, free_blocks_free.
  - intros y (bs & Hs & Hl & HF & ->).
    assert (Hs' : bs `sublist_of` free_blocks free cands) by (by apply sublist_filter_mono).
    apply sublist_length in Hs'. replace (m <=? _) with true by lia.
    apply union_list_nonempty.
    + intros E. apply (f_equal length) in E. rewrite take_length in E. cbn in E. lia.
    + apply Forall_take, free_blocks_nonempty. done.
Qed.

Lemma find_n_h_step free rst top n lv m :
  0 < n -> Forall (fun b : procset => b <> ∅) top ->
  nonempty_blocks ((lv, m) :: rst) -> positive_counts ((lv, m) :: rst) ->
  (forall b, b ∈ top ->
     (search free lv m rst b <> ∅ -> placement free (inside b lv) m rst (search free lv m rst b)) /\
     (forall y, placement free (inside b lv) m rst y -> search free lv m rst b <> ∅)) ->
  let r := find_n_h free top n ((lv, m) :: rst) in
  (r <> ∅ -> placement free top n ((lv, m) :: rst) r) /\
  (forall y, placement free top n ((lv, m) :: rst) y -> r <> ∅).
Proof.
  intros Hn Htop Hblk Hpos Hin. cbn zeta. rewrite find_n_h_spec.
  set (gd := good (search free lv m rst) (keep_no_empty free top)).
  assert (Hgd : forall b, b ∈ gd -> b ∈ top /\ search free lv m rst b <> ∅)
    by (intros b Hb; unfold gd, good, keep_no_empty in Hb; rewrite !elem_of_list_filter in Hb; tauto).
  replace (0 <=? n) with true by lia. cbn [andb].
  apply Forall_cons in Hblk as [Hblk1 Hblk2]. apply Forall_cons in Hpos as [Hpos1 Hpos2]. cbn [fst snd] in *.
  split.
  - destruct (n <=? _) eqn:E; [|done]. intros _. cbn [placement].
    exists (take (Z.to_nat n) gd), (search free lv m rst <$> take (Z.to_nat n) gd).
    split; [etrans; [apply sublist_take'|]; unfold gd, good, keep_no_empty; etrans; apply sublist_filter'|].
    split; [rewrite take_length; lia|]. split; [|done].
    apply Forall2_fmap_r, Forall_Forall2_diag, Forall_take, Forall_forall. intros b Hb.
    destruct (Hgd b Hb) as [H1 H2]. apply Hin; done.
  - cbn [placement]. intros y (bs & ys & Hs & Hl & HF & ->).
    assert (Hlk : forall b, b ∈ bs -> b ∈ top /\ exists z, placement free (inside b lv) m rst z).
    { intros b Hb. split; [eapply elem_of_submseteq; eauto using sublist_submseteq|].
      apply elem_of_list_lookup in Hb as [i Hi].
      destruct (Forall2_lookup_l _ _ _ _ _ HF Hi) as (z & _ & Hz). eauto. }
    assert (Ha1 : Forall (fun b => search free lv m rst b <> ∅) bs).
    { apply Forall_forall. intros b Hb. destruct (Hlk b Hb) as [Ht [z Hz]]. eapply Hin; eauto. }
    assert (Ha2 : Forall (fun b => b ∩ free <> ∅) bs).
    { apply Forall_forall. intros b Hb. destruct (Hlk b Hb) as [Ht [z Hz]].
      pose proof (placement_free _ _ _ _ _ Hz) as Hz1. pose proof (placement_within _ _ _ _ _ _ Hz) as Hz2.
      assert (Hz3 : z <> ∅).
      { eapply placement_nonempty; [exact Hpos1| |exact Hpos2|exact Hblk2|exact Hz].
        apply Forall_forall. intros w Hw. unfold inside in Hw. apply elem_of_list_filter in Hw as [_ Hw].
        rewrite Forall_forall in Hblk1. auto. }
      intros E. apply Hz3. apply leibniz_equiv. apply set_subseteq_antisymm; [|apply empty_subseteq].
      rewrite <- E. intros w Hw. apply elem_of_intersection. split; [apply Hz2; done|apply Hz1; done]. }
    assert (Hs' : bs `sublist_of` gd)
      by (unfold gd, good, keep_no_empty; apply sublist_filter_mono; [apply sublist_filter_mono; done|done]).
    apply sublist_length in Hs'. replace (n <=? _) with true by lia.
    apply union_list_nonempty;
      [intros E; apply fmap_nil_inv in E; apply (f_equal length) in E; rewrite take_length in E; cbn in E; lia|].
    apply Forall_fmap, Forall_take, Forall_forall. intros b Hb. cbn. apply Hgd. done.
Qed.

Lemma inside_nonempty (b : procset) lv :
  Forall (fun b : procset => b <> ∅) lv -> Forall (fun b : procset => b <> ∅) (inside b lv).
Proof.
  intros H. apply Forall_forall. intros z Hz. unfold inside in Hz. apply elem_of_list_filter in Hz as [_ Hz].
  rewrite Forall_forall in H. auto.
Qed.

Lemma find_n_h_correct free rest : forall top n lv m,
  0 < n -> well_nested top ((lv, m) :: rest) ->
  let r := find_n_h free top n ((lv, m) :: rest) in
  (r <> ∅ -> placement free top n ((lv, m) :: rest) r) /\
  (forall y, placement free top n ((lv, m) :: rest) y -> r <> ∅).
Proof.
  induction rest as [|[lv2 m2] rest IH]; intros top n lv m Hn (Hnest & Htop & Hblk & Hpos).
  - apply find_n_h_step; try done. intros b Hb. unfold search. cbn in Hnest. destruct Hnest as [Hnest _].
    apply Forall_cons in Hblk as [Hblk _]. apply Forall_cons in Hpos as [Hpos _]. cbn [fst snd] in *.
    rewrite (nested_sub_blocks b lv) by (first [done|auto]).
    apply extract_n_placement; [done|]. by apply inside_nonempty.
  - apply find_n_h_step; try done. intros b Hb. unfold search.
    pose proof (nested_inside b top _ Hnest Hb) as Hn2.
    apply Forall_cons in Hblk as [Hblk Hblk']. apply Forall_cons in Hpos as [Hpos Hpos']. cbn [fst snd] in *.
    apply IH; [done|]. split; [exact Hn2|split; [|split; done]]. by apply inside_nonempty.
Qed.

(** * Counting *)
Lemma disjoint_blocks_b lv :
  forallb (fun i => forallb (fun j => if (i =? j)%nat then true else
     match lv !! i, lv !! j with Some a, Some b => bool_decide (a ∩ b = ∅) | _, _ => true end)
     (seq 0 (length lv))) (seq 0 (length lv)) = true -> disjoint_blocks lv.
Proof.
  intros H i j a b Ha Hb Hij. rewrite forallb_forall in H.
  assert (Hi : In i (seq 0 (length lv))) by (apply in_seq; apply lookup_lt_Some in Ha; lia).
  assert (Hj : In j (seq 0 (length lv))) by (apply in_seq; apply lookup_lt_Some in Hb; lia).
  specialize (H i Hi). rewrite forallb_forall in H. specialize (H j Hj).
  rewrite Ha, Hb in H. replace (i =? j)%nat with false in H by (symmetry; by apply Nat.eqb_neq).
  by apply bool_decide_eq_true in H.
Qed.

Lemma disjoint_cons x lv : disjoint_blocks (x :: lv) <->
  (forall b, b ∈ lv -> x ∩ b = ∅) /\ disjoint_blocks lv.
Proof.
  split.
  - intros H. split.
    + intros b Hb. apply elem_of_list_lookup in Hb as [i Hi]. by apply (H 0%nat (S i)).
    + intros i j a b Ha Hb Hij. apply (H (S i) (S j)); auto.
  - intros [H1 H2] [|i] [|j] a b Ha Hb Hij; cbn in Ha, Hb; simplify_eq/=.
    + apply H1. by eapply elem_of_list_lookup_2.
    + rewrite (comm_L (∩)). apply H1. by eapply elem_of_list_lookup_2.
    + eapply H2; eauto.
Qed.

Lemma disjoint_sublist bs lv : bs `sublist_of` lv -> disjoint_blocks lv -> disjoint_blocks bs.
Proof.
  induction 1 as [|x l k Hlk IH|x l k Hlk IH]; intros H; [done| |].
  - apply disjoint_cons in H as [H1 H2]. apply disjoint_cons. split; [|auto].
    intros b Hb. apply H1. eapply elem_of_submseteq; eauto using sublist_submseteq.
  - apply disjoint_cons in H as [H1 H2]. auto.
Qed.

Lemma disjoint_sub bs ys : Forall2 (fun b y : procset => y ⊆ b) bs ys -> disjoint_blocks bs -> disjoint_blocks ys.
Proof.
  intros HF H i j a b Ha Hb Hij.
  destruct (Forall2_lookup_r _ _ _ _ _ HF Ha) as (a' & Ha' & Hs).
  destruct (Forall2_lookup_r _ _ _ _ _ HF Hb) as (b' & Hb' & Hs').
  specialize (H i j a' b' Ha' Hb' Hij). set_solver.
Qed.

Lemma union_size (ys : list procset) k :
  disjoint_blocks ys -> Forall (fun y : procset => Z.of_nat (size y) = k) ys ->
  Z.of_nat (size (⋃ ys)) = Z.of_nat (length ys) * k.
Proof.
  induction ys as [|y ys IH]; intros Hd Hs; [cbn; rewrite size_empty; lia|].
  apply disjoint_cons in Hd as [H1 H2]. apply Forall_cons in Hs as [Hs1 Hs2].
  cbn [union_list foldr]. rewrite size_union.
  - cbn [length]. rewrite Nat2Z.inj_add, IH, Hs1 by done. lia.
  - intros z Hz Hz'. apply elem_of_union_list in Hz' as (b & Hb & Hz'). specialize (H1 b Hb). set_solver.
Qed.

Lemma bottom_inside_Forall (P : procset -> Prop) b lv rest :
  Forall P (bottom lv rest) -> Forall P (bottom (inside b lv) rest).
Proof.
  destruct rest as [|[lv' m] rest]; cbn; [|done]. intros H. apply Forall_forall. intros x Hx.
  unfold inside in Hx. apply elem_of_list_filter in Hx as [_ Hx]. rewrite Forall_forall in H. auto.
Qed.

Lemma placement_size : forall free rest lv n k x,
  disjoint_blocks lv -> Forall (fun p => disjoint_blocks (fst p)) rest ->
  Forall (fun b : procset => Z.of_nat (size b) = k) (bottom lv rest) ->
  placement free lv n rest x ->
  Z.of_nat (size x) = total n rest * k.
Proof.
  intros free. induction rest as [|[lv2 m] rest IH]; intros lv n k x Hd Hr Hk; cbn [placement total bottom] in *.
  - intros (bs & Hs & Hl & _ & ->). rewrite (union_size _ k); [lia|by eapply disjoint_sublist|].
    apply Forall_forall. intros b Hb. rewrite Forall_forall in Hk. apply Hk.
    eapply elem_of_submseteq; eauto using sublist_submseteq.
  - apply Forall_cons in Hr as [Hr1 Hr2]. cbn [fst] in Hr1.
    intros (bs & ys & Hs & Hl & HF & ->). rewrite (union_size _ (total m rest * k)).
    + rewrite <- (Forall2_length _ _ _ HF). lia.
    + eapply (disjoint_sub bs); [|by eapply disjoint_sublist].
      eapply Forall2_impl; [exact HF|]. intros b y Hp. exact (placement_within _ _ _ _ _ _ Hp).
    + apply Forall_forall. intros y Hy. apply elem_of_list_lookup in Hy as [i Hi].
      destruct (Forall2_lookup_r _ _ _ _ _ HF Hi) as (b & Hb & Hp).
      eapply (IH (inside b lv2)); [|done|by apply bottom_inside_Forall|exact Hp].
      eapply disjoint_sublist; [apply sublist_filter'|done].
Qed.

(** * Groups *)
Lemma get_levels_Ok hy l ls : get_levels hy l = Ok ls <-> levels_of hy l ls.
Proof.
  unfold levels_of. revert ls. induction l as [|[nm n] l IH]; intros ls; cbn [get_levels].
  - split; [intros [= <-]; done|]. intros H. by apply Forall2_nil_inv_l in H as ->.
  - destruct (hy !! nm) as [lv|] eqn:E.
    + split.
      * intros H. apply rbind_Ok in H as (ls' & H & [= <-]). constructor; [done|]. by apply IH.
      * intros H. apply Forall2_cons_inv_l in H as ([lv' n'] & ls' & [H1 H2] & H & ->). cbn [fst snd] in *.
        apply IH in H. rewrite H. cbn [rbind]. rewrite E in H1. injection H1 as ->. subst n'. done.
    + split; [done|]. intros H. apply Forall2_cons_inv_l in H as ([lv' n'] & ls' & [H1 H2] & H & ->).
      cbn [fst snd] in *. congruence.
Qed.

Lemma levels_of_fun hy l ls ls' : levels_of hy l ls -> levels_of hy l ls' -> ls = ls'.
Proof. intros H1 H2. apply get_levels_Ok in H1, H2. congruence. Qed.

Lemma find_scattered_free free ls r : find_scattered free ls = Ok r -> r ⊆ free.
Proof.
  destruct ls as [|[lv n] [|p rest]]; [done| |].
  - unfold find_scattered. destruct (0 <? n) eqn:E.
    + intros [= <-]. apply extract_n_free.
    + destruct lv as [|b lv]; [done|]. rewrite extract_abh_spec by done. intros [= <-].
      destruct (n =? -1); [case_bool_decide; [by apply (union_list_subseteq (b :: lv))|apply empty_subseteq]|].
      destruct (n =? -2); [apply union_list_subseteq, free_blocks_free|].
      destruct (n =? -3); [apply union_list_subseteq, Forall_take, free_blocks_free|apply empty_subseteq].
  - intros E. change (Ok (find_n_h free lv n (p :: rest)) = Ok r) in E.
    assert (r = find_n_h free lv n (p :: rest)) as -> by congruence. apply find_n_h_free.
Qed.

Lemma find_scattered_served free ls r : proper_levels ls ->
  find_scattered free ls = Ok r ->
  (r <> ∅ -> served free ls r) /\ (forall x, served free ls x -> r <> ∅).
Proof.
  destruct ls as [|[lv n] [|p rest]]; [done| |].
  - intros (Hne & Hb & _ & _ & _ & _) E. unfold find_scattered in E. destruct (0 <? n) eqn:En.
    + injection E as <-. assert (Hn : 0 < n) by lia.
      destruct (extract_n_placement free lv n Hn Hb) as [H1 H2]. split.
      * intros Hr. split; [done|]. left. split; [lia|auto].
      * intros x [Hx [[_ H]|[(_ & -> & _)|[(_ & -> & _)|(_ & -> & _)]]]]; [eauto|lia..].
    + rewrite extract_abh_spec in E by done.
      destruct (n =? -1) eqn:E1; [|destruct (n =? -2) eqn:E2; [|destruct (n =? -3) eqn:E3]].
      all: injection E as <-.
      * assert (n = -1) as -> by lia. case_bool_decide as HF; split; try done.
        -- intros Hr. split; [done|]. right. left. done.
        -- intros x [Hx [[? _]|[(_ & _ & _ & ->)|[(_ & ? & _)|(_ & ? & _)]]]]; [lia|done|lia..].
        -- intros x [Hx [[? _]|[(_ & _ & ? & ->)|[(_ & ? & _)|(_ & ? & _)]]]]; [lia|done|lia..].
      * assert (n = -2) as -> by lia. split.
        -- intros Hr. split; [done|]. right. right. left. done.
        -- intros x [Hx [[? _]|[(_ & ? & _)|[(_ & ? & ->)|(_ & ? & _)]]]]; [lia|lia|done|lia].
      * assert (n = -3) as -> by lia. split.
        -- intros Hr. split; [done|]. right. right. right. done.
        -- intros x [Hx [[? _]|[(_ & ? & _)|[(_ & ? & _)|(_ & ? & ->)]]]]; [lia|lia|lia|done].
      * split; [done|]. intros x [Hx [[? _]|[(_ & ? & _)|[(_ & ? & _)|(_ & ? & ->)]]]]; lia.
  - intros (Hne & Hb & Hnest & Hnb & Hpos & Hn) E. destruct Hn as [Hn|Hn]; [|done].
    change (Ok (find_n_h free lv n (p :: rest)) = Ok r) in E.
    assert (r = find_n_h free lv n (p :: rest)) as -> by congruence. clear E.
    destruct p as [lv2 n2].
    destruct (find_n_h_correct free rest lv n lv2 n2 Hn) as [H1 H2]; [by split_and!|]. split.
    + intros Hr. split; [done|]. left. split; [done|]. by apply H1.
    + intros x [Hx [[_ H]|[(? & _)|[(? & _)|(? & _)]]]]; [by eapply H2|done..].
Qed.

Lemma served_within free ls x : served free ls x -> x ⊆ free.
Proof.
  intros [_ H]. destruct ls as [|[lv n] rest]; [done|].
  destruct H as [[_ H]|[(_ & _ & H & ->)|[(_ & _ & ->)|(_ & _ & ->)]]].
  - by eapply placement_free.
  - by apply union_list_subseteq.
  - apply union_list_subseteq, free_blocks_free.
  - apply union_list_subseteq, Forall_take, free_blocks_free.
Qed.

(** Both directions for the loop over groups, with its accumulator. *)
Lemma find_job_loop_spec free hy groups : forall acc r,
  find_job_loop free groups hy acc = Ok r ->
  (exists parts, r = acc ∪ ⋃ parts /\
     Forall2 (fun (g : rgroup) x => exists ls, levels_of hy (fst g) ls /\
        find_scattered (snd g ∩ free) ls = Ok x /\ x <> ∅) groups parts) \/
  (r = ∅ /\ exists g ls, g ∈ groups /\ levels_of hy (fst g) ls /\ find_scattered (snd g ∩ free) ls = Ok ∅).
Proof.
  induction groups as [|[l cs] groups IH]; intros acc r E; cbn [find_job_loop] in E.
  - injection E as <-. left. exists []. cbn. by rewrite union_empty_r_L.
  - apply rbind_Ok in E as (ls & E1 & E). apply rbind_Ok in E as (x & E2 & E).
    apply get_levels_Ok in E1. destruct (nonempty x) eqn:Ex.
    + apply nonempty_true in Ex. apply IH in E as [(parts & -> & HF)|(-> & g & ls' & Hg & H1 & H2)].
      * left. exists (x :: parts). split; [cbn [union_list foldr]; by rewrite union_assoc_L'|].
        constructor; [|done]. exists ls. done.
      * right. split; [done|]. exists g, ls'. split; [by apply elem_of_list_further|done].
    + apply nonempty_false in Ex as ->. injection E as <-. right. split; [done|].
      exists (l, cs), ls. split; [by left|done].
Qed.

Lemma find_job_within free groups hy r :
  find_resource_hierarchies_job free groups hy = Ok r ->
  r ⊆ free /\ forall x, x ∈ r -> exists g, g ∈ groups /\ x ∈ snd g.
Proof.
  intros E. apply find_job_loop_spec in E as [(parts & -> & HF)|(-> & _)]; [|split; [apply empty_subseteq|]; intros x Hx; by apply not_elem_of_empty in Hx].
  rewrite union_empty_l_L.
  assert (H : forall x, x ∈ ⋃ parts -> x ∈ free /\ exists g, g ∈ groups /\ x ∈ snd g).
  { intros x Hx. apply elem_of_union_list in Hx as (p & Hp & Hx). apply elem_of_list_lookup in Hp as [i Hi].
    destruct (Forall2_lookup_r _ _ _ _ _ HF Hi) as (g & Hg & ls & _ & Hs & _).
    apply find_scattered_free in Hs. specialize (Hs x Hx). apply elem_of_intersection in Hs as [Hs1 Hs2].
    split; [done|]. exists g. split; [by eapply elem_of_list_lookup_2|done]. }
  split; intros x Hx; try rewrite union_empty_l_L in Hx; apply H in Hx; tauto.
Qed.

Lemma find_job_sound free groups hy r :
  Forall (fun g : rgroup => exists ls, levels_of hy (fst g) ls /\ proper_levels ls) groups ->
  find_resource_hierarchies_job free groups hy = Ok r -> r <> ∅ ->
  exists parts, r = ⋃ parts /\
    Forall2 (fun (g : rgroup) x => exists ls, levels_of hy (fst g) ls /\ served (snd g ∩ free) ls x) groups parts.
Proof.
  intros Hp E Hr. apply find_job_loop_spec in E as [(parts & -> & HF)|(-> & _)]; [|done].
  rewrite union_empty_l_L. exists parts. split; [done|].
  apply Forall2_same_length_lookup in HF as [Hl HF].
  apply Forall2_same_length_lookup. split; [done|]. intros i g x Hg Hx.
  destruct (HF i g x Hg Hx) as (ls & H1 & H2 & H3). exists ls. split; [done|].
  rewrite Forall_forall in Hp. destruct (Hp g) as (ls' & H4 & H5); [by eapply elem_of_list_lookup_2|].
  assert (ls' = ls) as -> by (by eapply levels_of_fun).
  eapply find_scattered_served; eauto.
Qed.

Lemma find_job_complete free groups hy r :
  groups <> [] ->
  Forall (fun g : rgroup => exists ls, levels_of hy (fst g) ls /\ proper_levels ls) groups ->
  find_resource_hierarchies_job free groups hy = Ok r ->
  (r <> ∅ <-> Forall (fun g : rgroup => exists ls x, levels_of hy (fst g) ls /\ served (snd g ∩ free) ls x) groups).
Proof.
  intros Hne Hp E. split.
  - intros Hr. destruct (find_job_sound _ _ _ _ Hp E Hr) as (parts & _ & HF).
    apply Forall_forall. intros g Hg. apply elem_of_list_lookup in Hg as [i Hi].
    destruct (Forall2_lookup_l _ _ _ _ _ HF Hi) as (x & _ & ls & Hx). eauto.
  - intros HF. apply find_job_loop_spec in E as [(parts & -> & H)|(-> & g & ls & Hg & H1 & H2)].
    + rewrite union_empty_l_L. destruct groups as [|g groups]; [done|].
      apply Forall2_cons_inv_l in H as (x & parts' & (ls & _ & _ & Hx) & _ & ->).
      cbn. intros E. apply empty_union_L in E as [E _]. done.
    + rewrite Forall_forall in HF, Hp. destruct (HF g Hg) as (ls' & x & H3 & H4).
      destruct (Hp g Hg) as (ls'' & H5 & H6).
      pose proof (levels_of_fun _ _ _ _ H1 H3) as <-. pose proof (levels_of_fun _ _ _ _ H1 H5) as <-.
      exfalso. destruct (find_scattered_served _ _ _ H6 H2) as [_ Hs]. by apply (Hs x).
Qed.
