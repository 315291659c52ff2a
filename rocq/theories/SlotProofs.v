From Verif Require Import Base SlotModel SlotSpec.

(** list membership goals, without touching the context *)
Ltac mem := clear; rewrite ?elem_of_app, ?elem_of_cons; rewrite ?elem_of_app, ?elem_of_cons; tauto.

(** * Lists of slots *)
Fixpoint lastid (p : Z) (l : list slot) : Z :=
  match l with [] => p | s :: l' => lastid (sid s) l' end.
Fixpoint setlast (n : Z) (l : list slot) : list slot :=
  match l with
  | [] => []
  | y :: l' => match l' with [] => [set_next n y] | _ => y :: setlast n l' end
  end.
Definition sethead (p : Z) (l : list slot) : list slot :=
  match l with [] => [] | y :: l' => set_prev p y :: l' end.

Lemma linked_app p l1 l2 n :
  linked p (l1 ++ l2) n <-> linked p l1 (headid n l2) /\ linked (lastid p l1) l2 n.
Proof.
  revert p; induction l1 as [|s l1 IH]; intros p; cbn [app linked lastid]; [tauto|].
  rewrite IH. destruct l1 as [|s' l1]; cbn [headid app linked]; tauto.
Qed.

Lemma setlast_snoc n l y : setlast n (l ++ [y]) = l ++ [set_next n y].
Proof.
  induction l as [|s l IH]; [done|]. cbn [app setlast]. rewrite IH.
  destruct l; done.
Qed.

Lemma setlast_linked p l n n' : linked p l n -> linked p (setlast n' l) n'.
Proof.
  revert p; induction l as [|s l IH]; intros p; cbn [setlast]; [done|].
  destruct l as [|s' l].
  - cbn. tauto.
  - intros (H1 & H2 & H3). specialize (IH _ H3). cbn [linked headid] in *.
    split; [done|]. split; [|exact IH].
    rewrite H2. cbn [setlast]. destruct l; done.
Qed.

Lemma sethead_linked p p' l n : linked p l n -> linked p' (sethead p' l) n.
Proof. destruct l as [|s l]; cbn; [done|]. tauto. Qed.

Lemma setlast_ids n l : sid <$> setlast n l = sid <$> l.
Proof.
  induction l as [|s l IH]; [done|]. cbn [setlast]. destruct l; [done|].
  rewrite !fmap_cons in *. rewrite IH. done.
Qed.
Lemma sethead_ids p l : sid <$> sethead p l = sid <$> l.
Proof. destruct l; done. Qed.
Lemma setlast_lastid n p l : lastid p (setlast n l) = lastid p l.
Proof.
  revert p; induction l as [|s l IH]; intros p; [done|]. cbn [setlast].
  destruct l; [done|]. cbn [lastid] in *. apply IH.
Qed.
Lemma sethead_headid n p l : headid n (sethead p l) = headid n l.
Proof. destruct l; done. Qed.

Lemma contig_app t l1 l2 e :
  contig t (l1 ++ l2) e <-> exists m, contig t l1 m /\ contig (m + 1) l2 e.
Proof.
  revert t; induction l1 as [|s l1 IH]; intros t; cbn [app contig].
  - split.
    + intros H. exists (t - 1). split; [lia|]. replace (t - 1 + 1) with t by lia. done.
    + intros (m & -> & H). done.
  - rewrite IH. split.
    + intros (H1 & H2 & m & H3 & H4). exists m. tauto.
    + intros (m & (H1 & H2 & H3) & H4). eauto 6.
Qed.

Lemma contig_le t l e : contig t l e -> t <= e + 1.
Proof.
  revert t; induction l as [|s l IH]; intros t; cbn [contig]; [lia|].
  intros (H1 & H2 & H3). apply IH in H3. lia.
Qed.

Lemma setlast_contig n t l e : contig t (setlast n l) e <-> contig t l e.
Proof.
  revert t; induction l as [|s l IH]; intros t; [done|]. cbn [setlast].
  destruct l as [|s' l]; [done|]. cbn [contig] in *. rewrite IH. done.
Qed.
Lemma sethead_contig p t l e : contig t (sethead p l) e <-> contig t l e.
Proof. destruct l; done. Qed.

Lemma contig_bounds t l e s : contig t l e -> s ∈ l -> t <= sb s /\ sb s <= se s /\ se s <= e.
Proof.
  revert t; induction l as [|s' l IH]; intros t; cbn [contig]; [set_solver|].
  intros (H1 & H2 & H3) Hin. apply elem_of_cons in Hin as [->|Hin].
  - apply contig_le in H3. lia.
  - specialize (IH _ H3 Hin). lia.
Qed.

Lemma contig_cover t l e x : contig t l e -> t <= x <= e -> exists s, s ∈ l /\ sb s <= x <= se s.
Proof.
  revert t; induction l as [|s l IH]; intros t; cbn [contig]; [lia|].
  intros (H1 & H2 & H3) Hx. destruct (Z.le_gt_cases x (se s)).
  - exists s. split; [set_solver|lia].
  - destruct (IH _ H3) as (s' & Hin & Hs'); [lia|]. exists s'. split; [set_solver|done].
Qed.

(** two slots of a contiguous list containing the same instant are the same position *)
Lemma contig_unique t l e x s1 s2 :
  contig t l e -> s1 ∈ l -> s2 ∈ l -> sb s1 <= x <= se s1 -> sb s2 <= x <= se s2 -> s1 = s2.
Proof.
  revert t; induction l as [|s l IH]; intros t; cbn [contig]; [set_solver|].
  intros (H1 & H2 & H3) Hi1 Hi2 Hx1 Hx2.
  apply elem_of_cons in Hi1 as [->|Hi1]; apply elem_of_cons in Hi2 as [->|Hi2]; [done| | |].
  - pose proof (contig_bounds _ _ _ _ H3 Hi2). lia.
  - pose proof (contig_bounds _ _ _ _ H3 Hi1). lia.
  - eapply IH; eauto.
Qed.

(** * Dictionaries *)
Lemma holds_lookup m l s : holds m l -> s ∈ l -> m !! sid s = Some s.
Proof. intros H Hs. apply H. done. Qed.

Lemma holds_dget m l s : holds m l -> s ∈ l -> dget (sid s) m = Ok s.
Proof. intros H Hs. unfold dget. rewrite (holds_lookup _ _ _ H Hs). done. Qed.

Lemma holds_none m l i : holds m l -> i ∉ (sid <$> l) -> m !! i = None.
Proof.
  intros H Hi. destruct (m !! i) as [s|] eqn:E; [|done].
  apply H in E as [Hin <-]. exfalso. apply Hi. apply elem_of_list_fmap. eauto.
Qed.

Lemma nodup_mid l1 s l2 x :
  NoDup (sid <$> l1 ++ s :: l2) -> x ∈ l1 ++ l2 -> sid x <> sid s.
Proof.
  rewrite fmap_app, fmap_cons. intros H Hx.
  apply NoDup_app in H as (_ & H2 & H3). apply NoDup_cons in H3 as [H3 _].
  apply elem_of_app in Hx as [Hx|Hx].
  - intros E. apply (H2 (sid x)); [apply elem_of_list_fmap; eauto|]. rewrite E. set_solver.
  - intros E. apply H3. apply elem_of_list_fmap. eauto.
Qed.

Lemma holds_upd m l1 s l2 s' :
  holds m (l1 ++ s :: l2) -> NoDup (sid <$> l1 ++ s :: l2) -> sid s' = sid s ->
  holds (<[ sid s := s' ]> m) (l1 ++ s' :: l2).
Proof.
  intros H Hnd Hs i x. rewrite lookup_insert_Some. rewrite (H i x).
  split.
  - intros [[<- <-]|[Hne [Hx <-]]].
    + split; [set_solver|done].
    + split; [|done]. apply elem_of_app in Hx as [Hx|Hx]; [set_solver|].
      apply elem_of_cons in Hx as [->|Hx]; [done|]. set_solver.
  - intros [Hx <-]. apply elem_of_app in Hx as [Hx|Hx].
    + right. split; [|set_solver]. apply not_eq_sym.
      eapply nodup_mid; [exact Hnd|set_solver].
    + apply elem_of_cons in Hx as [->|Hx]; [left; done|].
      right. split; [|set_solver]. apply not_eq_sym.
      eapply nodup_mid; [exact Hnd|set_solver].
Qed.

Lemma holds_new m l1 n l2 :
  holds m (l1 ++ l2) -> sid n ∉ (sid <$> l1 ++ l2) ->
  holds (<[ sid n := n ]> m) (l1 ++ n :: l2).
Proof.
  intros H Hn i x. rewrite lookup_insert_Some. rewrite (H i x). split.
  - intros [[<- <-]|[Hne [Hx <-]]]; set_solver.
  - intros [Hx <-].
    assert (x = n \/ x ∈ l1 ++ l2) as [->|Hx'] by set_solver; [left; done|].
    right. split; [|done]. intros E. apply Hn. rewrite E. apply elem_of_list_fmap. eauto.
Qed.

Lemma holds_to_map m l : holds m l -> NoDup (sid <$> l) ->
  m = list_to_map ((fun s => (sid s, s)) <$> l).
Proof.
  intros H Hnd. apply map_eq. intros i.
  apply option_eq. intros s. rewrite (H i s).
  rewrite <- elem_of_list_to_map.
  - rewrite elem_of_list_fmap. split.
    + intros [Hs <-]. eauto.
    + intros (y & [= -> ->] & Hy). done.
  - rewrite <- list_fmap_compose. cbn. done.
Qed.

Lemma holds_size m l : holds m l -> NoDup (sid <$> l) -> size m = length l.
Proof.
  intros H Hnd. rewrite (holds_to_map _ _ H Hnd).
  assert (Hnd' : NoDup ((fun s : slot => (sid s, s)) <$> l).*1).
  { rewrite <- list_fmap_compose. cbn. done. }
  unfold size, map_size. rewrite (Permutation_length (map_to_list_to_map _ Hnd')).
  rewrite fmap_length. done.
Qed.

Lemma linked_prev p l n s : linked p l n -> s ∈ l -> p <> 0 ->
  Forall (fun s => sid s <> 0) l -> prev s <> 0.
Proof.
  revert p; induction l as [|s' l IH]; intros p; cbn [linked]; [set_solver|].
  intros (H1 & H2 & H3) Hin Hp HF. apply Forall_cons in HF as [HF1 HF2].
  apply elem_of_cons in Hin as [->|Hin]; [congruence|]. eapply IH; eauto.
Qed.

Lemma ids_nz ss l : Repr ss l -> Forall (fun s => sid s <> 0) l.
Proof. intros H. eapply Forall_impl; [exact (repr_ids _ _ H)|]. cbn. lia. Qed.

Lemma first_spec ss s l : Repr ss (s :: l) -> first (slots ss) = Ok s.
Proof.
  intros H. unfold first.
  pose proof (repr_linked _ _ H) as HL. cbn [linked] in HL. destruct HL as (HL1 & HL2 & HL3).
  pose proof (ids_nz _ _ H) as Hnz. apply Forall_cons in Hnz as [Hnz1 Hnz2].
  assert (Hall : forall x, x ∈ base.filter (fun s => prev s = 0) ((map_to_list (slots ss)).*2) <-> x = s).
  { intros x. rewrite elem_of_list_filter, elem_of_list_fmap. split.
    - intros (Hp & [i y] & -> & Hy). apply elem_of_map_to_list in Hy. cbn in *.
      apply (repr_map _ _ H) in Hy as [Hy _]. apply elem_of_cons in Hy as [->|Hy]; [done|].
      exfalso. eapply linked_prev; eauto.
    - intros ->. split; [done|]. exists (sid s, s). split; [done|].
      apply elem_of_map_to_list. apply (repr_map _ _ H). set_solver. }
  destruct (base.filter _ _) as [|x r] eqn:E.
  - exfalso. assert (s ∈ @nil slot) by (apply Hall; done). set_solver.
  - f_equal. apply Hall. set_solver.
Qed.

(** * Splits *)
Lemma ids_split_last (l1 : list slot) : l1 = [] \/ exists l0 y, l1 = l0 ++ [y].
Proof.
  destruct l1 as [|a l1] using rev_ind; [left; done|right; eauto].
Qed.

Lemma lastid_snoc p l y : lastid p (l ++ [y]) = sid y.
Proof. revert p; induction l as [|a l IH]; intros p; [done|]. cbn. apply IH. Qed.

Lemma dupd_ok m l s f : holds m l -> s ∈ l -> dupd (sid s) f m = Ok (<[ sid s := f s ]> m).
Proof. intros H Hs. unfold dupd. rewrite (holds_dget _ _ _ H Hs). done. Qed.

Definition cut (s : slot) (date : Z) : Z := if sb s =? date then sb s + 1 else date.

Lemma split_at_before_repr ss l1 s l2 date :
  Repr ss (l1 ++ s :: l2) -> sb s <= date <= se s -> sb s < se s ->
  exists m',
    let nid := last_id ss + 1 in
    let ss' := mkSS m' (begin_ ss) (end_ ss) nid in
    split_at_before ss (sid s) date = Ok (ss', (nid, sid s)) /\
    Repr ss' (setlast nid l1 ++
              mkSlot nid (prev s) (sid s) (sb s) (cut s date - 1) (cont s) ::
              mkSlot (sid s) nid (next s) (cut s date) (se s) (cont s) :: l2).
Proof.
  intros H Hd Hlt.
  set (nid := last_id ss + 1).
  pose proof (repr_map _ _ H) as Hm. pose proof (repr_nodup _ _ H) as Hnd.
  pose proof (repr_ids _ _ H) as Hids.
  assert (Hs : s ∈ l1 ++ s :: l2) by mem.
  pose proof (proj1 (Forall_forall _ _) Hids s Hs) as Hsid. cbn in Hsid.
  assert (Hfresh : nid ∉ (sid <$> l1 ++ s :: l2)).
  { rewrite elem_of_list_fmap. intros (x & Hx & Hin).
    pose proof (proj1 (Forall_forall _ _) Hids x Hin) as Hx'. cbn in Hx'. unfold nid in Hx. lia. }
  pose proof (repr_linked _ _ H) as HL. apply linked_app in HL as [HL1 HL2].
  cbn [linked headid] in HL1, HL2. destruct HL2 as (HLp & HLn & HL2).
  pose proof (repr_contig _ _ H) as HC. apply contig_app in HC as (mid & HC1 & HC2).
  cbn [contig] in HC2. destruct HC2 as (HCb & HCle & HC2).
  (* step 1: previous slot *)
  set (m1 := if negb (prev s =? 0) then dupd (prev s) (set_next nid) (slots ss) else Ok (slots ss)).
  assert (Hm1 : exists m1', m1 = Ok m1' /\ holds m1' (setlast nid l1 ++ s :: l2)).
  { unfold m1. destruct (ids_split_last l1) as [->|(l0 & y & ->)].
    - cbn [lastid] in HLp. rewrite HLp. cbn. eexists; split; [done|]. exact Hm.
    - rewrite lastid_snoc in HLp. rewrite HLp, setlast_snoc.
      assert (Hy : y ∈ (l0 ++ [y]) ++ s :: l2) by mem.
      pose proof (proj1 (Forall_forall _ _) Hids y Hy) as Hyid. cbn in Hyid.
      replace (sid y =? 0) with false by lia. cbn [negb].
      rewrite (dupd_ok _ _ _ _ Hm Hy). eexists; split; [done|].
      rewrite <- !app_assoc in *. cbn [app] in *. apply holds_upd; done. }
  destruct Hm1 as (m1' & Em1 & Hm1).
  assert (Hnd1 : NoDup (sid <$> setlast nid l1 ++ s :: l2)).
  { rewrite fmap_app, setlast_ids, <- fmap_app. done. }
  (* step 2,3: the slot itself *)
  set (s2 := mkSlot (sid s) nid (next s) (cut s date) (se s) (cont s)).
  set (s1 := set_prev nid s).
  assert (Hm2 : holds (<[ sid s := s1 ]> m1') (setlast nid l1 ++ s1 :: l2)).
  { apply holds_upd; done. }
  assert (Hnd2 : NoDup (sid <$> setlast nid l1 ++ s1 :: l2)).
  { rewrite fmap_app, fmap_cons in *. done. }
  assert (Hm3 : holds (<[ sid s1 := s2 ]> (<[ sid s := s1 ]> m1')) (setlast nid l1 ++ s2 :: l2)).
  { apply holds_upd; done. }
  assert (Hfresh3 : nid ∉ (sid <$> setlast nid l1 ++ s2 :: l2)).
  { rewrite fmap_app, setlast_ids, fmap_cons. rewrite fmap_app, fmap_cons in Hfresh. done. }
  set (nq := fresh_content (bool_decide (is_Some (quotas (cont s)))) ∅).
  set (n0 := mkSlot nid (prev s) (sid s) (sb s) (cut s date - 1) nq).
  set (n1 := mkSlot nid (prev s) (sid s) (sb s) (cut s date - 1) (cont s)).
  set (m3 := <[ sid s1 := s2 ]> (<[ sid s := s1 ]> m1')) in *.
  assert (Hm4 : holds (<[ sid n0 := n0 ]> m3) (setlast nid l1 ++ n0 :: s2 :: l2)).
  { apply holds_new; done. }
  assert (Hnd4 : NoDup (sid <$> setlast nid l1 ++ n0 :: s2 :: l2)).
  { rewrite fmap_app, fmap_cons. apply NoDup_app.
    rewrite fmap_app in Hnd2, Hfresh3. apply NoDup_app in Hnd2 as (Ha & Hb & Hc).
    apply not_elem_of_app in Hfresh3 as [Hf1 Hf2].
    split; [done|]. split.
    - intros x Hx. apply not_elem_of_cons. split; [|apply Hb; done].
      intros ->. apply Hf1. done.
    - apply NoDup_cons. split; done. }
  assert (Hm5 : holds (<[ sid n0 := n1 ]> (<[ sid n0 := n0 ]> m3)) (setlast nid l1 ++ n1 :: s2 :: l2)).
  { apply holds_upd; done. }
  exists (<[ sid n0 := n1 ]> (<[ sid n0 := n0 ]> m3)). cbn zeta. split.
  - unfold split_at_before. rewrite (holds_dget _ _ _ Hm Hs). cbn [rbind].
    replace (sid s =? 0) with false by lia. cbn [negb rassert].
    replace ((sb s <=? date) && (date <=? se s)) with true by lia. cbn [rassert].
    replace (sb s =? se s) with false by lia.
    fold nid. fold nq. fold m1. rewrite Em1. cbn [rbind].
    assert (Hs1 : s ∈ setlast nid l1 ++ s :: l2) by mem.
    rewrite (dupd_ok _ _ _ _ Hm1 Hs1). cbn [rbind]. fold s1.
    assert (Hs2 : s1 ∈ setlast nid l1 ++ s1 :: l2) by mem.
    change (sid s) with (sid s1).
    rewrite (dupd_ok _ _ _ _ Hm2 Hs2). cbn [rbind].
    replace (set_b (if sb s =? date then sb s + 1 else date) s1) with s2.
    2: { unfold s2, s1, cut, set_b, set_prev. done. }
    replace (mkSlot nid (prev s) (sid s1) (sb s) (if sb s =? date then sb s else date - 1) nq) with n0.
    2: { unfold n0, cut. f_equal. destruct (sb s =? date) eqn:E; lia. }
    change (sid s1) with (sid s) in *.
    fold m3. unfold copy_intervals_set.
    replace (negb (sid s =? nid) && negb (nid =? 0)) with true by (unfold nid; lia). cbn [rassert].
    assert (Hs3 : s2 ∈ setlast nid l1 ++ n0 :: s2 :: l2) by mem.
    pose proof (holds_dget _ _ _ Hm4 Hs3) as E1.
    change (sid s2) with (sid s) in E1. change (sid n0) with nid in E1.
    rewrite E1. cbn [rbind].
    assert (Hs4 : n0 ∈ setlast nid l1 ++ n0 :: s2 :: l2) by mem.
    pose proof (dupd_ok _ _ _ (set_cont (cont s2)) Hm4 Hs4) as E2.
    change (sid n0) with nid in E2. rewrite E2. cbn [rbind]. done.
  - split; cbn [slots begin_ end_ last_id].
    + destruct (setlast nid l1); done.
    + apply linked_app. split.
      * cbn [headid]. eapply setlast_linked. exact HL1.
      * rewrite setlast_lastid. cbn [linked headid prev next sid]. split; [done|].
        split; [done|]. split; [done|]. split; [done|]. exact HL2.
    + apply contig_app. exists mid. rewrite setlast_contig. split; [exact HC1|].
      assert (Hcut : sb s < cut s date <= se s).
      { unfold cut. destruct (sb s =? date) eqn:E; lia. }
      cbn [contig sb se]. split; [lia|]. split; [lia|]. split; [lia|]. split; [lia|]. exact HC2.
    + rewrite fmap_app, fmap_cons in *. done.
    + unfold nid. eapply Forall_app. apply Forall_app in Hids as [Hi1 Hi2].
      apply Forall_cons in Hi2 as [Hi2 Hi3]. split.
      * assert (Hx : Forall (fun i => 0 < i <= last_id ss + 1) (sid <$> setlast (last_id ss + 1) l1)).
        { rewrite setlast_ids. apply Forall_fmap. eapply Forall_impl; [exact Hi1|]. cbn. lia. }
        apply Forall_fmap in Hx. exact Hx.
      * repeat apply Forall_cons_2; cbn; [lia|lia|]. eapply Forall_impl; [exact Hi3|]. cbn. lia.
    + exact Hm5.
Qed.

Lemma split_at_after_repr ss l1 s l2 date :
  Repr ss (l1 ++ s :: l2) -> sb s <= date <= se s -> sb s < se s ->
  exists m',
    let nid := last_id ss + 1 in
    let ss' := mkSS m' (begin_ ss) (end_ ss) nid in
    split_at_after ss (sid s) date = Ok (ss', (sid s, nid)) /\
    Repr ss' (l1 ++
              mkSlot (sid s) (prev s) nid (sb s) (cut s date - 1) (cont s) ::
              mkSlot nid (sid s) (next s) (cut s date) (se s) (cont s) :: sethead nid l2).
Proof.
  intros H Hd Hlt.
  set (nid := last_id ss + 1).
  pose proof (repr_map _ _ H) as Hm. pose proof (repr_nodup _ _ H) as Hnd.
  pose proof (repr_ids _ _ H) as Hids.
  assert (Hs : s ∈ l1 ++ s :: l2) by mem.
  pose proof (proj1 (Forall_forall _ _) Hids s Hs) as Hsid. cbn in Hsid.
  assert (Hfresh : nid ∉ (sid <$> l1 ++ s :: l2)).
  { rewrite elem_of_list_fmap. intros (x & Hx & Hin).
    pose proof (proj1 (Forall_forall _ _) Hids x Hin) as Hx'. cbn in Hx'. unfold nid in Hx. lia. }
  pose proof (repr_linked _ _ H) as HL. apply linked_app in HL as [HL1 HL2].
  cbn [linked headid] in HL1, HL2. destruct HL2 as (HLp & HLn & HL2).
  pose proof (repr_contig _ _ H) as HC. apply contig_app in HC as (mid & HC1 & HC2).
  cbn [contig] in HC2. destruct HC2 as (HCb & HCle & HC2).
  set (m1 := if negb (next s =? 0) then dupd (next s) (set_prev nid) (slots ss) else Ok (slots ss)).
  assert (Hm1 : exists m1', m1 = Ok m1' /\ holds m1' (l1 ++ s :: sethead nid l2)).
  { unfold m1. destruct l2 as [|y l2].
    - cbn [headid] in HLn. rewrite HLn. cbn. eexists; split; [done|]. exact Hm.
    - cbn [headid] in HLn. rewrite HLn.
      assert (Hy : y ∈ l1 ++ s :: y :: l2) by mem.
      pose proof (proj1 (Forall_forall _ _) Hids y Hy) as Hyid. cbn in Hyid.
      replace (sid y =? 0) with false by lia. cbn [negb].
      rewrite (dupd_ok _ _ _ _ Hm Hy). eexists; split; [done|].
      cbn [sethead].
      replace (l1 ++ s :: y :: l2) with ((l1 ++ [s]) ++ y :: l2) in * by (rewrite <- app_assoc; done).
      replace (l1 ++ s :: set_prev nid y :: l2) with ((l1 ++ [s]) ++ set_prev nid y :: l2) by (rewrite <- app_assoc; done).
      apply holds_upd; done. }
  destruct Hm1 as (m1' & Em1 & Hm1).
  assert (Hnd1 : NoDup (sid <$> l1 ++ s :: sethead nid l2)).
  { rewrite fmap_app, fmap_cons, sethead_ids, <- fmap_cons, <- fmap_app. done. }
  set (s2 := mkSlot (sid s) (prev s) nid (sb s) (cut s date - 1) (cont s)).
  set (s1 := set_next nid s).
  assert (Hm2 : holds (<[ sid s := s1 ]> m1') (l1 ++ s1 :: sethead nid l2)).
  { apply holds_upd; done. }
  assert (Hnd2 : NoDup (sid <$> l1 ++ s1 :: sethead nid l2)).
  { rewrite fmap_app, fmap_cons in *. done. }
  set (m3 := <[ sid s1 := s2 ]> (<[ sid s := s1 ]> m1')).
  assert (Hm3 : holds m3 (l1 ++ s2 :: sethead nid l2)).
  { apply holds_upd; done. }
  assert (Hfresh3 : nid ∉ (sid <$> l1 ++ s2 :: sethead nid l2)).
  { rewrite fmap_app, fmap_cons, sethead_ids. rewrite fmap_app, fmap_cons in Hfresh. done. }
  set (nq := fresh_content (bool_decide (is_Some (quotas (cont s)))) ∅).
  set (n0 := mkSlot nid (sid s) (next s) (cut s date) (se s) nq).
  set (n1 := mkSlot nid (sid s) (next s) (cut s date) (se s) (cont s)).
  assert (Hm4 : holds (<[ sid n0 := n0 ]> m3) ((l1 ++ [s2]) ++ n0 :: sethead nid l2)).
  { apply holds_new; rewrite <- app_assoc; done. }
  assert (Hnd4 : NoDup (sid <$> (l1 ++ [s2]) ++ n0 :: sethead nid l2)).
  { rewrite <- app_assoc. rewrite fmap_app. cbn [app]. rewrite fmap_cons, fmap_cons.
    rewrite fmap_app, fmap_cons in Hnd2, Hfresh3.
    apply NoDup_app in Hnd2 as (Ha & Hb & Hc). apply NoDup_cons in Hc as [Hc Hc'].
    apply not_elem_of_app in Hfresh3 as [Hf1 Hf2]. apply not_elem_of_cons in Hf2 as [Hf2 Hf3].
    apply NoDup_app. split; [done|]. split.
    - intros x Hx. specialize (Hb x Hx). apply not_elem_of_cons in Hb as [Hb1 Hb2].
      apply not_elem_of_cons. split; [done|]. apply not_elem_of_cons. split; [|done].
      intros ->. apply Hf1. done.
    - apply NoDup_cons. split.
      + apply not_elem_of_cons. split; [|done]. intros E. apply Hf2. symmetry. done.
      + apply NoDup_cons. split; done. }
  assert (Hm5 : holds (<[ sid n0 := n1 ]> (<[ sid n0 := n0 ]> m3)) ((l1 ++ [s2]) ++ n1 :: sethead nid l2)).
  { apply holds_upd; done. }
  exists (<[ sid n0 := n1 ]> (<[ sid n0 := n0 ]> m3)). cbn zeta. split.
  - unfold split_at_after. rewrite (holds_dget _ _ _ Hm Hs). cbn [rbind].
    replace (sid s =? 0) with false by lia. cbn [negb rassert].
    replace ((sb s <=? date) && (date <=? se s)) with true by lia. cbn [rassert].
    replace (sb s =? se s) with false by lia.
    fold nid. fold nq. fold m1. rewrite Em1. cbn [rbind].
    assert (Hs1 : s ∈ l1 ++ s :: sethead nid l2) by mem.
    rewrite (dupd_ok _ _ _ _ Hm1 Hs1). cbn [rbind]. fold s1.
    assert (Hs2 : s1 ∈ l1 ++ s1 :: sethead nid l2) by mem.
    change (sid s) with (sid s1).
    rewrite (dupd_ok _ _ _ _ Hm2 Hs2). cbn [rbind].
    replace (set_e (if sb s =? date then date else date - 1) s1) with s2.
    2: { unfold s2, s1, cut, set_e, set_next. cbn. f_equal. destruct (sb s =? date) eqn:E; lia. }
    change (mkSlot nid (sid s1) (next s) (if sb s =? date then sb s + 1 else date) (se s) nq) with n0.
    change (sid s1) with (sid s) in *.
    fold m3. unfold copy_intervals_set.
    replace (negb (sid s =? nid) && negb (nid =? 0)) with true by (unfold nid; lia). cbn [rassert].
    assert (Hs3 : s2 ∈ (l1 ++ [s2]) ++ n0 :: sethead nid l2) by mem.
    pose proof (holds_dget _ _ _ Hm4 Hs3) as E1.
    change (sid s2) with (sid s) in E1. change (sid n0) with nid in E1.
    rewrite E1. cbn [rbind].
    assert (Hs4 : n0 ∈ (l1 ++ [s2]) ++ n0 :: sethead nid l2) by mem.
    pose proof (dupd_ok _ _ _ (set_cont (cont s2)) Hm4 Hs4) as E2.
    change (sid n0) with nid in E2. rewrite E2. cbn [rbind]. done.
  - split; cbn [slots begin_ end_ last_id].
    + destruct l1; done.
    + apply linked_app. split.
      * cbn [headid sid]. exact HL1.
      * cbn [linked headid prev next sid]. split; [done|].
        split; [done|]. split; [done|]. split; [rewrite sethead_headid; done|].
        eapply sethead_linked. exact HL2.
    + apply contig_app. exists mid. split; [exact HC1|].
      assert (Hcut : sb s < cut s date <= se s).
      { unfold cut. destruct (sb s =? date) eqn:E; lia. }
      cbn [contig sb se]. rewrite sethead_contig. split; [lia|]. split; [lia|]. split; [lia|]. split; [lia|]. exact HC2.
    + rewrite <- app_assoc in Hnd4. cbn [app] in Hnd4. rewrite fmap_app, !fmap_cons in *. done.
    + unfold nid. eapply Forall_app. apply Forall_app in Hids as [Hi1 Hi2].
      apply Forall_cons in Hi2 as [Hi2 Hi3]. split.
      * eapply Forall_impl; [exact Hi1|]. cbn. lia.
      * repeat apply Forall_cons_2; cbn; [lia|lia|].
        assert (Hx : Forall (fun i => 0 < i <= last_id ss + 1) (sid <$> sethead (last_id ss + 1) l2)).
        { rewrite sethead_ids. apply Forall_fmap. eapply Forall_impl; [exact Hi3|]. cbn. lia. }
        apply Forall_fmap in Hx. exact Hx.
    + rewrite <- app_assoc in Hm5. exact Hm5.
Qed.

(** * Instants *)
Definition cat (l : list slot) (t : Z) (c : content) : Prop :=
  exists s, s ∈ l /\ sb s <= t <= se s /\ cont s = c.

Lemma content_at_cat ss l t c : Repr ss l -> content_at ss t c <-> cat l t c.
Proof.
  intros H. unfold content_at, cat. split.
  - intros (i & s & Hi & Ht & Hc). apply (repr_map _ _ H) in Hi as [Hs _]. eauto.
  - intros (s & Hs & Ht & Hc). exists (sid s), s. split; [|done]. apply (repr_map _ _ H). done.
Qed.

Lemma cat_app l1 l2 t c : cat (l1 ++ l2) t c <-> cat l1 t c \/ cat l2 t c.
Proof. unfold cat. split; [intros (s & Hs & H); apply elem_of_app in Hs as [Hs|Hs]|
  intros [(s & Hs & H)|(s & Hs & H)]; exists s; rewrite elem_of_app]; eauto; naive_solver. Qed.
Lemma cat_cons s l t c : cat (s :: l) t c <-> (sb s <= t <= se s /\ cont s = c) \/ cat l t c.
Proof. unfold cat. split; [intros (s' & Hs & H); apply elem_of_cons in Hs as [->|Hs]; eauto|].
  intros [H|(s' & Hs & H)]; [exists s|exists s']; rewrite elem_of_cons; eauto. Qed.
Lemma cat_nil t c : cat [] t c <-> False.
Proof. unfold cat. split; [intros (s & Hs & _); set_solver|done]. Qed.

Lemma cat_range a l b t c : contig a l b -> cat l t c -> a <= t <= b.
Proof. intros HC (s & Hs & Ht & _). pose proof (contig_bounds _ _ _ _ HC Hs). lia. Qed.

Lemma cat_setlast n l t c : cat (setlast n l) t c <-> cat l t c.
Proof.
  destruct (ids_split_last l) as [->|(l0 & y & ->)]; [done|].
  rewrite setlast_snoc, !cat_app, !cat_cons. done.
Qed.
Lemma cat_sethead n l t c : cat (sethead n l) t c <-> cat l t c.
Proof. destruct l as [|y l]; [done|]. cbn [sethead]. rewrite !cat_cons. done. Qed.

Lemma cat_functional a l b t c1 c2 : contig a l b -> cat l t c1 -> cat l t c2 -> c1 = c2.
Proof.
  intros HC (s1 & H1 & T1 & <-) (s2 & H2 & T2 & <-). f_equal. eapply contig_unique; eauto.
Qed.

Lemma cat_total a l b t : contig a l b -> a <= t <= b -> exists c, cat l t c.
Proof. intros HC Ht. destruct (contig_cover _ _ _ _ HC Ht) as (s & Hs & Hs'). exists (cont s), s. done. Qed.

(** * Traversals *)
Lemma nodup_ids_neq (l1 : list slot) a mid s l3 :
  NoDup (sid <$> l1 ++ a :: mid ++ s :: l3) -> sid a <> sid s.
Proof.
  intros H E. rewrite fmap_app, fmap_cons in H. apply NoDup_app in H as (_ & _ & H).
  apply NoDup_cons in H as [H _]. apply H. rewrite E, fmap_app, fmap_cons. set_solver.
Qed.

Lemma traverse_loop_to ss mid : forall l1 s l3 fuel h,
  Repr ss (l1 ++ mid ++ s :: l3) -> (length mid <= fuel)%nat -> head (mid ++ [s]) = Some h ->
  traverse_loop fuel (slots ss) h (sid s) = Ok (mid ++ [s]).
Proof.
  induction mid as [|a mid IH]; intros l1 s l3 fuel h H Hf Hh.
  - cbn in Hh. injection Hh as <-. destruct fuel; cbn [traverse_loop];
      replace (sid s =? sid s) with true by lia; cbn [negb]; rewrite !andb_false_r; done.
  - cbn in Hh. injection Hh as <-.
    destruct fuel as [|fuel]; [cbn in Hf; lia|]. cbn [traverse_loop].
    pose proof (ids_nz _ _ H) as Hnz.
    pose proof (repr_linked _ _ H) as HL. apply linked_app in HL as [_ HL].
    cbn [app linked] in HL. destruct HL as (_ & HLn & _).
    assert (Ha : sid a <> 0). { apply (proj1 (Forall_forall _ _) Hnz a). mem. }
    assert (Has : sid a <> sid s). { eapply nodup_ids_neq. exact (repr_nodup _ _ H). }
    destruct (head (mid ++ [s])) as [h'|] eqn:Eh; [|destruct mid; done].
    assert (Hin : h' ∈ l1 ++ (a :: mid) ++ s :: l3).
    { destruct mid; cbn in Eh; injection Eh as <-; mem. }
    assert (Hn : next a = sid h').
    { rewrite HLn. destruct mid; cbn in Eh; injection Eh as <-; done. }
    assert (Hh0 : sid h' <> 0). { apply (proj1 (Forall_forall _ _) Hnz h'). done. }
    replace (sid a =? 0) with false by lia. replace (next a =? 0) with false by lia.
    replace (sid a =? sid s) with false by lia. cbn [negb andb].
    rewrite Hn, (holds_dget _ _ _ (repr_map _ _ H) Hin). cbn [rbind].
    rewrite (IH (l1 ++ [a]) s l3 fuel h').
    + done.
    + rewrite <- app_assoc. exact H.
    + cbn in Hf. lia.
    + exact Eh.
Qed.

Lemma traverse_loop_end ss l2 : forall l1 s fuel,
  Repr ss (l1 ++ s :: l2) -> (length l2 <= fuel)%nat ->
  traverse_loop fuel (slots ss) s 0 = Ok (s :: l2).
Proof.
  induction l2 as [|a l2 IH]; intros l1 s fuel H Hf.
  - pose proof (repr_linked _ _ H) as HL. apply linked_app in HL as [_ HL].
    cbn [linked headid] in HL. destruct HL as (_ & HLn & _).
    destruct fuel; cbn [traverse_loop]; rewrite HLn; cbn; rewrite andb_false_r; done.
  - pose proof (repr_linked _ _ H) as HL. apply linked_app in HL as [_ HL].
    cbn [linked headid] in HL. destruct HL as (_ & HLn & _).
    pose proof (ids_nz _ _ H) as Hnz.
    assert (Hs : sid s <> 0). { apply (proj1 (Forall_forall _ _) Hnz s). mem. }
    assert (Ha : sid a <> 0). { apply (proj1 (Forall_forall _ _) Hnz a). mem. }
    assert (Hin : a ∈ l1 ++ s :: a :: l2) by mem.
    destruct fuel as [|fuel]; [cbn in Hf; lia|]. cbn [traverse_loop].
    replace (sid s =? 0) with false by lia. replace (next s =? 0) with false by lia. cbn [negb andb].
    rewrite HLn, (holds_dget _ _ _ (repr_map _ _ H) Hin). cbn [rbind].
    rewrite (IH (l1 ++ [s]) a fuel); [done| |cbn in Hf; lia].
    rewrite <- app_assoc. exact H.
Qed.

Lemma repr_size ss l : Repr ss l -> size (slots ss) = length l.
Proof. intros H. apply holds_size; [exact (repr_map _ _ H)|exact (repr_nodup _ _ H)]. Qed.

Lemma repr_lookup ss l s : Repr ss l -> s ∈ l -> slots ss !! sid s = Some s.
Proof. intros H Hs. apply (repr_map _ _ H). done. Qed.

Lemma repr_dget ss l s : Repr ss l -> s ∈ l -> dget (sid s) (slots ss) = Ok s.
Proof. intros H Hs. eapply holds_dget; [exact (repr_map _ _ H)|done]. Qed.

Lemma repr_nz ss l s : Repr ss l -> s ∈ l -> sid s <> 0.
Proof. intros H Hs. apply (proj1 (Forall_forall _ _) (ids_nz _ _ H) s Hs). Qed.

Lemma traverse_id_to ss l1 mid s l3 h :
  Repr ss (l1 ++ mid ++ s :: l3) -> head (mid ++ [s]) = Some h ->
  traverse_id (slots ss) (sid h) (sid s) = Ok (mid ++ [s]).
Proof.
  intros H Hh.
  assert (Hin : h ∈ l1 ++ mid ++ s :: l3).
  { destruct mid; cbn in Hh; injection Hh as <-; mem. }
  assert (Hs : s ∈ l1 ++ mid ++ s :: l3) by mem.
  unfold traverse_id. rewrite (repr_lookup _ _ _ H Hin), (repr_lookup _ _ _ H Hs).
  rewrite !bool_decide_false by done. rewrite !andb_false_r. cbn [orb].
  pose proof (repr_nz _ _ _ H Hin). replace (sid h =? 0) with false by lia. cbn [negb].
  rewrite (repr_dget _ _ _ H Hin). cbn [rbind].
  eapply traverse_loop_to; [exact H| |exact Hh].
  rewrite (repr_size _ _ H), !app_length. cbn. lia.
Qed.

Lemma traverse_id_end ss l1 s l2 :
  Repr ss (l1 ++ s :: l2) -> traverse_id (slots ss) (sid s) 0 = Ok (s :: l2).
Proof.
  intros H. assert (Hs : s ∈ l1 ++ s :: l2) by mem.
  unfold traverse_id. rewrite (repr_lookup _ _ _ H Hs).
  rewrite !bool_decide_false by done. cbn [Z.eqb negb andb]. rewrite andb_false_r. cbn [orb].
  pose proof (repr_nz _ _ _ H Hs). replace (sid s =? 0) with false by lia. cbn [negb].
  rewrite (repr_dget _ _ _ H Hs). cbn [rbind].
  eapply traverse_loop_end; [exact H|]. rewrite (repr_size _ _ H), app_length. cbn. lia.
Qed.

Lemma traverse_id_all ss l : Repr ss l -> traverse_id (slots ss) 0 0 = Ok l.
Proof.
  intros H. destruct l as [|s l]; [destruct (repr_ne _ _ H); done|].
  unfold traverse_id. cbn [Z.eqb negb andb orb]. rewrite (first_spec _ _ _ H). cbn [rbind].
  eapply (traverse_loop_end _ _ []); [exact H|]. rewrite (repr_size _ _ H). cbn. lia.
Qed.

(** * Updating the content of a run of slots *)
Definition updc (env : qenv) (sub : bool) (j : job) (c : content) : content :=
  match upd_content env sub j c with Ok c' => c' | Err _ => c end.
Definition upds (env : qenv) (sub : bool) (j : job) (s : slot) : slot :=
  set_cont (updc env sub j (cont s)) s.

Lemma upd_content_ok env sub j c : job_ok j -> upd_content env sub j c = Ok (updc env sub j c).
Proof.
  intros [Hts Hph]. unfold updc.
  assert (exists c', upd_content env sub j c = Ok c') as [c' ->]; [|done].
  unfold upd_content, sub_content, add_content, sub_ts, sub_ph_allow, sub_ph_set, add_ts, add_ph.
  destruct (jts j) eqn:Ets.
  - destruct (Hts eq_refl) as [[u Eu] [n En]]. rewrite Eu, En. cbn [attr rbind].
    destruct (jph j =? ALLOW) eqn:E1; [|destruct (jph j =? PLACEHOLDER) eqn:E2].
    + destruct Hph as [p Ep]; [left; lia|]. rewrite Ep. cbn [attr rbind].
      replace (jph j =? PLACEHOLDER) with false by (unfold ALLOW, PLACEHOLDER in *; lia).
      destruct sub; cbn; [|eauto].
      destruct (ph_itvs c !! p); cbn; eauto.
    + destruct Hph as [p Ep]; [right; lia|]. rewrite Ep. cbn [attr rbind].
      destruct sub; cbn; eauto.
    + destruct sub; cbn; eauto.
  - cbn [rbind].
    destruct (jph j =? ALLOW) eqn:E1; [|destruct (jph j =? PLACEHOLDER) eqn:E2].
    + destruct Hph as [p Ep]; [left; lia|]. rewrite Ep. cbn [attr rbind].
      replace (jph j =? PLACEHOLDER) with false by (unfold ALLOW, PLACEHOLDER in *; lia).
      destruct sub; cbn; [|eauto].
      destruct (ph_itvs c !! p); cbn; eauto.
    + destruct Hph as [p Ep]; [right; lia|]. rewrite Ep. cbn [attr rbind].
      destruct sub; cbn; eauto.
    + destruct sub; cbn; eauto.
Qed.

Lemma upd_slots_spec env sub j mid : forall m l1 l3,
  job_ok j -> holds m (l1 ++ mid ++ l3) -> NoDup (sid <$> l1 ++ mid ++ l3) ->
  exists m', upd_slots env sub j mid m = Ok m' /\ holds m' (l1 ++ (upds env sub j <$> mid) ++ l3).
Proof.
  induction mid as [|s mid IH]; intros m l1 l3 Hj H Hnd.
  - exists m. done.
  - cbn [upd_slots]. assert (Hs : s ∈ l1 ++ (s :: mid) ++ l3) by mem.
    rewrite (holds_dget _ _ _ H Hs). cbn [rbind].
    rewrite upd_content_ok by done. cbn [rbind].
    fold (upds env sub j s).
    destruct (IH (<[ sid s := upds env sub j s ]> m) (l1 ++ [upds env sub j s]) l3) as (m' & E & Hm').
    + done.
    + rewrite <- app_assoc. cbn [app]. apply holds_upd; done.
    + rewrite <- app_assoc. cbn [app] in *. rewrite fmap_app, fmap_cons in *. done.
    + exists m'. split; [exact E|]. rewrite <- app_assoc in Hm'. exact Hm'.
Qed.

Lemma upds_linked env sub j p l n : linked p (upds env sub j <$> l) n <-> linked p l n.
Proof.
  revert p; induction l as [|s l IH]; intros p; [done|].
  rewrite fmap_cons. cbn [linked]. rewrite IH. destruct l; done.
Qed.
Lemma upds_contig env sub j t l e : contig t (upds env sub j <$> l) e <-> contig t l e.
Proof.
  revert t; induction l as [|s l IH]; intros t; [done|].
  rewrite fmap_cons. cbn [contig]. rewrite IH. done.
Qed.
Lemma upds_ids env sub j (l : list slot) : sid <$> (upds env sub j <$> l) = sid <$> l.
Proof. rewrite <- list_fmap_compose. done. Qed.
Lemma upds_cat env sub j l t c' :
  cat (upds env sub j <$> l) t c' <-> exists c, cat l t c /\ c' = updc env sub j c.
Proof.
  induction l as [|s l IH].
  - rewrite cat_nil. split; [done|]. intros (c & Hc & _). apply cat_nil in Hc. done.
  - rewrite fmap_cons, cat_cons, IH. cbn [upds set_cont sb se cont]. split.
    + intros [[Ht <-]|(c & Hc & ->)]; [exists (cont s)|exists c]; rewrite cat_cons; eauto.
    + intros (c & Hc & ->). rewrite cat_cons in Hc. destruct Hc as [[Ht <-]|Hc]; eauto.
Qed.

Lemma upds_headid env sub j n l : headid n (upds env sub j <$> l) = headid n l.
Proof. destruct l; done. Qed.
Lemma upds_lastid env sub j p l : lastid p (upds env sub j <$> l) = lastid p l.
Proof. revert p; induction l as [|s l IH]; intros p; [done|]. rewrite fmap_cons. cbn. apply IH. Qed.

Lemma upd_repr env sub j ss l1 mid l3 m' :
  Repr ss (l1 ++ mid ++ l3) -> holds m' (l1 ++ (upds env sub j <$> mid) ++ l3) ->
  Repr (mkSS m' (begin_ ss) (end_ ss) (last_id ss)) (l1 ++ (upds env sub j <$> mid) ++ l3).
Proof.
  intros H Hm'. split; cbn [slots begin_ end_ last_id].
  - pose proof (repr_ne _ _ H) as Hne. intros E. apply Hne.
    apply app_eq_nil in E as [-> E]. apply app_eq_nil in E as [E ->].
    apply fmap_nil_inv in E as ->. done.
  - pose proof (repr_linked _ _ H) as HL. rewrite !linked_app in *.
    rewrite upds_linked, upds_lastid.
    replace (headid 0 ((upds env sub j <$> mid) ++ l3)) with (headid 0 (mid ++ l3)) by (destruct mid; done).
    done.
  - pose proof (repr_contig _ _ H) as HC. apply contig_app in HC as (a & HC1 & HC2).
    apply contig_app in HC2 as (b & HC2 & HC3).
    apply contig_app. exists a. split; [done|]. apply contig_app. exists b.
    rewrite upds_contig. done.
  - pose proof (repr_nodup _ _ H) as Hnd. rewrite !fmap_app in *. rewrite upds_ids. done.
  - pose proof (repr_ids _ _ H) as Hi. rewrite !Forall_app in *. destruct Hi as (H1 & H2 & H3).
    split; [done|]. split; [|done]. apply Forall_fmap. exact H2.
  - exact Hm'.
Qed.

(** * split_slots *)
Definition headb (l : list slot) : Z := match l with [] => 0 | s :: _ => sb s end.

Lemma split_left_step ss l1 mid R l3 L start :
  Repr ss (l1 ++ mid ++ R :: l3) -> head (mid ++ [R]) = Some L ->
  (sb L < start -> start <= se L) ->
  exists ss1 l1' mid' R',
    (if sb L <? start
     then '(ss', (_, l)) <-- split_at_before ss (sid L) start ;; Ok (ss', l)
     else Ok (ss, sid L)) = Ok (ss1, sid L) /\
    Repr ss1 (l1' ++ mid' ++ R' :: l3) /\ begin_ ss1 = begin_ ss /\ end_ ss1 = end_ ss /\
    last_id ss <= last_id ss1 /\
    headid 0 (mid' ++ [R']) = sid L /\ headb (mid' ++ [R']) = Z.max (sb L) start /\
    sid R' = sid R /\ se R' = se R /\ sb R' = Z.max (sb R) start /\
    (forall t c, cat (l1' ++ mid' ++ R' :: l3) t c <-> cat (l1 ++ mid ++ R :: l3) t c).
Proof.
  intros H Hh Hst.
  destruct (sb L <? start) eqn:Elt; cycle 1.
  { assert (Hsb : sb L <= sb R).
    { pose proof (repr_contig _ _ H) as HC. apply contig_app in HC as (a & _ & HC).
      destruct mid as [|L' mid]; cbn in Hh; injection Hh as <-; [lia|].
      cbn [app contig] in HC. destruct HC as (_ & HC2 & HC3).
      assert (HinR : R ∈ mid ++ R :: l3) by mem.
      pose proof (contig_bounds _ _ _ _ HC3 HinR). lia. }
    exists ss, l1, mid, R. split; [done|]. split; [exact H|].
    split; [done|]. split; [done|]. split; [lia|].
    split; [destruct mid; cbn in Hh; injection Hh as <-; done|].
    split; [destruct mid; cbn in Hh; injection Hh as <-; cbn; lia|].
    split; [done|]. split; [done|]. split; [|done].
    destruct (Z.le_gt_cases (start) (sb L)); lia. }
  assert (Hd : sb L <= start <= se L) by lia. assert (Hlt : sb L < se L) by lia.
  destruct mid as [|L' mid]; cbn in Hh; injection Hh as ->.
  - cbn [app] in H. destruct (split_at_before_repr ss l1 L l3 start H Hd Hlt) as (m' & E & HR).
    rewrite E. cbn [rbind].
    eexists _, (setlast _ l1 ++ [_]), [], _. split; [done|]. split.
    { rewrite <- app_assoc. exact HR. }
    cbn [begin_ end_ last_id app headid sid headb sb se]. unfold cut.
    replace (sb L =? start) with false by lia.
    repeat split; try done; try lia.
    + rewrite <- app_assoc. cbn [app]. rewrite !cat_app, !cat_cons, cat_setlast. cbn [sb se cont].
      intros [?|[[? ?]|[[? ?]|?]]]; auto; right; left; split; try done; lia.
    + rewrite <- app_assoc. cbn [app]. rewrite !cat_app, !cat_cons, cat_setlast. cbn [sb se cont].
      intros [?|[[? ?]|?]]; auto. destruct (Z.le_gt_cases start t); [right; right; left|right; left]; split; try done; lia.
  - cbn [app] in H. destruct (split_at_before_repr ss l1 L (mid ++ R :: l3) start H Hd Hlt) as (m' & E & HR).
    rewrite E. cbn [rbind].
    eexists _, (setlast _ l1 ++ [_]), (_ :: mid), R. split; [done|]. split.
    { rewrite <- app_assoc. exact HR. }
    cbn [begin_ end_ last_id app headid sid headb sb se]. unfold cut.
    replace (sb L =? start) with false by lia.
    assert (HsR : se L < sb R).
    { pose proof (repr_contig _ _ H) as HC. apply contig_app in HC as (a & _ & HC).
      cbn [contig] in HC. destruct HC as (_ & _ & HC3).
      assert (HinR : R ∈ mid ++ R :: l3) by mem.
      pose proof (contig_bounds _ _ _ _ HC3 HinR). lia. }
    repeat split; try done; try lia.
    + rewrite <- app_assoc. cbn [app]. rewrite !cat_app, !cat_cons, !cat_app, !cat_cons, cat_setlast. cbn [sb se cont].
      intros [?|[[? ?]|[[? ?]|?]]]; auto; right; left; split; try done; lia.
    + rewrite <- app_assoc. cbn [app]. rewrite !cat_app, !cat_cons, !cat_app, !cat_cons, cat_setlast. cbn [sb se cont].
      intros [?|[[? ?]|?]]; auto. destruct (Z.le_gt_cases start t); [right; right; left|right; left]; split; try done; lia.
Qed.

(** the last second touched by a job ending at [stop = start + walltime] when the right slot is [R] *)
Definition last_touched (stop rb re : Z) : Z :=
  if stop <? re then (if rb =? stop then stop else stop - 1) else re.

Lemma split_right_step ss l1 R l3 stop :
  Repr ss (l1 ++ R :: l3) -> sb R <= stop ->
  exists ss1 R' l3',
    (if stop <? se R
     then '(ss', (r, _)) <-- split_at_after ss (sid R) stop ;; Ok (ss', r)
     else Ok (ss, sid R)) = Ok (ss1, sid R) /\
    Repr ss1 (l1 ++ R' :: l3') /\ begin_ ss1 = begin_ ss /\ end_ ss1 = end_ ss /\
    last_id ss <= last_id ss1 /\
    sid R' = sid R /\ sb R' = sb R /\ se R' = last_touched stop (sb R) (se R) /\
    (forall t c, cat (l1 ++ R' :: l3') t c <-> cat (l1 ++ R :: l3) t c).
Proof.
  intros H Hsb. unfold last_touched.
  destruct (stop <? se R) eqn:Elt; cycle 1.
  { exists ss, R, l3. split; [done|]. split; [exact H|].
    split; [done|]. split; [done|]. split; [lia|]. done. }
  assert (Hd : sb R <= stop <= se R) by lia. assert (Hlt : sb R < se R) by lia.
  destruct (split_at_after_repr ss l1 R l3 stop H Hd Hlt) as (m' & E & HR).
  rewrite E. cbn [rbind].
  eexists _, _, _. split; [done|]. split; [exact HR|].
  cbn [begin_ end_ last_id sid sb se]. unfold cut.
  repeat split; try done; try lia; try (destruct (sb R =? stop) eqn:E2; lia).
  - rewrite !cat_app, !cat_cons, cat_sethead. cbn [sb se cont].
    intros [?|[[? ?]|[[? ?]|?]]]; auto; right; left; split; try done; destruct (sb R =? stop) eqn:E2; lia.
  - rewrite !cat_app, !cat_cons, cat_sethead. cbn [sb se cont].
    intros [?|[[? ?]|?]]; auto.
    set (d := if sb R =? stop then sb R + 1 else stop).
    destruct (Z.le_gt_cases d t); [right; right; left|right; left]; split; try done; lia.
Qed.

Lemma split_slots_spec env ss l1 mid R l3 L j sub :
  Repr ss (l1 ++ mid ++ R :: l3) -> head (mid ++ [R]) = Some L -> job_ok j ->
  0 <= walltime j -> start_time j <= se L -> sb R <= start_time j + walltime j ->
  let lo := Z.max (sb L) (start_time j) in
  let hi := last_touched (start_time j + walltime j) (Z.max (sb R) (start_time j)) (se R) in
  exists ss', split_slots env ss (sid L) (sid R) j sub = Ok ss' /\
    WF ss' /\ begin_ ss' = begin_ ss /\ end_ ss' = end_ ss /\
    (exists l1' L' l2', Repr ss' (l1' ++ L' :: l2') /\ sid L' = sid L /\ sb L' = lo) /\
    (forall t c', content_at ss' t c' <->
       exists c, content_at ss t c /\ c' = if (lo <=? t) && (t <=? hi) then updc env sub j c else c).
Proof.
  intros H Hh Hj Hw Hst HsR lo hi.
  destruct (split_left_step ss l1 mid R l3 L (start_time j) H Hh) as
    (ss1 & l1' & mid' & R1 & E1 & H1 & Hb1 & He1 & Hl1 & Hhd1 & Hhb1 & HiR1 & HeR1 & HbR1 & Hcat1); [lia|].
  rewrite app_assoc in H1.
  destruct (split_right_step ss1 (l1' ++ mid') R1 l3 (start_time j + walltime j) H1) as
    (ss2 & R2 & l3' & E2 & H2 & Hb2 & He2 & Hl2 & HiR2 & HbR2 & HeR2 & Hcat2); [lia|].
  assert (HL : L ∈ l1 ++ mid ++ R :: l3).
  { destruct mid; cbn in Hh; injection Hh as <-; mem. }
  assert (HR1 : R1 ∈ (l1' ++ mid') ++ R1 :: l3) by mem.
  unfold split_slots. rewrite (repr_dget _ _ _ H HL). cbn [rbind].
  rewrite E1. cbn [rbind]. rewrite <- HiR1. rewrite (repr_dget _ _ _ H1 HR1). cbn [rbind].
  rewrite E2. cbn [rbind]. rewrite <- HiR2.
  rewrite <- app_assoc in H2.
  destruct (head (mid' ++ [R2])) as [h2|] eqn:Eh2; [|destruct mid'; done].
  assert (Hh2 : sid h2 = sid L).
  { rewrite <- Hhd1. destruct mid'; cbn in Eh2; injection Eh2 as <-; cbn [app headid]; congruence. }
  assert (Hhb2 : sb h2 = lo).
  { unfold lo. rewrite <- Hhb1. destruct mid'; cbn in Eh2; injection Eh2 as <-; cbn [app headb]; congruence. }
  rewrite <- Hh2. rewrite (traverse_id_to _ _ _ _ _ _ H2 Eh2). cbn [rbind].
  replace (l1' ++ mid' ++ R2 :: l3') with (l1' ++ (mid' ++ [R2]) ++ l3') in H2 by (rewrite <- app_assoc; done).
  destruct (upd_slots_spec env sub j (mid' ++ [R2]) (slots ss2) l1' l3' Hj
      (repr_map _ _ H2) (repr_nodup _ _ H2)) as (m' & E3 & Hm').
  rewrite E3. cbn [rbind].
  pose proof (upd_repr env sub j ss2 l1' (mid' ++ [R2]) l3' m' H2 Hm') as H3.
  eexists. split; [done|].
  assert (HWF : Repr (mkSS m' (begin_ ss2) (end_ ss2) (last_id ss2))
                 (l1' ++ (upds env sub j <$> mid' ++ [R2]) ++ l3')) by exact H3.
  split; [eexists; exact HWF|]. cbn [begin_ end_].
  split; [congruence|]. split; [congruence|]. split.
  { exists l1', (upds env sub j h2).
    assert (Em : exists r, mid' ++ [R2] = h2 :: r).
    { destruct mid'; cbn in Eh2; injection Eh2 as <-; eexists; done. }
    destruct Em as [r Er]. exists ((upds env sub j <$> r) ++ l3').
    rewrite Er, fmap_cons in HWF. cbn [app] in HWF. split; [exact HWF|].
    cbn. done. }
  (* instants *)
  pose proof (repr_contig _ _ H2) as HC. apply contig_app in HC as (a & HC1 & HC2).
  apply contig_app in HC2 as (b & HC2 & HC3).
  assert (Ha : a + 1 = lo).
  { assert (Em : exists r, mid' ++ [R2] = h2 :: r).
    { destruct mid'; cbn in Eh2; injection Eh2 as <-; eexists; done. }
    destruct Em as [r Er]. rewrite Er in HC2. cbn [contig] in HC2. lia. }
  assert (Hb : b = hi).
  { apply contig_app in HC2 as (b0 & _ & HC2). cbn [contig] in HC2. unfold hi.
    rewrite HeR2, HbR1, HeR1 in HC2. lia. }
  intros t c'. rewrite (content_at_cat _ _ _ _ HWF).
  setoid_rewrite (content_at_cat _ _ _ _ H).
  setoid_rewrite <- Hcat1. 
  replace (l1' ++ mid' ++ R1 :: l3) with ((l1' ++ mid') ++ R1 :: l3) by (rewrite <- app_assoc; done).
  setoid_rewrite <- Hcat2.
  replace ((l1' ++ mid') ++ R2 :: l3') with (l1' ++ (mid' ++ [R2]) ++ l3') by (rewrite <- !app_assoc; done).
  rewrite !cat_app. rewrite upds_cat. split.
  - intros [Hc|[(c & Hc & ->)|Hc]].
    + exists c'. rewrite !cat_app. split; [tauto|].
      pose proof (cat_range _ _ _ _ _ HC1 Hc). replace (lo <=? t) with false by lia. done.
    + exists c. rewrite !cat_app. rewrite cat_app in Hc. split; [tauto|].
      rewrite <- cat_app in Hc. pose proof (cat_range _ _ _ _ _ HC2 Hc).
      replace ((lo <=? t) && (t <=? hi)) with true by lia. done.
    + exists c'. rewrite !cat_app. split; [tauto|].
      pose proof (cat_range _ _ _ _ _ HC3 Hc).
      replace ((lo <=? t) && (t <=? hi)) with false by lia. done.
  - intros (c & Hc & ->). rewrite !cat_app in Hc. destruct Hc as [Hc|[Hc|Hc]].
    + left. pose proof (cat_range _ _ _ _ _ HC1 Hc). replace (lo <=? t) with false by lia. done.
    + right; left. rewrite <- cat_app in Hc. exists c. split; [done|].
      pose proof (cat_range _ _ _ _ _ HC2 Hc).
      replace ((lo <=? t) && (t <=? hi)) with true by lia. done.
    + right; right. pose proof (cat_range _ _ _ _ _ HC3 Hc).
      replace ((lo <=? t) && (t <=? hi)) with false by lia. done.
Qed.
