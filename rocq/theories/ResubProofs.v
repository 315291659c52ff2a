(** Lemmas on the copy of a request. *)
From Verif Require Import Base HierarchyModel SubmitModel SubmitSpec SubmitProofs SubmitRead ResubModel.

(** ** Sorting rows given in any order *)
Lemma insert_by_perm {A} (key : A -> Z) (x : A) (l : list A) : insert_by key x l ≡ₚ x :: l.
Proof.
  induction l as [|y l IH]; [done|]. cbn [insert_by]. destruct (key x <=? key y); [done|]. rewrite IH. constructor.
Qed.
Lemma sort_by_perm {A} (key : A -> Z) (l : list A) : sort_by key l ≡ₚ l.
Proof. induction l as [|x l IH]; [done|]. cbn [sort_by]. by rewrite insert_by_perm, IH. Qed.
Lemma insert_by_comm {A} (key : A -> Z) (x y : A) (l : list A) : key x <> key y ->
  insert_by key x (insert_by key y l) = insert_by key y (insert_by key x l).
Proof.
  intros Hne. induction l as [|z l IH]; cbn [insert_by].
  - destruct (Z.leb_spec (key x) (key y)), (Z.leb_spec (key y) (key x)); try done; lia.
  - destruct (Z.leb_spec (key y) (key z)), (Z.leb_spec (key x) (key z)); cbn [insert_by].
    + destruct (Z.leb_spec (key x) (key y)), (Z.leb_spec (key y) (key x)); try lia; cbn [insert_by].
      * destruct (Z.leb_spec (key y) (key z)); [done|lia].
      * destruct (Z.leb_spec (key x) (key z)); [done|lia].
    + destruct (Z.leb_spec (key x) (key y)); [lia|].
      destruct (Z.leb_spec (key x) (key z)); [lia|]. destruct (Z.leb_spec (key y) (key z)); [done|lia].
    + destruct (Z.leb_spec (key x) (key z)); [|lia]. destruct (Z.leb_spec (key y) (key x)); [lia|].
      destruct (Z.leb_spec (key y) (key z)); [lia|done].
    + destruct (Z.leb_spec (key x) (key z)); [lia|]. destruct (Z.leb_spec (key y) (key z)); [lia|]. by rewrite IH.
Qed.
Lemma sort_by_perm_eq {A} (key : A -> Z) (l k : list A) : l ≡ₚ k -> NoDup (key <$> l) -> sort_by key l = sort_by key k.
Proof.
  induction 1 as [|x l k Hp IH|x y l|l k k' Hp1 IH1 Hp2 IH2]; intros Hnd.
  - done.
  - cbn [sort_by]. rewrite fmap_cons in Hnd. apply NoDup_cons in Hnd as [_ Hnd]. by rewrite IH.
  - cbn [sort_by]. rewrite !fmap_cons in Hnd. apply NoDup_cons in Hnd as [Hx _]. apply insert_by_comm.
    intros He. apply Hx. rewrite He. left.
  - rewrite IH1 by done. apply IH2. by rewrite <- Hp1.
Qed.
Lemma sort_by_map {A} (key : A -> Z) (f : A -> A) : (forall x, key (f x) = key x) ->
  forall l, sort_by key (f <$> l) = f <$> sort_by key l.
Proof.
  intros Hf. assert (Hi : forall x l, insert_by key (f x) (f <$> l) = f <$> insert_by key x l).
  { intros x l. induction l as [|y l IH]; [done|]. rewrite fmap_cons. cbn [insert_by]. rewrite !Hf.
    destruct (key x <=? key y); [done|]. rewrite fmap_cons, IH. done. }
  induction l as [|x l IH]; [done|]. rewrite fmap_cons. cbn [sort_by]. by rewrite IH, Hi.
Qed.

Lemma Forall2_impl' {A B} (P Q : A -> B -> Prop) (l : list A) (k : list B) : Forall2 P l k ->
  (forall x y, x ∈ l -> y ∈ k -> P x y -> Q x y) -> Forall2 Q l k.
Proof.
  induction 1 as [|x y l k H1 H2 IH]; intros H; constructor.
  - apply H; [left|left|done].
  - apply IH. intros a b Ha Hb. apply H; by right.
Qed.

(** The ranks of the levels of a group are distinct. *)
Definition ranked (d : db) : Prop := forall g, NoDup (dord <$> base.filter (fun x => dgrp x = g) (descs d)).

Section copies.
  Variable rm : list mldrow -> list mldrow.
  Variable rg : list grprow -> list grprow.
  Variable rd : list descrow -> list descrow.
  Hypothesis Hrm : forall l, rm l ≡ₚ l.
  Hypothesis Hrg : forall l, rg l ≡ₚ l.
  Hypothesis Hrd : forall l, rd l ≡ₚ l.
  (** Either the rows of levels come in the order of insertion, or their ranks tell the order. *)
  Definition orderly (d : db) : Prop := ranked d \/ forall l, rd l = l.

  Definition relabel (g' : Z) (x : descrow) : descrow := mkDesc g' (dtype x) (dval x) (dord x).
  Lemma fold_insert_descs (g' : Z) : forall l d,
    fold_left (fun d x => insert_descs [relabel g' x] d) l d = insert_descs (relabel g' <$> l) d.
  Proof.
    induction l as [|x l IH]; intros d; [by destruct d; unfold insert_descs; cbn; rewrite app_nil_r|]. cbn [fold_left].
    rewrite IH, insert_descs_app. done.
  Qed.
  Lemma copy_levels_eq g g' d : copy_levels rd g g' d = insert_descs (relabel g' <$> rd (base.filter (fun x => dgrp x = g) (descs d))) d.
  Proof. unfold copy_levels. apply fold_insert_descs. Qed.

  (** One group. *)
  Definition add_group (m' : Z) (d : db) (g : grprow) : db := copy_levels rd (gid g) (ng d) (insert_grps [(m', gprop g)] d).
  Lemma add_group_grps m' d g : grps (add_group m' d g) = grps d ++ [mkGrp (ng d) m' (gprop g)].
  Proof. unfold add_group. rewrite copy_levels_eq. cbn [grps insert_descs insert_grps length]. done. Qed.
  Lemma add_group_descs m' d g :
    descs (add_group m' d g) = descs d ++ (relabel (ng d) <$> rd (base.filter (fun x => dgrp x = gid g) (descs d))).
  Proof. unfold add_group. rewrite copy_levels_eq. done. Qed.
  Lemma add_group_ng m' d g : ng (add_group m' d g) = ng d + 1.
  Proof. unfold add_group. rewrite copy_levels_eq. done. Qed.
  Lemma add_group_same m' d g : same_but_groups d (add_group m' d g).
  Proof. unfold add_group. rewrite copy_levels_eq. done. Qed.
  Lemma relabel_filter_ne g' g (l : list descrow) : g' <> g -> base.filter (fun x => dgrp x = g) (relabel g' <$> l) = [].
  Proof. intros H. apply filter_none. intros x (y & -> & _)%elem_of_list_fmap. done. Qed.
  Lemma relabel_filter_eq g' (l : list descrow) : base.filter (fun x => dgrp x = g') (relabel g' <$> l) = relabel g' <$> l.
  Proof. apply filter_all. intros x (y & -> & _)%elem_of_list_fmap. done. Qed.
  Lemma wf_add_group m' d g : wf d -> 1 <= m' < nm d -> wf (add_group m' d g).
  Proof.
    intros Hwf Hm. unfold add_group. rewrite copy_levels_eq.
    assert (W1 : wf (insert_grps [(m', gprop g)] d)).
    { apply wf_insert_grps; [done|]. intros x ->%elem_of_list_singleton. done. }
    eapply wf_same_but_descs; [exact W1|done|]. cbn [descs insert_descs insert_grps ng length].
    intros x [Hx|Hx]%elem_of_app; [pose proof (wf_d _ Hwf x Hx); lia|].
    apply elem_of_list_fmap in Hx as (y & -> & _). cbn [relabel dgrp]. pose proof (wf_n _ Hwf); lia.
  Qed.
  Lemma add_group_levels_old m' d g k : k <> ng d -> levels_of (add_group m' d g) k = levels_of d k.
  Proof.
    intros Hk. unfold levels_of. rewrite add_group_descs, filter_app, relabel_filter_ne by congruence. by rewrite app_nil_r.
  Qed.
  Lemma filter_fresh d : wf d -> base.filter (fun x => dgrp x = ng d) (descs d) = [].
  Proof. intros Hwf. apply filter_none. intros x Hx. pose proof (wf_d _ Hwf x Hx). lia. Qed.
  Lemma add_group_levels_new m' d g : wf d -> orderly d -> levels_of (add_group m' d g) (ng d) = levels_of d (gid g).
  Proof.
    intros Hwf Ho. unfold levels_of. rewrite add_group_descs, filter_app, filter_fresh, relabel_filter_eq by done. cbn [app].
    rewrite sort_by_map by done. rewrite <- list_fmap_compose. cbn [compose relabel dtype dval].
    assert (E : sort_by dord (rd (base.filter (fun x => dgrp x = gid g) (descs d))) = sort_by dord (base.filter (fun x => dgrp x = gid g) (descs d))).
    { destruct Ho as [Ho|Ho]; [|by rewrite Ho]. apply sort_by_perm_eq; [apply Hrd|]. rewrite Hrd. apply Ho. }
    rewrite E. done.
  Qed.
  Lemma orderly_add_group m' d g : wf d -> orderly d -> orderly (add_group m' d g).
  Proof.
    intros Hwf [Ho|Ho]; [left|by right]. intros k. rewrite add_group_descs, filter_app.
    destruct (decide (k = ng d)) as [->|Hk].
    - rewrite filter_fresh, relabel_filter_eq by done. cbn [app]. rewrite <- list_fmap_compose.
      change (dord ∘ relabel (ng d)) with dord. rewrite Hrd. apply Ho.
    - rewrite relabel_filter_ne by congruence. rewrite app_nil_r. apply Ho.
  Qed.
  Lemma groups_of_same d d' m : grps d' = grps d -> (forall g, g ∈ grps d -> levels_of d' (gid g) = levels_of d (gid g)) ->
    wf d -> groups_of d' m = groups_of d m.
  Proof.
    intros E H Hwf. rewrite !groups_of_filter; [|apply Hwf|rewrite E; apply Hwf]. rewrite E. apply list_fmap_ext.
    intros i g Hg. apply elem_of_list_lookup_2, elem_of_list_filter in Hg as [_ Hg]. by rewrite H.
  Qed.
  Lemma add_group_groups m' d g m : wf d -> 1 <= m' < nm d -> orderly d ->
    groups_of (add_group m' d g) m = groups_of d m ++ (if decide (m = m') then [(gprop g, levels_of d (gid g))] else []).
  Proof.
    intros Hwf Hm Ho. rewrite !groups_of_filter; [|apply Hwf|by apply wf_add_group]. rewrite add_group_grps, filter_app, fmap_app.
    f_equal.
    - apply list_fmap_ext. intros i h Hh. apply elem_of_list_lookup_2, elem_of_list_filter in Hh as [_ Hh].
      rewrite add_group_levels_old; [done|]. pose proof (wf_gb _ Hwf h Hh). lia.
    - destruct (decide (m = m')) as [->|Hne].
      + rewrite filter_cons_True by done. cbn [fmap list_fmap base.filter list_filter gprop gid]. by rewrite add_group_levels_new.
      + rewrite filter_cons_False by (cbn; congruence). done.
  Qed.

  (** The groups of an instance. *)
  Definition add_groups_of (m' : Z) (L : list grprow) (d : db) : db := fold_left (add_group m') L d.
  Lemma add_groups_of_spec m' : forall L d, wf d -> 1 <= m' < nm d -> orderly d -> (forall g, g ∈ L -> gid g < ng d) ->
    let d' := add_groups_of m' L d in
    wf d' /\ orderly d' /\ same_but_groups d d' /\
    (forall m, groups_of d' m = groups_of d m ++ (if decide (m = m') then (fun g => (gprop g, levels_of d (gid g))) <$> L else [])) /\
    (forall k, k < ng d -> levels_of d' k = levels_of d k) /\
    (forall m, m <> m' -> base.filter (fun g => gmld g = m) (grps d') = base.filter (fun g => gmld g = m) (grps d)) /\ ng d <= ng d'.
  Proof.
    induction L as [|g L IH]; intros d Hwf Hm Ho HL; cbv zeta.
    - cbn [add_groups_of fold_left]. split; [done|]. split; [done|]. split; [done|]. split.
      + intros m. destruct (decide (m = m')); by rewrite app_nil_r.
      + split; [done|]. split; [done|]. lia.
    - unfold add_groups_of. cbn [fold_left]. fold (add_groups_of m' L (add_group m' d g)).
      pose proof (add_group_same m' d g) as Hs. destruct Hs as (S1 & S2 & S3 & S4 & S5 & S6 & S7).
      destruct (IH (add_group m' d g)) as (W & O & S & G & V & F & N).
      + by apply wf_add_group.
      + by rewrite S7.
      + by apply orderly_add_group.
      + intros h Hh. rewrite add_group_ng. specialize (HL h ltac:(by right)). lia.
      + rewrite add_group_ng in V, N. split; [done|]. split; [done|]. split.
        { destruct S as (T1 & T2 & T3 & T4 & T5 & T6 & T7). unfold same_but_groups. by rewrite T1, T2, T3, T4, T5, T6, T7. }
        split.
        { intros m. rewrite G, add_group_groups by done. rewrite <- app_assoc. f_equal.
          destruct (decide (m = m')); [|done]. rewrite fmap_cons. cbn [app]. f_equal. apply list_fmap_ext.
          intros i h Hh. apply elem_of_list_lookup_2 in Hh. specialize (HL h ltac:(by right)). rewrite add_group_levels_old by lia. done. }
        split; [|split; [|lia]].
        * intros k Hk. rewrite V by lia. apply add_group_levels_old. lia.
        * intros m Hne. rewrite F by done. rewrite add_group_grps, filter_app. rewrite filter_cons_False by (cbn; congruence). by rewrite app_nil_r.
  Qed.
  Lemma copy_groups_eq m m' d : copy_groups rg rd m m' d = add_groups_of m' (rg (base.filter (fun g => gmld g = m) (grps d))) d.
  Proof. done. Qed.

  (** One instance. *)
  Definition add_instance (j' : Z) (d : db) (m : mldrow) : db := copy_groups rg rd (mid m) (nm d) (insert_mlds [(j', mwall m)] d).
  (** The groups found in the table for an instance, in the order the database gives them. *)
  Definition given (d : db) (m : Z) : list sgroup :=
    (fun g => (gprop g, levels_of d (gid g))) <$> rg (base.filter (fun g => gmld g = m) (grps d)).
  Lemma given_perm d m : ascending gid (grps d) -> given d m ≡ₚ groups_of d m.
  Proof. intros H. unfold given. rewrite groups_of_filter by done. by rewrite Hrg. Qed.
  Lemma wf_insert_mld j' w d : wf d -> 1 <= j' < nj d -> wf (insert_mlds [(j', w)] d).
  Proof.
    intros Hwf Hj. apply (wf_insert_mlds d [(j', w)]); [done|]. intros x ->%elem_of_list_singleton. done.
  Qed.
  Lemma add_instance_spec j' d m : wf d -> 1 <= j' < nj d -> orderly d -> 1 <= mid m < nm d ->
    let d' := add_instance j' d m in
    wf d' /\ orderly d' /\ jobs d' = jobs d /\ types d' = types d /\ deps d' = deps d /\ logs d' = logs d /\ nj d' = nj d /\
    nm d' = nm d + 1 /\ mlds d' = mlds d ++ [mkMld (nm d) j' (mwall m)] /\
    (forall k, k < nm d -> groups_of d' k = groups_of d k) /\ groups_of d' (nm d) = given d (mid m) /\
    (forall k, k < nm d -> base.filter (fun g => gmld g = k) (grps d') = base.filter (fun g => gmld g = k) (grps d)) /\
    (forall k, k < ng d -> levels_of d' k = levels_of d k) /\ ng d <= ng d'.
  Proof.
    intros Hwf Hj Ho Hm. cbv zeta. unfold add_instance. set (d1 := insert_mlds [(j', mwall m)] d).
    assert (W1 : wf d1) by by apply wf_insert_mld.
    assert (E1 : mlds d1 = mlds d ++ [mkMld (nm d) j' (mwall m)]) by done.
    assert (E2 : grps d1 = grps d) by done. assert (E3 : ng d1 = ng d) by done. assert (E4 : nm d1 = nm d + 1) by done.
    assert (E5 : forall k, levels_of d1 k = levels_of d k) by done.
    assert (E6 : forall k, groups_of d1 k = groups_of d k) by done.
    assert (E7 : jobs d1 = jobs d /\ types d1 = types d /\ deps d1 = deps d /\ logs d1 = logs d /\ nj d1 = nj d) by done.
    assert (O1 : orderly d1) by exact Ho.
    rewrite copy_groups_eq.
    destruct (add_groups_of_spec (nm d) (rg (base.filter (fun g => gmld g = mid m) (grps d1))) d1) as (W & O & S & G & V & F & N); try done.
    { rewrite E4. pose proof (wf_n _ Hwf); lia. }
    { intros g Hg. rewrite Hrg in Hg. apply elem_of_list_filter in Hg as [_ Hg]. rewrite E2 in Hg. rewrite E3. pose proof (wf_gb _ Hwf g Hg). lia. }
    destruct S as (T1 & T2 & T3 & T4 & T5 & T6 & T7). destruct E7 as (U1 & U2 & U3 & U4 & U5).
    split; [done|]. split; [done|]. split; [congruence|]. split; [congruence|]. split; [congruence|]. split; [congruence|]. split; [congruence|].
    split; [congruence|]. split; [congruence|]. split.
    { intros k Hk. rewrite G, E6. destruct (decide (k = nm d)); [lia|]. by rewrite app_nil_r. }
    split.
    { rewrite G, E6, decide_True by done. rewrite E2.
      rewrite (groups_of_filter d) by apply Hwf.
      rewrite (filter_none _ (grps d)); [done|]. intros g Hg. pose proof (wf_gb _ Hwf g Hg). lia. }
    split.
    { intros k Hk. rewrite F by lia. by rewrite E2. }
    split; [intros k Hk; rewrite V by lia; apply E5|]. lia.
  Qed.

  (** The instances of a job. *)
  Lemma add_instances_spec j' : forall L d, wf d -> 1 <= j' < nj d -> orderly d -> (forall m, m ∈ L -> 1 <= mid m < nm d) ->
    let d' := fold_left (add_instance j') L d in
    wf d' /\ orderly d' /\ jobs d' = jobs d /\ types d' = types d /\ deps d' = deps d /\ logs d' = logs d /\ nj d' = nj d /\ nm d <= nm d' /\
    (exists new, mlds d' = mlds d ++ new /\ (forall m, m ∈ new -> mjob m = j') /\
      Forall2 (fun m x => mwall x = mwall m /\ groups_of d' (mid x) = given d (mid m)) L new) /\
    (forall k, k < nm d -> groups_of d' k = groups_of d k) /\
    (forall k, k < nm d -> given d' k = given d k).
  Proof.
    induction L as [|m L IH]; intros d Hwf Hj Ho HL; cbv zeta.
    - cbn [fold_left]. do 7 (split; [done|]). split; [lia|]. split; [|split; done].
      exists []. rewrite app_nil_r. split; [done|]. split; [intros m Hm; by apply elem_of_nil in Hm|constructor].
    - cbn [fold_left].
      destruct (add_instance_spec j' d m Hwf Hj Ho ltac:(apply HL; left)) as (W & O & A1 & A2 & A3 & A4 & A5 & A6 & A7 & A8 & A9 & A10 & A11 & A12).
      set (d1 := add_instance j' d m) in *.
      assert (Hg1 : forall k, k < nm d -> given d1 k = given d k).
      { intros k Hk. unfold given. rewrite A10 by done. apply list_fmap_ext. intros i g Hg. apply elem_of_list_lookup_2 in Hg.
        rewrite Hrg in Hg. apply elem_of_list_filter in Hg as [_ Hg]. pose proof (wf_gb _ Hwf g Hg). rewrite A11 by lia. done. }
      destruct (IH d1) as (B0 & B1 & B2 & B3 & B4 & B5 & B6 & B7 & B8 & B9 & B10); try done.
      { by rewrite A5. }
      { intros x Hx. specialize (HL x ltac:(by right)). lia. }
      set (d2 := fold_left (add_instance j') L d1) in *.
      split; [done|]. split; [done|]. split; [congruence|]. split; [congruence|]. split; [congruence|]. split; [congruence|]. split; [congruence|].
      split; [lia|]. split; [|split].
      + destruct B8 as (new & C1 & C2 & C3). exists (mkMld (nm d) j' (mwall m) :: new).
        split; [rewrite C1, A7, <- app_assoc; done|]. split; [intros x [->|Hx]%elem_of_cons; [done|by apply C2]|].
        constructor; [split; [done|]|].
        * cbn [mid]. rewrite B9 by lia. exact A9.
        * eapply Forall2_impl'; [exact C3|]. intros a b Ha _ [D1 D2]. split; [done|]. rewrite D2. apply Hg1.
          specialize (HL a ltac:(by right)). lia.
      + intros k Hk. rewrite B9 by lia. by apply A8.
      + intros k Hk. rewrite B10 by lia. by apply Hg1.
  Qed.
End copies.
