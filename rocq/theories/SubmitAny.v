(** Submissions, whatever the order in which the database gives the identifiers back: C102. *)
From Verif Require Import Base HierarchyModel SubmitModel SubmitSpec SubmitProofs.

(** [described], row by row. *)
Definition rowwise (d : db) (j : Z) : Prop :=
  (exists m, m ∈ mlds d /\ mjob m = j) /\
  (forall m, m ∈ mlds d -> mjob m = j ->
     (exists g, g ∈ grps d /\ gmld g = mid m) /\
     (forall g, g ∈ grps d -> gmld g = mid m -> exists x, x ∈ descs d /\ dgrp x = gid g)).
Lemma fmap_nonempty {A B} (f : A -> B) (l : list A) : f <$> l <> [] <-> exists x, x ∈ l.
Proof.
  destruct l as [|x l]; [|split; [intros _; exists x; left|done]].
  split; [done|]. intros [x Hx]. by apply elem_of_nil in Hx.
Qed.
Lemma levels_nonempty d g : levels_of d g <> [] <-> exists x, x ∈ descs d /\ dgrp x = g.
Proof.
  unfold levels_of. rewrite fmap_nonempty. split; intros [x Hx]; exists x.
  - apply elem_of_sort_by, elem_of_list_filter in Hx as [? ?]. done.
  - apply elem_of_sort_by, elem_of_list_filter. by destruct Hx.
Qed.
Lemma groups_full d m : groups_of d m <> [] /\ Forall (fun g => snd g <> []) (groups_of d m) <->
  (exists g, g ∈ grps d /\ gmld g = m) /\ (forall g, g ∈ grps d -> gmld g = m -> exists x, x ∈ descs d /\ dgrp x = gid g).
Proof.
  unfold groups_of. rewrite fmap_nonempty, Forall_forall. split; intros [H1 H2]; split.
  - destruct H1 as [g Hg]. apply elem_of_sort_by, elem_of_list_filter in Hg as [? ?]. eauto.
  - intros g Hg Hm. apply levels_nonempty. apply (H2 (gprop g, levels_of d (gid g))). apply elem_of_list_fmap. exists g.
    split; [done|]. apply elem_of_sort_by, elem_of_list_filter. done.
  - destruct H1 as (g & Hg & Hm). exists g. apply elem_of_sort_by, elem_of_list_filter. done.
  - intros x Hx. apply elem_of_list_fmap in Hx as (g & -> & Hg). apply elem_of_sort_by, elem_of_list_filter in Hg as [Hm Hg].
    apply levels_nonempty. by apply H2.
Qed.
Lemma described_rowwise d j : described d j <-> rowwise d j.
Proof.
  unfold described, rowwise, moldables_of. rewrite fmap_nonempty, Forall_forall. split; intros [H1 H2]; split.
  - destruct H1 as [m Hm]. apply elem_of_sort_by, elem_of_list_filter in Hm as [? ?]. eauto.
  - intros m Hm Hj. apply groups_full. apply (H2 (mid m, mwall m, groups_of d (mid m))). apply elem_of_list_fmap. exists m.
    split; [done|]. apply elem_of_sort_by, elem_of_list_filter. done.
  - destruct H1 as (m & Hm & Hj). exists m. apply elem_of_sort_by, elem_of_list_filter. done.
  - intros x Hx. apply elem_of_list_fmap in Hx as (m & -> & Hm). apply elem_of_sort_by, elem_of_list_filter in Hm as [Hj Hm].
    cbn [snd]. apply groups_full. by apply H2.
Qed.

(** A database that grew: the new rows belong to new jobs and new instances. *)
Definition grown (d d' : db) : Prop :=
  wf d' /\
  (exists k, mlds d' = mlds d ++ k /\ forall m, m ∈ k -> nj d <= mjob m) /\
  (exists k, grps d' = grps d ++ k /\ forall g, g ∈ k -> nm d <= gmld g) /\
  (forall x, x ∈ descs d -> x ∈ descs d').
Lemma rowwise_grown d d' j : wf d -> grown d d' -> j < nj d -> rowwise d j -> rowwise d' j.
Proof.
  intros Hwf (_ & (km & Hm & Hmk) & (kg & Hg & Hgk) & Hx) Hj [(m0 & Hm0 & Hm0j) Hall]. split.
  - exists m0. split; [rewrite Hm; apply elem_of_app; by left|done].
  - intros m Hin Hmj. rewrite Hm in Hin. apply elem_of_app in Hin as [Hin|Hin]; [|specialize (Hmk m Hin); lia].
    destruct (Hall m Hin Hmj) as [(g & Hgi & Hgm) Hd]. split.
    + exists g. split; [rewrite Hg; apply elem_of_app; by left|done].
    + intros g' Hgi' Hgm'. rewrite Hg in Hgi'. apply elem_of_app in Hgi' as [Hgi'|Hgi'].
      * destruct (Hd g' Hgi' Hgm') as (x & Hxi & Hxg). eauto.
      * specialize (Hgk g' Hgi'). pose proof (wf_mb d Hwf m Hin). lia.
Qed.
(** One step of a history: a database that grew, whose new jobs are described if they are Waiting. *)
Definition stepped (d d' : db) : Prop :=
  grown d d' /\ exists rows, jobs d' = jobs d ++ rows /\ forall r, r ∈ rows -> jstate r = "Waiting"%string -> rowwise d' (jid r).
Definition ok (d : db) : Prop := wf d /\ forall r, r ∈ jobs d -> jstate r = "Waiting"%string -> rowwise d (jid r).
Lemma stepped_ok d d' : ok d -> stepped d d' -> ok d'.
Proof.
  intros [Hwf Hr] [Hg (rows & Hj & Hrows)]. split; [apply Hg|]. intros r Hin Hs. rewrite Hj in Hin.
  apply elem_of_app in Hin as [Hin|Hin]; [|by apply Hrows]. eapply rowwise_grown; [exact Hwf|exact Hg| |by apply Hr].
  apply (wf_jb d Hwf r Hin).
Qed.

Lemma ro_facts (ro : list Z -> list Z) a (n : nat) : (forall l, ro l ≡ₚ l) ->
  let ids := ro (seqZ a (Z.of_nat n)) in length ids = n /\ NoDup ids /\ forall i, i ∈ ids <-> a <= i < a + Z.of_nat n.
Proof.
  intros Hro ids. pose proof (Hro (seqZ a (Z.of_nat n))) as Hp. fold ids in Hp. split; [|split].
  - rewrite Hp, seqZ_length. lia.
  - rewrite Hp. apply NoDup_seqZ.
  - intros i. rewrite Hp. rewrite elem_of_seqZ. lia.
Qed.
Lemma Forall2_right {A B} (P : A -> B -> Prop) l k y : Forall2 P l k -> y ∈ k -> exists x, x ∈ l /\ P x y.
Proof.
  induction 1 as [|x y' l k H1 H2 IH]; intros Hy; [by apply elem_of_nil in Hy|].
  apply elem_of_cons in Hy as [->|Hy]; [exists x; split; [left|done]|]. destruct (IH Hy) as (x' & ? & ?). exists x'. split; [by right|done].
Qed.

Section any_order.
  Variable dw : Z.
  Variable ro : list Z -> list Z.
  Hypothesis Hro : forall l, ro l ≡ₚ l.

  (** The groups of one instance. *)
  Lemma groups_any m (gs : list sgroup) d : wf d -> 1 <= m < nm d -> no_group d m -> gs <> [] -> Forall (fun g => snd g <> []) gs ->
    exists d', add_groups ro m gs d = Ok d' /\ wf d' /\ same_but_groups d d' /\
      (forall x, x ∈ descs d -> x ∈ descs d') /\
      exists k, grps d' = grps d ++ k /\ k <> [] /\
        forall g, g ∈ k -> gmld g = m /\ exists x, x ∈ descs d' /\ dgrp x = gid g.
  Proof.
    intros Hwf Hm Hno Hne Hfull. unfold add_groups. cbv zeta. match goal with |- context [insert_grps ?x d] => set (l := x) end.
    assert (Hl : length l = length gs) by (unfold l; by rewrite fmap_length).
    assert (Hlm : forall x, x ∈ l -> fst x = m).
    { intros x Hx. unfold l in Hx. apply elem_of_list_fmap in Hx as (g & -> & _). done. }
    assert (Hwf1 : wf (insert_grps l d)).
    { apply wf_insert_grps; [done|]. intros x Hx. rewrite (Hlm x Hx). done. }
    assert (Hf : base.filter (fun g => gmld g = m) (grps (insert_grps l d)) = new_grps (ng d) l).
    { cbn [grps insert_grps]. fold (new_grps (ng d) l). rewrite filter_app, (filter_none _ (grps d)) by done. cbn [app].
      apply filter_all. intros g Hg. apply new_grps_elem in Hg as [_ Hg]. by apply Hlm in Hg. }
    rewrite Hf, new_grps_gid, Hl.
    match goal with |- context [add_levels gs ?x _] => set (ids := x) end.
    assert (Hids : length ids = length gs /\ NoDup ids /\ forall i, i ∈ ids <-> ng d <= i < ng d + Z.of_nat (length gs)).
    { unfold ids. destruct (Nat.eqb (length gs) 1) eqn:E; [|by apply ro_facts].
      apply Nat.eqb_eq in E. rewrite E. split; [done|]. split; [apply NoDup_singleton|]. intros i. rewrite elem_of_list_singleton. lia. }
    clearbody ids. destruct Hids as (I1 & I2 & I3).
    destruct (add_levels_spec gs ids (insert_grps l d)) as (d' & E & Hs & H2 & H3 & H4); [done|done| |].
    { intros g Hg x Hx. apply I3 in Hg. cbn [descs insert_grps] in Hx. pose proof (wf_d d Hwf x Hx). lia. }
    assert (Hwf' : wf d').
    { eapply wf_same_but_descs; [exact Hwf1|done|]. intros x Hx. destruct (H4 x Hx) as [Hx'|Hx']; [by apply (wf_d _ Hwf1)|].
      apply I3 in Hx'. cbn [ng insert_grps]. rewrite Hl. pose proof (wf_n d Hwf). lia. }
    exists d'. split; [done|]. split; [done|]. destruct Hs as (S1 & S2 & S3 & S4 & S5 & S6 & S7 & S8 & S9).
    split; [done|]. split.
    { intros x Hx. rewrite add_levels_flat in E by done. injection E as <-. cbn [descs insert_descs insert_grps]. apply elem_of_app. by left. }
    exists (new_grps (ng d) l). split; [rewrite S3; done|]. split.
    { intros E0. apply (f_equal (fun k => length (gid <$> k))) in E0. rewrite new_grps_gid, seqZ_length in E0. cbn in E0.
      destruct gs as [|g0 gs0]; [done|]. rewrite Hl in E0. cbn [length] in E0. lia. }
    intros g Hg. pose proof (new_grps_elem _ _ _ Hg) as [Hgi Hgl]. split; [by apply Hlm in Hgl|].
    apply levels_nonempty. destruct (Forall2_right _ _ _ (gid g) H2) as (g0 & Hg0 & ->); [apply I3; lia|].
    rewrite Forall_forall in Hfull. by apply Hfull.
  Qed.
  Lemma moldables_any : forall (req : list smold) ids d, wf d -> length ids = length req -> NoDup ids ->
    (forall m, m ∈ ids -> 1 <= m < nm d /\ no_group d m) ->
    Forall (fun m => fst m <> [] /\ Forall (fun g => snd g <> []) (fst m)) req ->
    exists d', add_moldables ro req ids d = Ok d' /\ wf d' /\ same_but_groups d d' /\
      (forall x, x ∈ descs d -> x ∈ descs d') /\
      exists k, grps d' = grps d ++ k /\ (forall m, m ∈ ids -> exists g, g ∈ k /\ gmld g = m) /\
        forall g, g ∈ k -> gmld g ∈ ids /\ exists x, x ∈ descs d' /\ dgrp x = gid g.
  Proof.
    induction req as [|[gs w] req IH]; intros ids d Hwf Hlen Hnd Hids Hfull.
    - destruct ids; [|done]. exists d. split; [done|]. split; [done|]. split; [done|]. split; [done|]. exists [].
      split; [by rewrite app_nil_r|]. split; intros m Hm; by apply elem_of_nil in Hm.
    - destruct ids as [|m ids]; [done|]. injection Hlen as Hlen. apply NoDup_cons in Hnd as [Hm Hnd]. cbn [add_moldables].
      apply Forall_cons in Hfull as [[Hf1 Hf2] Hfull]. cbn [fst] in Hf1, Hf2. destruct (Hids m ltac:(left)) as [Hmr Hmn].
      destruct (groups_any m gs d Hwf Hmr Hmn Hf1 Hf2) as (d1 & E1 & W1 & S1 & X1 & k1 & G1 & K1 & L1).
      rewrite E1. cbn [rbind]. destruct (IH ids d1 W1 Hlen Hnd) as (d' & E' & W' & S' & X' & k' & G' & K' & L'); [|done|].
      { intros k Hk. destruct (Hids k ltac:(by right)) as [A B]. destruct S1 as (_ & _ & _ & _ & _ & _ & ->). split; [done|].
        intros g Hg. rewrite G1 in Hg. apply elem_of_app in Hg as [Hg|Hg]; [by apply B|]. destruct (L1 g Hg) as [-> _]. congruence. }
      exists d'. split; [done|]. split; [done|]. split.
      { destruct S1 as (A1 & A2 & A3 & A4 & A5 & A6 & A7). destruct S' as (B1 & B2 & B3 & B4 & B5 & B6 & B7).
        split; [congruence|]. split; [congruence|]. split; [congruence|]. split; [congruence|]. split; [congruence|]. split; congruence. }
      split; [auto|]. exists (k1 ++ k'). split; [rewrite G', G1; by rewrite app_assoc|]. split.
      + intros m' [->|Hm']%elem_of_cons.
        * destruct k1 as [|g k1]; [done|]. exists g. split; [left|]. apply L1. left.
        * destruct (K' m' Hm') as (g & Hg & Hgm). exists g. split; [apply elem_of_app; by right|done].
      + intros g [Hg|Hg]%elem_of_app.
        * destruct (L1 g Hg) as [-> (x & Hx & Hxg)]. split; [left|]. exists x. split; [by apply X'|done].
        * destruct (L' g Hg) as [? ?]. split; [by right|done].
  Qed.
  Lemma description_any j (req : list smold) d : wf d -> 1 <= j < nj d -> (forall m, m ∈ mlds d -> mjob m <> j) -> proper req ->
    exists d', add_description dw ro j req d = Ok d' /\ wf d' /\ jobs d' = jobs d /\ nj d' = nj d /\ rowwise d' j /\
      (exists k, mlds d' = mlds d ++ k /\ forall m, m ∈ k -> mjob m = j) /\
      (exists k, grps d' = grps d ++ k /\ forall g, g ∈ k -> nm d <= gmld g) /\
      (forall x, x ∈ descs d -> x ∈ descs d').
  Proof.
    intros Hwf Hj Hno [Hne Hfull]. unfold add_description. cbv zeta. match goal with |- context [insert_mlds ?x d] => set (l := x) end.
    assert (Hl : length l = length req) by (unfold l; by rewrite fmap_length).
    assert (Hlj : forall x, x ∈ l -> fst x = j).
    { intros x Hx. unfold l in Hx. apply elem_of_list_fmap in Hx as (g & -> & _). done. }
    assert (Hwf1 : wf (insert_mlds l d)).
    { apply wf_insert_mlds; [done|]. intros x Hx. rewrite (Hlj x Hx). done. }
    assert (Hf : base.filter (fun m => mjob m = j) (mlds (insert_mlds l d)) = new_mlds (nm d) l).
    { cbn [mlds insert_mlds]. fold (new_mlds (nm d) l). rewrite filter_app, (filter_none _ (mlds d)) by done. cbn [app].
      apply filter_all. intros g Hg. apply new_mlds_elem in Hg as [_ Hg]. by apply Hlj in Hg. }
    rewrite Hf, new_mlds_mid, Hl.
    match goal with |- context [add_moldables ro req ?x _] => set (ids := x) end.
    assert (Hids : length ids = length req /\ NoDup ids /\ forall i, i ∈ ids <-> nm d <= i < nm d + Z.of_nat (length req)).
    { unfold ids. destruct (Nat.eqb (length req) 1) eqn:E; [|by apply ro_facts].
      apply Nat.eqb_eq in E. rewrite E. split; [done|]. split; [apply NoDup_singleton|]. intros i. rewrite elem_of_list_singleton. lia. }
    clearbody ids. destruct Hids as (I1 & I2 & I3).
    destruct (moldables_any req ids (insert_mlds l d) Hwf1) as (d' & E & W & S & X & k & G & K & L); [done|done| |done|].
    { intros m Hm. apply I3 in Hm. pose proof (wf_n d Hwf). cbn [nm insert_mlds]. split; [lia|].
      intros g Hg. cbn [grps insert_mlds] in Hg. pose proof (wf_gb d Hwf g Hg). lia. }
    destruct S as (S1 & S2 & S3 & S4 & S5 & S6 & S7). exists d'. split; [done|]. split; [done|]. split; [done|]. split; [done|].
    assert (Hm' : mlds d' = mlds d ++ new_mlds (nm d) l) by (rewrite S2; done).
    assert (Hnewm : forall m, m ∈ new_mlds (nm d) l -> mjob m = j /\ nm d <= mid m < nm d + Z.of_nat (length req)).
    { intros m Hm. apply new_mlds_elem in Hm as [Hm Hml]. apply Hlj in Hml. split; [done|lia]. }
    split; [|split; [|split]].
    - split.
      + destruct (new_mlds (nm d) l) as [|m0 k0] eqn:E0.
        * apply (f_equal (fun k => length (mid <$> k))) in E0. rewrite new_mlds_mid, seqZ_length in E0. cbn in E0.
          destruct req as [|r0 req0]; [done|]. rewrite Hl in E0. cbn [length] in E0. lia.
        * exists m0. split; [rewrite Hm'; apply elem_of_app; right; left|]. apply Hnewm. left.
      + intros m Hm Hmj. rewrite Hm' in Hm. apply elem_of_app in Hm as [Hm|Hm]; [by destruct (Hno m Hm)|].
        destruct (Hnewm m Hm) as [_ Hmi]. split.
        * destruct (K (mid m)) as (g & Hg & Hgm); [by apply I3|]. exists g. split; [rewrite G; apply elem_of_app; by right|done].
        * intros g Hg Hgm. rewrite G in Hg. apply elem_of_app in Hg as [Hg|Hg]; [|by apply L].
          cbn [grps insert_mlds] in Hg. pose proof (wf_gb d Hwf g Hg). lia.
    - exists (new_mlds (nm d) l). split; [done|]. intros m Hm. by apply Hnewm.
    - exists k. split; [done|]. intros g Hg. destruct (L g Hg) as [Hgi _]. apply I3 in Hgi. lia.
    - exact X.
  Qed.

  (** One job. *)
  Lemma grown_jobs d d' d'' : grown d d' -> wf d'' -> mlds d'' = mlds d' -> grps d'' = grps d' -> descs d'' = descs d' -> grown d d''.
  Proof. intros (_ & A & B & C) W E1 E2 E3. unfold grown. rewrite E1, E2, E3. done. Qed.
  Lemma rowwise_same d d' j : mlds d' = mlds d -> grps d' = grps d -> descs d' = descs d -> rowwise d j -> rowwise d' j.
  Proof. intros E1 E2 E3. unfold rowwise. by rewrite E1, E2, E3. Qed.
  Lemma subjob_any p a i c d t j : wf d -> a < nj d -> proper (p_req p) -> add_subjob dw ro p a i c d = Ok (t, j) ->
    forall d', d' ∈ t -> stepped d d'.
  Proof.
    intros Hwf Ha Hp. unfold add_subjob. cbv zeta.
    set (v := (if p_resv p then "toSchedule" else "None")%string).
    set (row := fun st => mkJob (nj d) st (if 0 <? a then a else nj d) i c (p_props p) v).
    set (d1 := if 0 <? a then _ else _). pose proof (wf_n d Hwf) as Hn.
    assert (Hd1 : jobs d1 = jobs d ++ [row "Hold"%string]).
    { unfold d1, row. destruct (0 <? a); [done|]. cbn [jobs set_array set_jobs insert_job]. rewrite set_jobs_old.
      - cbn. rewrite Z.eqb_refl. done.
      - intros x Hx. pose proof (wf_jb d Hwf x Hx). destruct (jid x =? nj d) eqn:E; [lia|done]. }
    assert (Hsame : mlds d1 = mlds d /\ grps d1 = grps d /\ descs d1 = descs d /\ nj d1 = nj d + 1 /\ nm d1 = nm d)
      by (unfold d1; destruct (0 <? a); done).
    assert (Hwf1 : wf d1).
    { unfold d1. destruct (0 <? a) eqn:E; [apply wf_insert_job; [done|lia]|].
      apply wf_set_array; [apply wf_insert_job; [done|lia]|cbn; lia]. }
    clearbody d1. destruct Hsame as (S1 & S2 & S3 & S4 & S5).
    destruct (description_any (nj d) (p_req p) d1 Hwf1) as (d2 & E2 & W2 & J2 & N2 & R2 & M2 & G2 & X2); [lia| |done|].
    { intros m Hm. rewrite S1 in Hm. pose proof (wf_mb d Hwf m Hm). lia. }
    rewrite E2. cbn [rbind]. set (d4 := insert_deps _ (insert_types _ d2)).
    assert (W4 : wf d4) by by apply wf_insert_deps, wf_insert_types.
    assert (T4 : mlds d4 = mlds d2 /\ grps d4 = grps d2 /\ descs d4 = descs d2 /\ jobs d4 = jobs d2) by done.
    clearbody d4. destruct T4 as (T1 & T2 & T3 & T4).
    assert (Hg2 : grown d d2).
    { split; [done|]. rewrite S1 in M2. rewrite S2, S5 in G2. rewrite S3 in X2. split; [|done].
      destruct M2 as (k & -> & Hk). exists k. split; [done|]. intros m Hm. rewrite (Hk m Hm). lia. }
    assert (Hstep1 : stepped d d1).
    { split.
      - split; [done|]. split; [exists []; rewrite app_nil_r; split; [done|]; intros m Hm; by apply elem_of_nil in Hm|].
        split; [exists []; rewrite app_nil_r; split; [done|]; intros m Hm; by apply elem_of_nil in Hm|]. by rewrite S3.
      - exists [row "Hold"%string]. split; [done|]. intros r ->%elem_of_list_singleton. done. }
    assert (Hfin : forall d' st, wf d' -> mlds d' = mlds d4 -> grps d' = grps d4 -> descs d' = descs d4 -> jobs d' = jobs d ++ [row st] -> stepped d d').
    { intros d' st W' Q1 Q2 Q3 Q4. split; [eapply grown_jobs; [exact Hg2|done|congruence|congruence|congruence]|].
      exists [row st]. split; [done|]. intros r ->%elem_of_list_singleton _. eapply rowwise_same; [| | |exact R2]; congruence. }
    assert (Ht1 : forall d', d' ∈ (if 0 <? a then [] else [d1]) -> stepped d d').
    { intros d' Hd'. destruct (0 <? a); [by apply elem_of_nil in Hd'|]. by apply elem_of_list_singleton in Hd' as ->. }
    destruct (p_hold p); intros [= <- <-] d' [Hd'|Hd']%elem_of_app; try (by apply Ht1).
    - apply elem_of_list_singleton in Hd' as ->. apply (Hfin _ "Hold"%string); [by apply wf_insert_logs|done|done|done|].
      cbn [jobs insert_logs]. by rewrite T4, J2.
    - apply elem_of_cons in Hd' as [->|Hd'].
      + apply (Hfin _ "Hold"%string); [by apply wf_insert_logs|done|done|done|]. cbn [jobs insert_logs]. by rewrite T4, J2.
      + apply elem_of_list_singleton in Hd' as ->. apply (Hfin _ "Waiting"%string); [by apply wf_set_state, wf_insert_logs|done|done|done|].
        cbn [jobs set_state set_jobs insert_logs]. rewrite T4, J2, Hd1, set_jobs_old.
        * cbn. rewrite Z.eqb_refl. done.
        * intros x Hx. pose proof (wf_jb d Hwf x Hx). destruct (jid x =? nj d) eqn:E; [lia|done].
  Qed.

  (** An array. *)
  Lemma array_any p (gs : list sgroup) w cmds d t js : wf d -> proper [(gs, w)] -> add_array dw ro p gs w cmds d = Ok (t, js) ->
    forall d', d' ∈ t -> stepped d d'.
  Proof.
    intros Hwf Hp. destruct cmds as [|c0 cs]; [done|]. set (cmds := c0 :: cs) in *.
    unfold add_array, cmds. cbv zeta. fold cmds.
    set (a := nj d). set (n := Z.of_nat (length cmds)).
    set (d1 := set_array a a (insert_job p "None" 0 1 c0 d)).
    pose proof (wf_n d Hwf) as Hn.
    assert (J1 : jobs d1 = jobs d ++ [mkJob a "Hold" a 1 c0 (p_props p) "None"]).
    { unfold d1. cbn [jobs set_array set_jobs insert_job]. rewrite set_jobs_old.
      - cbn. fold a. rewrite Z.eqb_refl. done.
      - intros x Hx. pose proof (wf_jb d Hwf x Hx). destruct (jid x =? a) eqn:E; [unfold a in E; lia|done]. }
    assert (W1 : wf d1).
    { apply wf_set_array; [apply wf_insert_job; [done|lia]|cbn; unfold a; lia]. }
    set (d2 := fst (fold_left _ cs (d1, 2))).
    assert (D2 : jobs d2 = jobs d ++ array_rows p "Hold" a cmds /\ mlds d2 = mlds d /\ grps d2 = grps d /\ descs d2 = descs d /\
                 nj d2 = a + n /\ nm d2 = nm d /\ ng d2 = ng d).
    { destruct (insert_jobs_fold p a cs d1 2) as (H1 & H2 & H3 & H4 & _ & _ & _ & H8 & H9 & H10). cbv zeta in H1. fold d2 in H1, H2, H3, H4, H8, H9, H10.
      split; [|split; [done|split; [done|split; [done|split; [|done]]]]].
      - rewrite H1, J1, <- app_assoc. f_equal. unfold cmds. rewrite array_rows_cons. cbn [app]. f_equal.
        assert (nj d1 = a + 1) as -> by done. clear.
        assert (H : forall k, zip_with (fun k c => mkJob (a + 1 + k) "Hold" a (2 + k) c (p_props p) "None") (seqZ k (Z.of_nat (length cs))) cs =
                   zip_with (fun k c => mkJob (a + k) "Hold" a (1 + k) c (p_props p) "None") (seqZ (k + 1) (Z.of_nat (length cs))) cs).
        { induction cs as [|c cs IH]; intros k; [done|]. rewrite !zip_seq_cons. f_equal; [f_equal; lia|]. apply IH. }
        apply H.
      - rewrite H8. change (nj d1) with (a + 1). unfold n, cmds. cbn [length]. lia. }
    assert (Q1 : mlds d1 = mlds d /\ grps d1 = grps d /\ descs d1 = descs d) by done.
    clearbody d2. clearbody d1.
    destruct D2 as (J2 & M2 & G2 & X2 & N2 & NM2 & NG2).
    assert (W2 : wf d2).
    { assert (Hrows : forall r, r ∈ array_rows p "Hold" a cmds -> a <= jid r < a + n /\ jarray r = a)
        by (intros r Hr; apply array_rows_elem in Hr as (? & ? & _); done).
      destruct Hwf as [F1 F2 F3 F4 F5 F6 F7 F8]. split; rewrite ?J2, ?M2, ?G2, ?X2, ?N2, ?NM2, ?NG2; try done.
      - apply ascending_app. split; [done|]. split.
        + unfold array_rows. intros i j x y Hx Hy Hij. apply zip_seq_lookup in Hx as (? & _ & ->). apply zip_seq_lookup in Hy as (? & _ & ->). cbn. lia.
        + intros x y Hx Hy. specialize (F2 x Hx). apply Hrows in Hy. unfold a in Hy. lia.
      - intros r [Hr|Hr]%elem_of_app; [specialize (F2 r Hr); unfold a, n; lia|]. apply Hrows in Hr. lia.
      - intros m Hm. specialize (F4 m Hm). unfold a, n. lia.
      - unfold a, n. lia. }
    assert (Hsel : jid <$> base.filter (fun r => jarray r = a) (jobs d2) = seqZ a n).
    { rewrite J2, filter_app, filter_none.
      - cbn [app]. rewrite filter_all; [apply array_rows_jid|]. intros r Hr. by apply array_rows_elem in Hr as (_ & ? & _).
      - intros r Hr. pose proof (wf_jb d Hwf r Hr). unfold a. lia. }
    rewrite Hsel. clear Hsel. destruct (ro_facts ro a (length cmds) Hro) as (I1 & I2 & I3). fold n in I1, I2, I3.
    generalize dependent (ro (seqZ a n)). intros ids I1 I2 I3.
    set (lm := (fun j => (j, walltime_of dw w)) <$> ids).
    assert (Hlm : length lm = length cmds) by (unfold lm; by rewrite fmap_length).
    assert (Hlmj : forall x, x ∈ lm <-> fst x ∈ ids /\ snd x = walltime_of dw w).
    { intros [j u]. unfold lm. rewrite elem_of_list_fmap. cbn [fst snd]. split; [by intros (j' & [= -> ->] & Hj)|]. intros [Hj ->]. eauto. }
    set (d3 := insert_mlds lm d2).
    assert (W3 : wf d3).
    { apply wf_insert_mlds; [done|]. intros x Hx. rewrite N2. apply Hlmj in Hx as [Hx _]. apply I3 in Hx. unfold a in *. lia. }
    assert (M3 : mlds d3 = mlds d ++ new_mlds (nm d) lm).
    { unfold d3. cbn [mlds insert_mlds]. rewrite M2, NM2. done. }
    assert (Hmids : sort_by id (mid <$> base.filter (fun m => mjob m ∈ ids) (mlds d3)) = seqZ (nm d) n).
    { rewrite M3, filter_app, filter_none, filter_all; cbn [app].
      - rewrite new_mlds_mid, Hlm. apply sort_by_ascending, ascending_seqZ.
      - intros m Hm. apply new_mlds_elem in Hm as [_ Hm]. by apply Hlmj in Hm as [? _].
      - intros m Hm Hin. apply I3 in Hin. pose proof (wf_mb d Hwf m Hm). unfold a in Hin. lia. }
    rewrite Hmids. clear Hmids. set (mids := seqZ (nm d) n).
    assert (Hmids : forall m, m ∈ mids <-> nm d <= m < nm d + n) by (intros m; unfold mids; rewrite elem_of_seqZ; done).
    set (lg := mids ≫= fun m => (fun g => (m, fst g)) <$> gs).
    assert (Hlg : lg = (fun x => (fst x, fst (snd x))) <$> pairs mids gs).
    { unfold lg, pairs. clear. induction mids as [|m mids IH]; [done|]. rewrite !bind_cons, fmap_app, IH. f_equal.
      rewrite <- list_fmap_compose. done. }
    assert (Hlgl : length lg = (length cmds * length gs)%nat).
    { rewrite Hlg, fmap_length. rewrite <- (fmap_length snd), pairs_snd, length_concat_replicate. unfold mids. rewrite seqZ_length. unfold n. rewrite Nat2Z.id. done. }
    assert (Hlgm : forall x, x ∈ lg -> fst x ∈ mids).
    { intros x Hx. unfold lg in Hx. apply elem_of_list_bind in Hx as (m & Hx & Hm). apply elem_of_list_fmap in Hx as (g & -> & _). done. }
    destruct Hp as [_ Hp]. apply Forall_cons in Hp as [[Hgne Hgfull] _]. cbn [fst] in Hgne, Hgfull.
    assert (Hlgf : forall m, m ∈ mids -> exists x, x ∈ lg /\ fst x = m).
    { intros m Hm. destruct gs as [|g gs]; [done|]. exists (m, fst g). split; [|done]. unfold lg. apply elem_of_list_bind. exists m.
      split; [|done]. rewrite fmap_cons. left. }
    set (d4 := insert_grps lg d3).
    assert (NM3 : nm d3 = nm d + n) by (unfold d3; cbn [nm insert_mlds]; rewrite Hlm, NM2; done).
    assert (W4 : wf d4).
    { apply wf_insert_grps; [done|]. intros x Hx. rewrite NM3. apply Hlgm, Hmids in Hx. lia. }
    assert (G4 : grps d4 = grps d ++ new_grps (ng d) lg).
    { unfold d4. cbn [grps insert_grps]. change (grps d3) with (grps d2). change (ng d3) with (ng d2). rewrite G2, NG2. done. }
    assert (Hgids : sort_by id (gid <$> base.filter (fun g => gmld g ∈ mids) (grps d4)) = seqZ (ng d) (Z.of_nat (length lg))).
    { rewrite G4, filter_app, filter_none, filter_all; cbn [app].
      - rewrite new_grps_gid. apply sort_by_ascending, ascending_seqZ.
      - intros g Hg. apply new_grps_elem in Hg as [_ Hg]. by apply Hlgm in Hg.
      - intros g Hg Hin. apply Hmids in Hin. pose proof (wf_gb d Hwf g Hg). lia. }
    rewrite Hgids. clear Hgids.
    rewrite array_descs_flat by (rewrite seqZ_length, Hlgl; lia). cbn [rbind].
    set (gsf := concat (replicate (length cmds) gs)).
    assert (Hgsl : length gsf = length lg) by (unfold gsf; rewrite length_concat_replicate, Hlgl; done).
    assert (Hgsfull : forall g, g ∈ gsf -> snd g <> []).
    { intros g Hg. rewrite Forall_forall in Hgfull. apply Hgfull. unfold gsf in Hg. clear - Hg. induction (length cmds) as [|k IH].
      - by apply elem_of_nil in Hg.
      - cbn [replicate concat] in Hg. apply elem_of_app in Hg as [?|?]; auto. }
    destruct (add_levels_spec gsf (seqZ (ng d) (Z.of_nat (length lg))) d4) as (d5 & E5 & S5 & L5 & F5 & B5).
    { rewrite seqZ_length, Hgsl. lia. }
    { apply NoDup_seqZ. }
    { intros g Hg x Hx. apply elem_of_seqZ in Hg. change (descs d4) with (descs d2) in Hx. rewrite X2 in Hx. pose proof (wf_d d Hwf x Hx). lia. }
    rewrite add_levels_flat in E5 by (rewrite seqZ_length, Hgsl; lia). injection E5 as E5. rewrite E5.
    assert (X5 : forall x, x ∈ descs d -> x ∈ descs d5).
    { intros x Hx. rewrite <- E5. cbn [descs insert_descs]. apply elem_of_app. left. change (descs d4) with (descs d2). by rewrite X2. }
    assert (NG4 : ng d4 = ng d + Z.of_nat (length lg)) by (unfold d4; cbn [ng insert_grps]; change (ng d3) with (ng d2); rewrite NG2; done).
    assert (W5 : wf d5).
    { eapply wf_same_but_descs; [exact W4|done|]. intros x Hx. destruct (B5 x Hx) as [Hx'|Hx'].
      - by apply (wf_d _ W4).
      - apply elem_of_seqZ in Hx'. rewrite NG4. lia. }
    destruct S5 as (J5 & M5 & G5 & _).
    change (jobs d4) with (jobs d2) in J5. change (mlds d4) with (mlds d3) in M5. rewrite J2 in J5. rewrite M3 in M5. rewrite G4 in G5.
    assert (Hnm : forall m, m ∈ new_mlds (nm d) lm -> a <= mjob m < a + n).
    { intros m Hm. apply new_mlds_elem in Hm as [_ Hm]. apply Hlmj in Hm as [Hm _]. by apply I3 in Hm. }
    assert (Hng : forall g, g ∈ new_grps (ng d) lg -> nm d <= gmld g).
    { intros g Hg. apply new_grps_elem in Hg as [_ Hg]. apply Hlgm, Hmids in Hg. cbn in Hg. lia. }
    assert (Hr5 : forall j, a <= j < a + n -> rowwise d5 j).
    { intros j Hj. split.
      - assert (Hl : (j, walltime_of dw w) ∈ lm) by (apply Hlmj; split; [by apply I3|done]).
        apply elem_of_list_lookup in Hl as [i Hi]. exists (mkMld (nm d + Z.of_nat i) j (walltime_of dw w)). split; [|done].
        rewrite M5. apply elem_of_app. right. apply elem_of_list_lookup. exists i. apply zip_seq_lookup. eauto.
      - intros m Hm Hmj. rewrite M5 in Hm. apply elem_of_app in Hm as [Hm|Hm]; [pose proof (wf_mb d Hwf m Hm); unfold a in Hj; lia|].
        apply new_mlds_elem in Hm as [Hm _]. rewrite Hlm in Hm. fold n in Hm. split.
        + destruct (Hlgf (mid m)) as (x & Hx & Hxm); [by apply Hmids|]. destruct x as [xm xp]. cbn in Hxm. subst xm.
          apply elem_of_list_lookup in Hx as [i Hi]. exists (mkGrp (ng d + Z.of_nat i) (mid m) xp). split; [|done].
          rewrite G5. apply elem_of_app. right. apply elem_of_list_lookup. exists i. apply zip_seq_lookup. eauto.
        + intros g Hg Hgm. rewrite G5 in Hg. apply elem_of_app in Hg as [Hg|Hg]; [pose proof (wf_gb d Hwf g Hg); lia|].
          apply new_grps_elem in Hg as [Hg _]. apply levels_nonempty.
          destruct (Forall2_right _ _ _ (gid g) L5) as (g0 & Hg0 & ->); [apply elem_of_seqZ; lia|]. by apply Hgsfull. }
    assert (Hgr5 : grown d d5).
    { split; [done|]. split; [exists (new_mlds (nm d) lm); split; [done|]; intros m Hm; by apply Hnm|].
      split; [exists (new_grps (ng d) lg); done|done]. }
    assert (Hg4 : grown d d4).
    { split; [done|]. split; [exists (new_mlds (nm d) lm); split; [exact M3|]; intros m Hm; by apply Hnm|].
      split; [exists (new_grps (ng d) lg); done|]. change (descs d4) with (descs d2). by rewrite X2. }
    assert (Hempty : forall (d' : db), wf d' -> grps d' = grps d -> descs d' = descs d ->
              (mlds d' = mlds d \/ mlds d' = mlds d ++ new_mlds (nm d) lm) -> grown d d').
    { intros d' W' Gq Xq Mq. split; [done|]. split; [|split; [exists []; rewrite app_nil_r; split; [done|]; intros g Hg; by apply elem_of_nil in Hg|by rewrite Xq]].
      destruct Mq as [Mq|Mq]; [exists []; rewrite app_nil_r; split; [done|]; intros g Hg; by apply elem_of_nil in Hg|].
      exists (new_mlds (nm d) lm). split; [done|]. intros m Hm. by apply Hnm. }
    assert (Hheld : forall (d' : db) rows, grown d d' -> jobs d' = jobs d ++ rows -> (forall r, r ∈ rows -> jstate r = "Hold"%string) -> stepped d d').
    { intros d' rows Hg' Hj' Hr'. split; [done|]. exists rows. split; [done|]. intros r Hr Hs. rewrite (Hr' r Hr) in Hs. done. }
    assert (Hhold : forall r, r ∈ array_rows p "Hold" a cmds -> jstate r = "Hold"%string) by (intros r Hr; by apply array_rows_elem in Hr as (_ & _ & ?)).
    assert (Hlate : forall (d' : db) st, wf d' -> mlds d' = mlds d5 -> grps d' = grps d5 -> descs d' = descs d5 ->
              jobs d' = jobs d ++ array_rows p st a cmds -> stepped d d').
    { intros d' st W' E1 E2 E3 E4. split; [eapply grown_jobs; [exact Hgr5|done|done|done|done]|].
      exists (array_rows p st a cmds). split; [done|]. intros r Hr _. apply array_rows_elem in Hr as (Hr & _ & _).
      eapply rowwise_same; [exact E1|exact E2|exact E3|]. by apply Hr5. }
    set (d6 := insert_types _ d5). set (d7 := insert_deps _ d6).
    set (d8 := if p_hold p then d7 else set_state (fun r => jarray r =? a) "Waiting" d7).
    set (d9 := insert_logs _ d8).
    assert (W6 : wf d6) by by apply wf_insert_types. assert (W7 : wf d7) by by apply wf_insert_deps.
    assert (Hwait : (fun r => if jarray r =? a then mkJob (jid r) "Waiting" (jarray r) (jindex r) (jcmd r) (jprops r) (jresv r) else r)
                      <$> (jobs d ++ array_rows p "Hold" a cmds) = jobs d ++ array_rows p "Waiting" a cmds).
    { rewrite fmap_app. f_equal.
      - transitivity ((fun r : jobrow => r) <$> jobs d); [|apply list_fmap_id]. apply list_fmap_ext. intros i r Hr.
        apply elem_of_list_lookup_2 in Hr. pose proof (wf_jb d Hwf r Hr). destruct (jarray r =? a) eqn:E; [unfold a in E; lia|done].
      - unfold array_rows. clear. generalize 0 as k. induction cmds as [|c l IH]; intros k; [done|]. rewrite !zip_seq_cons, fmap_cons.
        cbn [jarray]. rewrite Z.eqb_refl. f_equal. apply IH. }
    assert (W8 : wf d8) by (unfold d8; destruct (p_hold p); [done|by apply wf_set_state]).
    assert (H8 : mlds d8 = mlds d5 /\ grps d8 = grps d5 /\ descs d8 = descs d5 /\
                 jobs d8 = jobs d ++ array_rows p (if p_hold p then "Hold" else "Waiting")%string a cmds).
    { unfold d8. destruct (p_hold p); [done|]. split; [done|]. split; [done|]. split; [done|].
      cbn [jobs set_state set_jobs]. change (jobs d7) with (jobs d5). rewrite J5. exact Hwait. }
    destruct H8 as (H81 & H82 & H83 & H84).
    intros Heq d' Hd'. apply (f_equal (fun r => fst (from_ok ([], []) r))) in Heq. cbn [from_ok fst] in Heq. rewrite <- Heq in Hd'. clear Heq.
    rewrite !elem_of_app in Hd'. destruct Hd' as [Hd'|[Hd'|[Hd'|[Hd'|Hd']]]].
    - apply elem_of_cons in Hd' as [->|Hd'].
      { destruct Q1 as (Q1 & Q2 & Q3). eapply Hheld; [apply Hempty; [done|done|done|by left]|exact J1|]. by intros r ->%elem_of_list_singleton. }
      apply elem_of_cons in Hd' as [->|Hd'].
      { eapply Hheld; [apply Hempty; [done|done|done|by left]|exact J2|done]. }
      apply elem_of_cons in Hd' as [->|Hd'].
      { eapply Hheld; [apply Hempty; [done|exact G2|exact X2|by right]|exact J2|done]. }
      apply elem_of_cons in Hd' as [->|Hd'].
      { eapply Hheld; [exact Hg4|exact J2|done]. }
      apply elem_of_list_singleton in Hd' as ->. eapply Hheld; [exact Hgr5|exact J5|done].
    - unfold commit_if in Hd'. destruct (negb _); [|by apply elem_of_nil in Hd']. apply elem_of_list_singleton in Hd' as ->.
      apply (Hlate _ "Hold"%string); done.
    - unfold commit_if in Hd'. destruct (negb _); [|by apply elem_of_nil in Hd']. apply elem_of_list_singleton in Hd' as ->.
      apply (Hlate _ "Hold"%string); done.
    - unfold commit_if in Hd'. destruct (negb _); [|by apply elem_of_nil in Hd']. apply elem_of_list_singleton in Hd' as ->.
      eapply Hlate; done.
    - apply elem_of_list_singleton in Hd' as ->. eapply Hlate; [by apply wf_insert_logs|exact H81|exact H82|exact H83|exact H84].
  Qed.

  Lemma last_or (d : db) (t : list db) : default d (last t) = d \/ default d (last t) ∈ t.
  Proof.
    destruct (last t) as [x|] eqn:E; [right|by left]. cbn [default from_option id]. apply last_Some in E as (l & ->).
    apply elem_of_app. right. left.
  Qed.
  Lemma history_ok d asks : history dw ro d asks -> ok d.
  Proof.
    induction 1 as [|d asks p array_id index cmd t j Hh IH Hp Ha E|d asks p gs w cmds t js Hh IH Hreq Hp E
                    |d asks p array_id index cmd t j d' Hh IH Hp Ha E Hd'|d asks p gs w cmds t js d' Hh IH Hreq Hp E Hd'].
    - assert (N : forall A (x : A), x ∉ []) by (intros A x; apply not_elem_of_nil).
      split; [split; cbn; try (intros x Hx; by apply N in Hx); try apply ascending_nil; lia|]. intros r Hr. by apply N in Hr.
    - destruct (last_or d t) as [->|Hl]; [done|]. eapply stepped_ok; [exact IH|]. eapply subjob_any; [apply IH|exact Ha|exact Hp|exact E|exact Hl].
    - destruct (last_or d t) as [->|Hl]; [done|]. eapply stepped_ok; [exact IH|]. rewrite Hreq in Hp. eapply array_any; [apply IH|exact Hp|exact E|exact Hl].
    - eapply stepped_ok; [exact IH|]. eapply subjob_any; [apply IH|exact Ha|exact Hp|exact E|exact Hd'].
    - eapply stepped_ok; [exact IH|]. rewrite Hreq in Hp. eapply array_any; [apply IH|exact Hp|exact E|exact Hd'].
  Qed.
End any_order.

(** ** C102: at every commit a job in state Waiting is fully described, whatever the order in which the database gives
    back the identifiers it is asked for. *)
Theorem C102_waiting_described : forall dw ro d asks r, (forall l, ro l ≡ₚ l) -> history dw ro d asks ->
  r ∈ jobs d -> jstate r = "Waiting"%string -> described d (jid r).
Proof. intros dw ro d asks r Hro Hh Hr Hs. apply described_rowwise. apply (history_ok dw ro Hro) in Hh as [_ H]. by apply H. Qed.
(** One node for 60 s, or 8 nodes for 10 s: with the identifiers given back in reverse order the job is Waiting, and
    described. *)
Definition two_ways : params :=
  mkParams [([(EmptyString, [("nodes"%string, 1)])], Some 60); ([(EmptyString, [("nodes"%string, 8)])], Some 10)]
    None [] [] false false "default".
Theorem C102_reversed_example : exists d asks r,
  history 7200 (@reverse Z) d asks /\ r ∈ jobs d /\ jstate r = "Waiting"%string /\ length (moldables_of d (jid r)) = 2%nat.
Proof.
  set (r := add_subjob 7200 (@reverse Z) two_ways 0 1 "run" empty_db).
  assert (Er : exists t j, r = Ok (t, j)).
  { destruct r as [[t j]|e] eqn:E; [eauto|]. exfalso. assert (H : is_ok r = true) by (vm_compute; reflexivity). by rewrite E in H. }
  destruct Er as (t & j & Er).
  assert (H1 : jstate <$> jobs (default empty_db (last (fst (from_ok ([], 0) r)))) = ["Waiting"%string]) by (vm_compute; reflexivity).
  assert (H3 : jid <$> jobs (default empty_db (last (fst (from_ok ([], 0) r)))) = [1]) by (vm_compute; reflexivity).
  assert (H2 : length (moldables_of (default empty_db (last (fst (from_ok ([], 0) r)))) 1) = 2%nat) by (vm_compute; reflexivity).
  rewrite Er in H1, H2, H3. cbn [from_ok fst] in H1, H2, H3.
  assert (Hh : history 7200 reverse (default empty_db (last t)) ([] ++ [mkAsk j (p_props two_ways) (p_req two_ways)])).
  { apply (h_job 7200 reverse empty_db [] two_ways 0 1 "run" t j); [constructor| |done|exact Er].
    split; [done|]. repeat constructor; done. }
  generalize dependent (default empty_db (last t)). intros d H1 H3 H2 Hh.
  destruct (jobs d) as [|x l] eqn:Ej; [done|]. cbn in H1, H3. injection H1 as H1 _. injection H3 as H3 _.
  exists d, ([] ++ [mkAsk j (p_props two_ways) (p_req two_ways)]), x. split; [exact Hh|]. split; [rewrite Ej; left|]. split; [exact H1|].
  rewrite H3. exact H2.
Qed.
Print Assumptions C102_waiting_described.
Print Assumptions C102_reversed_example.
