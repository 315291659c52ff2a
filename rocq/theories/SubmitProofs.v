(** Proofs about submissions: writing the tables. *)
From Verif Require Import Base HierarchyModel SubmitModel SubmitSpec.

(** ** Sorting *)
Lemma insert_by_le {A} (key : A -> Z) (x : A) (l : list A) :
  (forall y, y ∈ l -> key x <= key y) -> insert_by key x l = x :: l.
Proof.
  intros H. destruct l as [|y l]; [done|]. cbn [insert_by].
  destruct (key x <=? key y) eqn:E; [done|]. specialize (H y ltac:(left)). lia.
Qed.
Definition ascending {A} (key : A -> Z) (l : list A) : Prop := forall i j x y, l !! i = Some x -> l !! j = Some y -> (i < j)%nat -> key x < key y.
Lemma ascending_cons {A} (key : A -> Z) (x : A) (l : list A) :
  ascending key (x :: l) <-> (forall y, y ∈ l -> key x < key y) /\ ascending key l.
Proof.
  split.
  - intros H. split.
    + intros y Hy. apply elem_of_list_lookup in Hy as [i Hi]. apply (H 0%nat (S i)); [done|done|lia].
    + intros i j a b Hi Hj Hij. apply (H (S i) (S j)); [done|done|lia].
  - intros [H1 H2] i j a b Hi Hj Hij. destruct i as [|i], j as [|j]; cbn in Hi, Hj; [lia| |lia|].
    + injection Hi as <-. apply H1. by eapply elem_of_list_lookup_2.
    + eapply H2; [done|done|lia].
Qed.
Lemma ascending_nil {A} (key : A -> Z) : ascending key (@nil A).
Proof. intros i j x y H. by rewrite lookup_nil in H. Qed.
Lemma ascending_filter {A} (key : A -> Z) (P : A -> Prop) `{Pdec : !forall x, Decision (P x)} (l : list A) :
  ascending key l -> ascending key (base.filter P l).
Proof.
  induction l as [|x l IH]; intros H; [apply ascending_nil|]. apply ascending_cons in H as [H1 H2].
  rewrite filter_cons. destruct (decide (P x)); [|by apply IH]. apply ascending_cons. split; [|by apply IH].
  intros y Hy. apply H1. by apply elem_of_list_filter in Hy as [_ ?].
Qed.
Lemma ascending_app {A} (key : A -> Z) (l k : list A) :
  ascending key (l ++ k) <-> ascending key l /\ ascending key k /\ (forall x y, x ∈ l -> y ∈ k -> key x < key y).
Proof.
  induction l as [|x l IH]; cbn [app].
  - split; [intros H; split; [apply ascending_nil|split; [done|intros x y Hx; by apply elem_of_nil in Hx]]|by intros (_ & H & _)].
  - rewrite !ascending_cons, IH. split.
    + intros (H1 & H2 & H3 & H4). split; [split; [intros y Hy; apply H1, elem_of_app; by left|done]|]. split; [done|].
      intros a b [->|Ha]%elem_of_cons Hb; [apply H1, elem_of_app; by right|by apply H4].
    + intros ((H1 & H2) & H3 & H4). split; [|split; [done|split; [done|]]].
      * intros y [Hy|Hy]%elem_of_app; [by apply H1|apply H4; [left|done]].
      * intros a b Ha Hb. apply H4; [by right|done].
Qed.
Lemma sort_by_ascending {A} (key : A -> Z) (l : list A) : ascending key l -> sort_by key l = l.
Proof.
  induction l as [|x l IH]; intros H; [done|]. apply ascending_cons in H as [H1 H2]. cbn [sort_by]. rewrite IH by done.
  apply insert_by_le. intros y Hy. specialize (H1 y Hy). lia.
Qed.
Lemma elem_of_insert_by {A} (key : A -> Z) (x y : A) (l : list A) : y ∈ insert_by key x l <-> y = x \/ y ∈ l.
Proof.
  induction l as [|z l IH]; cbn [insert_by]; [by rewrite elem_of_cons|].
  destruct (key x <=? key z); rewrite !elem_of_cons; [done|]. rewrite IH. tauto.
Qed.
Lemma elem_of_sort_by {A} (key : A -> Z) (y : A) (l : list A) : y ∈ sort_by key l <-> y ∈ l.
Proof. induction l as [|x l IH]; [done|]. cbn [sort_by]. rewrite elem_of_insert_by, elem_of_cons, IH. done. Qed.
Lemma ascending_seqZ (a n : Z) : ascending id (seqZ a n).
Proof.
  intros i j x y Hi Hj Hij. apply lookup_seqZ in Hi as [-> _]. apply lookup_seqZ in Hj as [-> _]. cbn. unfold id. lia.
Qed.
Lemma ascending_fmap {A B} (key : B -> Z) (f : A -> B) (l : list A) : ascending key (f <$> l) <-> ascending (key ∘ f) l.
Proof.
  induction l as [|x l IH]; [split; intros _; apply ascending_nil|]. rewrite fmap_cons, !ascending_cons, IH. split; intros [H1 H2]; (split; [|done]).
  - intros y Hy. apply H1, elem_of_list_fmap. eauto.
  - intros y Hy. apply elem_of_list_fmap in Hy as (z & -> & Hz). by apply H1.
Qed.
Lemma ascending_NoDup {A} (key : A -> Z) (l : list A) : ascending key l -> NoDup (key <$> l).
Proof.
  induction l as [|x l IH]; intros H; [constructor|]. apply ascending_cons in H as [H1 H2]. rewrite fmap_cons. constructor.
  - intros He. apply elem_of_list_fmap in He as (y & He & Hy). specialize (H1 y Hy). lia.
  - by apply IH.
Qed.

(** ** Rows inserted together *)
Lemma zip_seq_lookup {A B} (f : Z -> A -> B) (a : Z) (l : list A) i y :
  zip_with f (seqZ a (Z.of_nat (length l))) l !! i = Some y <-> exists x, l !! i = Some x /\ y = f (a + Z.of_nat i) x.
Proof.
  rewrite lookup_zip_with_Some. split.
  - intros (k & x & -> & Hk & Hx). apply lookup_seqZ in Hk as [-> _]. eauto.
  - intros (x & Hx & ->). exists (a + Z.of_nat i), x. split; [done|]. split; [|done].
    apply lookup_seqZ. apply lookup_lt_Some in Hx. split; [lia|lia].
Qed.
Lemma zip_seq_cons {A B} (f : Z -> A -> B) (a : Z) (x : A) (l : list A) :
  zip_with f (seqZ a (Z.of_nat (length (x :: l)))) (x :: l) = f a x :: zip_with f (seqZ (a + 1) (Z.of_nat (length l))) l.
Proof.
  cbn [length]. rewrite seqZ_cons by lia. cbn [zip_with]. f_equal. f_equal. f_equal; lia.
Qed.
Lemma zip_seq_ascending {A B} (f : Z -> A -> B) (key : B -> Z) (a : Z) (l : list A) :
  (forall i x, key (f i x) = i) -> ascending key (zip_with f (seqZ a (Z.of_nat (length l))) l).
Proof.
  intros Hk i j x y Hi Hj Hij. apply zip_seq_lookup in Hi as (u & _ & ->). apply zip_seq_lookup in Hj as (v & _ & ->).
  rewrite !Hk. lia.
Qed.
Lemma zip_seq_elem {A B} (f : Z -> A -> B) (a : Z) (l : list A) y :
  y ∈ zip_with f (seqZ a (Z.of_nat (length l))) l -> exists i x, x ∈ l /\ y = f i x /\ a <= i < a + Z.of_nat (length l).
Proof.
  intros H. apply elem_of_list_lookup in H as [i Hi]. apply zip_seq_lookup in Hi as (x & Hx & ->).
  exists (a + Z.of_nat i), x. split; [by eapply elem_of_list_lookup_2|]. split; [done|]. apply lookup_lt_Some in Hx. lia.
Qed.
Lemma filter_all {A} (P : A -> Prop) `{Pdec : !forall x, Decision (P x)} (l : list A) : (forall x, x ∈ l -> P x) -> base.filter P l = l.
Proof.
  induction l as [|x l IH]; intros H; [done|]. rewrite filter_cons_True by (apply H; left). f_equal. apply IH.
  intros y Hy. apply H. by right.
Qed.
Lemma filter_none {A} (P : A -> Prop) `{Pdec : !forall x, Decision (P x)} (l : list A) : (forall x, x ∈ l -> ~ P x) -> base.filter P l = [].
Proof.
  induction l as [|x l IH]; intros H; [done|]. rewrite filter_cons_False by (apply H; left). apply IH.
  intros y Hy. apply H. by right.
Qed.

(** ** Levels *)
Definition no_desc (d : db) (g : Z) : Prop := forall x, x ∈ descs d -> dgrp x <> g.
Lemma desc_rows_grp g ls x : x ∈ desc_rows g ls -> dgrp x = g.
Proof. intros H. apply zip_seq_elem in H as (i & [t v] & _ & -> & _). done. Qed.
Lemma desc_rows_levels g : forall ls, (fun x => (dtype x, dval x)) <$> desc_rows g ls = ls.
Proof.
  intros ls. unfold desc_rows. generalize 0 as a. induction ls as [|[t v] ls IH]; intros a; [done|].
  rewrite zip_seq_cons, fmap_cons, IH. done.
Qed.
Lemma desc_rows_asc g ls : ascending dord (desc_rows g ls).
Proof. apply zip_seq_ascending. intros i [t v]. done. Qed.
Lemma levels_insert d g ls : no_desc d g -> levels_of (insert_descs (desc_rows g ls) d) g = ls.
Proof.
  intros H. unfold levels_of. cbn [descs insert_descs]. rewrite filter_app.
  rewrite (filter_none _ (descs d)) by (intros x Hx; by apply H). cbn [app].
  rewrite filter_all by (intros x Hx; by eapply desc_rows_grp). rewrite sort_by_ascending by apply desc_rows_asc.
  apply desc_rows_levels.
Qed.
Lemma levels_insert_ne d g g' ls : g' <> g -> levels_of (insert_descs (desc_rows g ls) d) g' = levels_of d g'.
Proof.
  intros H. unfold levels_of. cbn [descs insert_descs]. rewrite filter_app.
  rewrite (filter_none _ (desc_rows g ls)) by (intros x Hx; apply desc_rows_grp in Hx; congruence). by rewrite app_nil_r.
Qed.
(** The tables but that of levels are the same. *)
Definition same_but_descs (d d' : db) : Prop :=
  jobs d' = jobs d /\ mlds d' = mlds d /\ grps d' = grps d /\ types d' = types d /\ deps d' = deps d /\ logs d' = logs d /\
  nj d' = nj d /\ nm d' = nm d /\ ng d' = ng d.
Lemma add_levels_spec : forall gs ids d, length ids = length gs -> NoDup ids -> (forall g, g ∈ ids -> no_desc d g) ->
  exists d', add_levels gs ids d = Ok d' /\ same_but_descs d d' /\
    Forall2 (fun g i => levels_of d' i = snd g) gs ids /\
    (forall i, i ∉ ids -> levels_of d' i = levels_of d i) /\
    (forall x, x ∈ descs d' -> x ∈ descs d \/ dgrp x ∈ ids).
Proof.
  induction gs as [|[p ls] gs IH]; intros ids d Hlen Hnd Hno.
  - destruct ids; [|done]. exists d. split; [done|]. split; [done|]. split; [constructor|]. split; [done|]. by left.
  - destruct ids as [|i ids]; [done|]. cbn [add_levels]. injection Hlen as Hlen. apply NoDup_cons in Hnd as [Hi Hnd].
    destruct (IH ids (insert_descs (desc_rows i ls) d) Hlen Hnd) as (d' & E & H1 & H2 & H3 & H4).
    { intros g Hg x Hx. cbn [descs insert_descs] in Hx. apply elem_of_app in Hx as [Hx|Hx]; [apply (Hno g ltac:(by right) x Hx)|].
      apply desc_rows_grp in Hx. intros He. apply Hi. by rewrite <- Hx, He. }
    exists d'. split; [done|]. split; [exact H1|]. split.
    + constructor; [|done]. cbn [snd]. rewrite H3 by done. apply levels_insert, Hno. left.
    + split.
      * intros k Hk. rewrite H3; [|by intros ?; apply Hk; right]. apply levels_insert_ne. intros ->. apply Hk. left.
      * intros x Hx. destruct (H4 x Hx) as [Hx'|Hx']; [|right; by right]. cbn [descs insert_descs] in Hx'.
        apply elem_of_app in Hx' as [?|Hx']; [by left|]. apply desc_rows_grp in Hx'. right. rewrite Hx'. left.
Qed.

(** ** Well-formed databases: identifiers are positive, increasing and below the next one. *)
Record wf (d : db) : Prop := mkWf {
  wf_j : ascending jid (jobs d);
  wf_jb : forall r, r ∈ jobs d -> 1 <= jid r < nj d /\ jarray r < nj d;
  wf_m : ascending mid (mlds d);
  wf_mb : forall m, m ∈ mlds d -> 1 <= mid m < nm d /\ 1 <= mjob m < nj d;
  wf_g : ascending gid (grps d);
  wf_gb : forall g, g ∈ grps d -> 1 <= gid g < ng d /\ 1 <= gmld g < nm d;
  wf_d : forall x, x ∈ descs d -> 1 <= dgrp x < ng d;
  wf_n : 1 <= nj d /\ 1 <= nm d /\ 1 <= ng d }.

Lemma groups_of_filter d m : ascending gid (grps d) ->
  groups_of d m = (fun g => (gprop g, levels_of d (gid g))) <$> base.filter (fun g => gmld g = m) (grps d).
Proof. intros H. unfold groups_of. rewrite sort_by_ascending by by apply ascending_filter. done. Qed.
Lemma moldables_of_filter d j : ascending mid (mlds d) ->
  moldables_of d j = (fun m => (mid m, mwall m, groups_of d (mid m))) <$> base.filter (fun m => mjob m = j) (mlds d).
Proof. intros H. unfold moldables_of. rewrite sort_by_ascending by by apply ascending_filter. done. Qed.

Definition new_grps (a : Z) (l : list (Z * string)) : list grprow :=
  zip_with (fun i '(m, p) => mkGrp i m p) (seqZ a (Z.of_nat (length l))) l.
Lemma new_grps_asc a l : ascending gid (new_grps a l).
Proof. apply zip_seq_ascending. intros i [m p]. done. Qed.
Lemma new_grps_elem a l g : g ∈ new_grps a l -> a <= gid g < a + Z.of_nat (length l) /\ (gmld g, gprop g) ∈ l.
Proof. intros H. apply zip_seq_elem in H as (i & [m p] & H & -> & Hi). done. Qed.
Lemma new_grps_gid l : forall a, gid <$> new_grps a l = seqZ a (Z.of_nat (length l)).
Proof.
  induction l as [|[m p] l IH]; intros a; [done|]. unfold new_grps. rewrite zip_seq_cons, fmap_cons. cbn [length].
  rewrite (seqZ_cons a) by lia. f_equal. fold (new_grps (a + 1) l). rewrite IH. f_equal; lia.
Qed.
Definition new_mlds (a : Z) (l : list (Z * Z)) : list mldrow :=
  zip_with (fun i '(j, w) => mkMld i j w) (seqZ a (Z.of_nat (length l))) l.
Lemma new_mlds_asc a l : ascending mid (new_mlds a l).
Proof. apply zip_seq_ascending. intros i [m p]. done. Qed.
Lemma new_mlds_elem a l m : m ∈ new_mlds a l -> a <= mid m < a + Z.of_nat (length l) /\ (mjob m, mwall m) ∈ l.
Proof. intros H. apply zip_seq_elem in H as (i & [j w] & H & -> & Hi). done. Qed.
Lemma new_mlds_mid l : forall a, mid <$> new_mlds a l = seqZ a (Z.of_nat (length l)).
Proof.
  induction l as [|[m p] l IH]; intros a; [done|]. unfold new_mlds. rewrite zip_seq_cons, fmap_cons. cbn [length].
  rewrite (seqZ_cons a) by lia. f_equal. fold (new_mlds (a + 1) l). rewrite IH. f_equal; lia.
Qed.

Definition same_but_groups (d d' : db) : Prop :=
  jobs d' = jobs d /\ mlds d' = mlds d /\ types d' = types d /\ deps d' = deps d /\ logs d' = logs d /\
  nj d' = nj d /\ nm d' = nm d.
Definition no_group (d : db) (m : Z) : Prop := forall g, g ∈ grps d -> gmld g <> m.

Lemma wf_insert_grps d l : wf d -> (forall x, x ∈ l -> 1 <= fst x < nm d) -> wf (insert_grps l d).
Proof.
  intros [] Hl. split; cbn [jobs mlds grps descs types deps logs nj nm ng insert_grps]; try done.
  - fold (new_grps (ng d) l). apply ascending_app. split; [done|]. split; [apply new_grps_asc|].
    intros x y Hx Hy. apply new_grps_elem in Hy as [Hy _]. specialize (wf_gb0 x Hx). lia.
  - fold (new_grps (ng d) l). intros g [Hg|Hg]%elem_of_app; [specialize (wf_gb0 g Hg); lia|].
    apply new_grps_elem in Hg as [Hg Hin]. specialize (Hl _ Hin). cbn in Hl. lia.
  - intros x Hx. specialize (wf_d0 x Hx). lia.
  - lia.
Qed.
Lemma wf_same_but_descs d d' : wf d -> same_but_descs d d' -> (forall x, x ∈ descs d' -> 1 <= dgrp x < ng d) -> wf d'.
Proof.
  intros [] (H1 & H2 & H3 & _ & _ & _ & H4 & H5 & H6) Hd. split; rewrite ?H1, ?H2, ?H3, ?H4, ?H5, ?H6; done.
Qed.

Section in_order.
  Variable dw : Z.
  Variable ro : list Z -> list Z.
  Hypothesis Hro : forall l, ro l = l.

  Lemma add_groups_spec m gs d : wf d -> 1 <= m < nm d -> no_group d m ->
    exists d', add_groups ro m gs d = Ok d' /\ wf d' /\ same_but_groups d d' /\
      groups_of d' m = gs /\ (forall m', m' <> m -> groups_of d' m' = groups_of d m') /\
      (forall g, g ∈ grps d' -> g ∈ grps d \/ gmld g = m).
  Proof.
    intros Hwf Hm Hno. unfold add_groups. cbv zeta. match goal with |- context [insert_grps ?x d] => set (l := x) end.
    assert (Hl : length l = length gs) by (unfold l; by rewrite fmap_length).
    assert (Hlm : forall x, x ∈ l -> fst x = m).
    { intros x Hx. unfold l in Hx. apply elem_of_list_fmap in Hx as (g & -> & _). done. }
    assert (Hwf1 : wf (insert_grps l d)).
    { apply wf_insert_grps; [done|]. intros x Hx. rewrite (Hlm x Hx). done. }
    assert (Hf : base.filter (fun g => gmld g = m) (grps (insert_grps l d)) = new_grps (ng d) l).
    { cbn [grps insert_grps]. fold (new_grps (ng d) l). rewrite filter_app, (filter_none _ (grps d)) by done. cbn [app].
      apply filter_all. intros g Hg. apply new_grps_elem in Hg as [_ Hg]. by apply Hlm in Hg. }
    assert (Hids : (if Nat.eqb (length gs) 1 then [ng d]
                    else ro (gid <$> base.filter (fun g => gmld g = m) (grps (insert_grps l d))))
                   = seqZ (ng d) (Z.of_nat (length gs))).
    { destruct (Nat.eqb (length gs) 1) eqn:E.
      - apply Nat.eqb_eq in E. rewrite E. done.
      - rewrite Hro, Hf, new_grps_gid, Hl. done. }
    rewrite Hids.
    assert (Hmem : forall g, g ∈ seqZ (ng d) (Z.of_nat (length gs)) <-> ng d <= g < ng d + Z.of_nat (length gs)).
    { intros g. rewrite elem_of_seqZ. lia. }
    destruct (add_levels_spec gs (seqZ (ng d) (Z.of_nat (length gs))) (insert_grps l d)) as (d' & E & Hs & H2 & H3 & H4).
    - rewrite seqZ_length. lia.
    - apply NoDup_seqZ.
    - intros g Hg x Hx. apply Hmem in Hg. cbn [descs insert_grps] in Hx. destruct Hwf. specialize (wf_d0 x Hx). lia.
    - assert (Hwf' : wf d').
      { eapply wf_same_but_descs; [exact Hwf1|done|]. intros x Hx. destruct (H4 x Hx) as [Hx'|Hx'].
        - destruct Hwf1. by apply wf_d0.
        - apply Hmem in Hx'. cbn [ng insert_grps]. rewrite Hl. destruct Hwf. lia. }
      exists d'. split; [done|]. split; [done|]. destruct Hs as (S1 & S2 & S3 & S4 & S5 & S6 & S7 & S8 & S9).
      split; [done|]. split; [|split].
      + rewrite groups_of_filter by apply Hwf'. rewrite S3, Hf. unfold new_grps, l.
        clear - H2. generalize (ng d) as a, H2. clear H2. induction gs as [|[p ls] gs IH]; intros a H2; [done|].
        cbn [length] in H2. rewrite seqZ_cons in H2 by lia. inversion H2; subst.
        rewrite fmap_cons, zip_seq_cons, fmap_cons. cbn [gprop gid fst snd] in *. rewrite H3. f_equal.
        apply IH. replace (Z.succ a) with (a + 1) in H5 by lia. replace (Z.pred (Z.of_nat (S (length gs)))) with (Z.of_nat (length gs)) in H5 by lia. done.
      + intros m' Hm'. rewrite !groups_of_filter; [|apply Hwf|apply Hwf']. rewrite S3. cbn [grps insert_grps].
        fold (new_grps (ng d) l). rewrite filter_app, (filter_none _ (new_grps (ng d) l)), app_nil_r.
        * apply list_fmap_ext. intros i g Hg. f_equal. apply H3. rewrite Hmem. apply elem_of_list_lookup_2 in Hg.
          apply elem_of_list_filter in Hg as [_ Hg]. destruct Hwf. specialize (wf_gb0 g Hg). lia.
        * intros g Hg. apply new_grps_elem in Hg as [_ Hg]. apply Hlm in Hg. cbn in Hg. congruence.
      + intros g. rewrite S3. cbn [grps insert_grps]. fold (new_grps (ng d) l). intros [Hg|Hg]%elem_of_app; [by left|].
        right. apply new_grps_elem in Hg as [_ Hg]. by apply Hlm in Hg.
  Qed.

  Lemma add_moldables_spec : forall req ids d, wf d -> length ids = length req -> NoDup ids ->
    (forall m, m ∈ ids -> 1 <= m < nm d /\ no_group d m) ->
    exists d', add_moldables ro req ids d = Ok d' /\ wf d' /\ same_but_groups d d' /\
      Forall2 (fun m i => groups_of d' i = fst m) req ids /\
      (forall i, i ∉ ids -> groups_of d' i = groups_of d i) /\
      (forall g, g ∈ grps d' -> g ∈ grps d \/ gmld g ∈ ids).
  Proof.
    induction req as [|[gs w] req IH]; intros ids d Hwf Hlen Hnd Hids.
    - destruct ids; [|done]. exists d. split; [done|]. split; [done|]. split; [done|]. split; [constructor|]. split; [done|]. by left.
    - destruct ids as [|m ids]; [done|]. injection Hlen as Hlen. apply NoDup_cons in Hnd as [Hm Hnd]. cbn [add_moldables].
      destruct (Hids m ltac:(left)) as [Hmr Hmn].
      destruct (add_groups_spec m gs d Hwf Hmr Hmn) as (d1 & E1 & W1 & S1 & G1 & G2 & G3).
      rewrite E1. cbn [rbind]. destruct (IH ids d1 W1 Hlen Hnd) as (d' & E' & W' & S' & G1' & G2' & G3').
      { intros k Hk. destruct (Hids k ltac:(by right)) as [A B]. destruct S1 as (_ & _ & _ & _ & _ & _ & ->). split; [done|].
        intros g Hg. destruct (G3 g Hg) as [Hg'|Hg']; [by apply B|]. rewrite Hg'. intros ->. done. }
      exists d'. split; [done|]. split; [done|]. split.
      { destruct S1 as (A1 & A2 & A3 & A4 & A5 & A6 & A7). destruct S' as (B1 & B2 & B3 & B4 & B5 & B6 & B7).
        split; [congruence|]. split; [congruence|]. split; [congruence|]. split; [congruence|]. split; [congruence|]. split; congruence. }
      split; [|split].
      + constructor; [|done]. cbn [fst]. by rewrite G2'.
      + intros i Hi. rewrite G2' by (intros ?; apply Hi; by right). apply G2. intros ->. apply Hi. left.
      + intros g Hg. destruct (G3' g Hg) as [Hg'|Hg']; [|right; by right].
        destruct (G3 g Hg') as [Hg2|Hg2]; [by left|]. right. rewrite Hg2. left.
  Qed.

  Lemma wf_insert_mlds d l : wf d -> (forall x, x ∈ l -> 1 <= fst x < nj d) -> wf (insert_mlds l d).
  Proof.
    intros [] Hl. split; cbn [jobs mlds grps descs types deps logs nj nm ng insert_mlds]; try done.
    - fold (new_mlds (nm d) l). apply ascending_app. split; [done|]. split; [apply new_mlds_asc|].
      intros x y Hx Hy. apply new_mlds_elem in Hy as [Hy _]. specialize (wf_mb0 x Hx). lia.
    - fold (new_mlds (nm d) l). intros g [Hg|Hg]%elem_of_app; [specialize (wf_mb0 g Hg); lia|].
      apply new_mlds_elem in Hg as [Hg Hin]. specialize (Hl _ Hin). cbn in Hl. lia.
    - intros x Hx. specialize (wf_gb0 x Hx). lia.
    - lia.
  Qed.
  Lemma add_description_spec j req d : wf d -> 1 <= j < nj d -> (forall m, m ∈ mlds d -> mjob m <> j) ->
    exists d', add_description dw ro j req d = Ok d' /\ wf d' /\
      jobs d' = jobs d /\ types d' = types d /\ deps d' = deps d /\ logs d' = logs d /\ nj d' = nj d /\
      Forall2 (fun m x => snd (fst x) = walltime_of dw (snd m) /\ snd x = fst m) req (moldables_of d' j) /\
      (forall j', j' <> j -> moldables_of d' j' = moldables_of d j') /\
      mlds d' = mlds d ++ new_mlds (nm d) ((fun m => (j, walltime_of dw (snd m))) <$> req).
  Proof.
    intros Hwf Hj Hno. unfold add_description. cbv zeta. match goal with |- context [insert_mlds ?x d] => set (l := x) end.
    assert (Hl : length l = length req) by (unfold l; by rewrite fmap_length).
    assert (Hlj : forall x, x ∈ l -> fst x = j).
    { intros x Hx. unfold l in Hx. apply elem_of_list_fmap in Hx as (g & -> & _). done. }
    assert (Hwf1 : wf (insert_mlds l d)).
    { apply wf_insert_mlds; [done|]. intros x Hx. rewrite (Hlj x Hx). done. }
    assert (Hf : base.filter (fun m => mjob m = j) (mlds (insert_mlds l d)) = new_mlds (nm d) l).
    { cbn [mlds insert_mlds]. fold (new_mlds (nm d) l). rewrite filter_app, (filter_none _ (mlds d)) by done. cbn [app].
      apply filter_all. intros g Hg. apply new_mlds_elem in Hg as [_ Hg]. by apply Hlj in Hg. }
    assert (Hids : (if Nat.eqb (length req) 1 then [nm d]
                    else ro (mid <$> base.filter (fun m => mjob m = j) (mlds (insert_mlds l d))))
                   = seqZ (nm d) (Z.of_nat (length req))).
    { destruct (Nat.eqb (length req) 1) eqn:E.
      - apply Nat.eqb_eq in E. rewrite E. done.
      - rewrite Hro, Hf, new_mlds_mid, Hl. done. }
    rewrite Hids.
    assert (Hmem : forall g, g ∈ seqZ (nm d) (Z.of_nat (length req)) <-> nm d <= g < nm d + Z.of_nat (length req)).
    { intros g. rewrite elem_of_seqZ. lia. }
    destruct (add_moldables_spec req (seqZ (nm d) (Z.of_nat (length req))) (insert_mlds l d) Hwf1) as (d' & E & W' & S & G1 & G2 & G3).
    - rewrite seqZ_length. lia.
    - apply NoDup_seqZ.
    - intros m Hm. apply Hmem in Hm. destruct Hwf. cbn [nm insert_mlds]. split; [lia|].
      intros g Hg. cbn [grps insert_mlds] in Hg. specialize (wf_gb0 g Hg). lia.
    - destruct S as (S1 & S2 & S3 & S4 & S5 & S6 & S7). exists d'. split; [done|]. split; [done|].
      split; [done|]. split; [done|]. split; [done|]. split; [done|]. split; [done|]. split; [|split].
      + rewrite moldables_of_filter by apply W'. rewrite S2, Hf. unfold new_mlds, l. clear - G1.
        generalize (nm d) as a, G1. clear G1. induction req as [|[gs w] req IH]; intros a G1; [constructor|].
        cbn [length] in G1. rewrite seqZ_cons in G1 by lia. inversion G1; subst.
        rewrite fmap_cons, zip_seq_cons, fmap_cons. constructor; [cbn [mid mwall fst snd] in *; done|].
        apply IH. replace (Z.succ a) with (a + 1) in H4 by lia. replace (Z.pred (Z.of_nat (S (length req)))) with (Z.of_nat (length req)) in H4 by lia. done.
      + intros j' Hj'. rewrite !moldables_of_filter; [|apply Hwf|apply W']. rewrite S2. cbn [mlds insert_mlds].
        fold (new_mlds (nm d) l). rewrite filter_app, (filter_none _ (new_mlds (nm d) l)), app_nil_r.
        * apply list_fmap_ext. intros i g Hg. f_equal. apply elem_of_list_lookup_2 in Hg.
          apply elem_of_list_filter in Hg as [_ Hg]. rewrite G2.
          -- destruct Hwf as []. done.
          -- rewrite Hmem. destruct Hwf. specialize (wf_mb0 g Hg). lia.
        * intros g Hg. apply new_mlds_elem in Hg as [_ Hg]. apply Hlj in Hg. cbn in Hg. congruence.
      + rewrite S2. done.
  Qed.
End in_order.

(** ** One job *)
Lemma wf_set_jobs f d : wf d -> (forall r, r ∈ jobs d -> jid (f r) = jid r /\ jarray (f r) < nj d) -> wf (set_jobs f d).
Proof.
  intros [] Hf. split; cbn [jobs mlds grps descs types deps logs nj nm ng set_jobs]; try done.
  - apply ascending_fmap. intros i j x y Hx Hy Hij. cbn. destruct (Hf x ltac:(by eapply elem_of_list_lookup_2)) as [-> _].
    destruct (Hf y ltac:(by eapply elem_of_list_lookup_2)) as [-> _]. by eapply wf_j0.
  - intros r Hr. apply elem_of_list_fmap in Hr as (r' & -> & Hr). destruct (Hf r' Hr) as [-> ?]. specialize (wf_jb0 r' Hr). lia.
Qed.
Lemma wf_insert_job p v a i c d : wf d -> a <= nj d -> wf (insert_job p v a i c d).
Proof.
  intros [] Ha. split; cbn [jobs mlds grps descs types deps logs nj nm ng insert_job]; try done.
  - apply ascending_app. split; [done|]. split; [apply ascending_cons; split; [intros y Hy; by apply elem_of_nil in Hy|apply ascending_nil]|].
    intros x y Hx ->%elem_of_list_singleton. cbn. specialize (wf_jb0 x Hx). lia.
  - intros r [Hr|Hr]%elem_of_app; [specialize (wf_jb0 r Hr); lia|]. apply elem_of_list_singleton in Hr as ->. cbn. lia.
  - intros m Hm. specialize (wf_mb0 m Hm). lia.
  - lia.
Qed.
Lemma wf_insert_logs l d : wf d -> wf (insert_logs l d).
Proof. intros []. by split. Qed.
Lemma wf_insert_types l d : wf d -> wf (insert_types l d).
Proof. intros []. by split. Qed.
Lemma wf_insert_deps l d : wf d -> wf (insert_deps l d).
Proof. intros []. by split. Qed.
Lemma wf_set_state f s d : wf d -> wf (set_state f s d).
Proof.
  intros H. apply wf_set_jobs; [done|]. intros r Hr. destruct H as []. specialize (wf_jb0 r Hr). destruct (f r); cbn; lia.
Qed.
Lemma wf_set_array j a d : wf d -> a < nj d -> wf (set_array j a d).
Proof.
  intros H Ha. apply wf_set_jobs; [done|]. intros r Hr. destruct H as []. specialize (wf_jb0 r Hr). destruct (jid r =? j); cbn; lia.
Qed.

(** What a database holds once a job [row] with request [req] is added to [d]. *)
Definition added (dw : Z) (d d' : db) (row : jobrow) (req : list smold) : Prop :=
  jobs d' = jobs d ++ [row] /\
  Forall2 (fun m x => snd (fst x) = walltime_of dw (snd m) /\ snd x = fst m) req (moldables_of d' (jid row)) /\
  (forall j, j <> jid row -> moldables_of d' j = moldables_of d j) /\
  mlds d' = mlds d ++ new_mlds (nm d) ((fun m => (jid row, walltime_of dw (snd m))) <$> req).
Lemma set_jobs_old f (l : list jobrow) r : (forall x, x ∈ l -> f x = x) -> f <$> (l ++ [r]) = l ++ [f r].
Proof.
  intros H. rewrite fmap_app. f_equal. induction l as [|x l IH]; [done|]. rewrite fmap_cons, (H x ltac:(left)). f_equal.
  apply IH. intros y Hy. apply H. by right.
Qed.

Section in_order2.
  Variable dw : Z.
  Variable ro : list Z -> list Z.
  Hypothesis Hro : forall l, ro l = l.

  Lemma add_subjob_spec p a i c d : wf d -> a < nj d ->
    exists t, add_subjob dw ro p a i c d = Ok (t, nj d) /\ t <> [] /\
      let row st := mkJob (nj d) st (if 0 <? a then a else nj d) i c (p_props p) (if p_resv p then "toSchedule" else "None")%string in
      (* the last state *)
      (exists d', last t = Some d' /\ wf d' /\ added dw d d' (row (if p_hold p then "Hold" else "Waiting")%string) (p_req p)) /\
      (* the states before *)
      (forall d', d' ∈ t -> wf d' /\
         (added dw d d' (row "Hold"%string) (p_req p) \/ added dw d d' (row "Waiting"%string) (p_req p) \/
          (a <= 0 /\ jobs d' = jobs d ++ [row "Hold"%string] /\ mlds d' = mlds d /\ (forall j, moldables_of d' j = moldables_of d j)))).
  Proof.
    intros Hwf Ha. unfold add_subjob. cbv zeta.
    set (v := (if p_resv p then "toSchedule" else "None")%string).
    set (row := fun st => mkJob (nj d) st (if 0 <? a then a else nj d) i c (p_props p) v).
    set (d1 := if 0 <? a then _ else _).
    assert (Hd1 : jobs d1 = jobs d ++ [row "Hold"%string]).
    { unfold d1, row. destruct (0 <? a); [done|]. cbn [jobs set_array set_jobs insert_job]. rewrite set_jobs_old.
      - cbn. rewrite Z.eqb_refl. done.
      - intros x Hx. destruct Hwf. specialize (wf_jb0 x Hx). destruct (jid x =? nj d) eqn:E; [lia|done]. }
    assert (Hsame : mlds d1 = mlds d /\ grps d1 = grps d /\ descs d1 = descs d /\ nj d1 = nj d + 1 /\ nm d1 = nm d)
      by (unfold d1; destruct (0 <? a); done).
    assert (Hwf1 : wf d1).
    { pose proof (wf_n d Hwf). unfold d1. destruct (0 <? a) eqn:E; [apply wf_insert_job; [done|lia]|].
      apply wf_set_array; [apply wf_insert_job; [done|lia]|cbn; lia]. }
    destruct Hsame as (S1 & S2 & S3 & S4 & S5).
    assert (Hmold1 : forall j, moldables_of d1 j = moldables_of d j).
    { intros j. unfold moldables_of, groups_of, levels_of. rewrite S1, S2, S3. done. }
    destruct (add_description_spec dw ro Hro (nj d) (p_req p) d1 Hwf1) as (d2 & E2 & W2 & J2 & T2 & P2 & L2 & N2 & M2 & F2 & A2).
    { rewrite S4. pose proof (wf_n d Hwf). lia. }
    { intros m Hm. rewrite S1 in Hm. destruct Hwf. specialize (wf_mb0 m Hm). lia. }
    rewrite E2. cbn [rbind].
    set (d4 := insert_deps _ (insert_types _ d2)).
    assert (W4 : wf d4) by by apply wf_insert_deps, wf_insert_types.
    assert (A4 : added dw d d4 (row "Hold"%string) (p_req p)).
    { split; [unfold d4; cbn [jobs insert_deps insert_types]; rewrite J2; done|]. split; [exact M2|]. split; [|].
      - intros j Hj. change (moldables_of d4 j) with (moldables_of d2 j). rewrite F2 by done. apply Hmold1.
      - change (mlds d4) with (mlds d2). rewrite A2, S1, S5. done. }
    destruct (p_hold p).
    - exists ((if 0 <? a then [] else [d1]) ++ [insert_logs [(nj d, "Hold"%string)] d4]). split; [done|].
      split; [by destruct (0 <? a)|]. split.
      + exists (insert_logs [(nj d, "Hold"%string)] d4). rewrite last_app. cbn [last]. split; [done|].
        split; [by apply wf_insert_logs|]. exact A4.
      + intros d' [Hd'|Hd']%elem_of_app.
        * destruct (0 <? a) eqn:Ea; [by apply elem_of_nil in Hd'|]. apply elem_of_list_singleton in Hd' as ->.
          split; [done|]. right. right. split; [lia|]. done.
        * apply elem_of_list_singleton in Hd' as ->. split; [by apply wf_insert_logs|]. by left.
    - set (d5 := insert_logs _ d4).
      assert (A5 : added dw d (set_state (fun r => jid r =? nj d) "Waiting" d5) (row "Waiting"%string) (p_req p)).
      { destruct A4 as (B1 & B2 & B3 & B4). split; [|split; [exact B2|split; [exact B3|exact B4]]].
        cbn [jobs set_state set_jobs]. change (jobs d5) with (jobs d4). rewrite B1, set_jobs_old.
        - cbn. rewrite Z.eqb_refl. done.
        - intros x Hx. destruct Hwf. specialize (wf_jb0 x Hx). destruct (jid x =? nj d) eqn:E; [lia|done]. }
      exists ((if 0 <? a then [] else [d1]) ++ [d5; set_state (fun r => jid r =? nj d) "Waiting" d5]). split; [done|].
      split; [by destruct (0 <? a)|]. split.
      + exists (set_state (fun r => jid r =? nj d) "Waiting" d5). rewrite last_app. cbn [last]. split; [done|].
        split; [by apply wf_set_state, wf_insert_logs|]. exact A5.
      + intros d' [Hd'|Hd']%elem_of_app.
        * destruct (0 <? a) eqn:Ea; [by apply elem_of_nil in Hd'|]. apply elem_of_list_singleton in Hd' as ->.
          split; [done|]. right. right. split; [lia|]. done.
        * apply elem_of_cons in Hd' as [->|Hd'].
          -- split; [by apply wf_insert_logs|]. left. exact A4.
          -- apply elem_of_list_singleton in Hd' as ->. split; [by apply wf_set_state, wf_insert_logs|]. right. left. exact A5.
  Qed.
End in_order2.

(** ** Arrays *)
Definition array_rows (p : params) (st : string) (a : Z) (cmds : list string) : list jobrow :=
  zip_with (fun k c => mkJob (a + k) st a (1 + k) c (p_props p) "None") (seqZ 0 (Z.of_nat (length cmds))) cmds.
Lemma array_rows_cons p st a c cs : array_rows p st a (c :: cs) =
  mkJob a st a 1 c (p_props p) "None" ::
  zip_with (fun k c => mkJob (a + k) st a (1 + k) c (p_props p) "None") (seqZ 1 (Z.of_nat (length cs))) cs.
Proof. unfold array_rows. rewrite zip_seq_cons. f_equal. f_equal; lia. Qed.
Lemma array_rows_jid p st a cmds : jid <$> array_rows p st a cmds = seqZ a (Z.of_nat (length cmds)).
Proof.
  unfold array_rows. assert (H : forall k, jid <$> zip_with (fun k c => mkJob (a + k) st a (1 + k) c (p_props p) "None") (seqZ k (Z.of_nat (length cmds))) cmds
     = seqZ (a + k) (Z.of_nat (length cmds))).
  { induction cmds as [|c cmds IH]; intros k; [done|]. rewrite zip_seq_cons, fmap_cons, IH. cbn [jid length].
    rewrite (seqZ_cons (a + k)) by lia. f_equal. f_equal; lia. }
  rewrite H. f_equal. lia.
Qed.
Lemma array_rows_elem p st a cmds r : r ∈ array_rows p st a cmds ->
  a <= jid r < a + Z.of_nat (length cmds) /\ jarray r = a /\ jstate r = st.
Proof. intros H. apply zip_seq_elem in H as (i & c & _ & -> & Hi). cbn [jid jarray jstate]. split; [lia|done]. Qed.

Lemma insert_jobs_fold p a : forall cs d i,
  let d' := fst (fold_left (fun '(d, i) c => (insert_job p "None" a i c d, i + 1)) cs (d, i)) in
  jobs d' = jobs d ++ zip_with (fun k c => mkJob (nj d + k) "Hold" a (i + k) c (p_props p) "None") (seqZ 0 (Z.of_nat (length cs))) cs /\
  mlds d' = mlds d /\ grps d' = grps d /\ descs d' = descs d /\ types d' = types d /\ deps d' = deps d /\ logs d' = logs d /\
  nj d' = nj d + Z.of_nat (length cs) /\ nm d' = nm d /\ ng d' = ng d.
Proof.
  induction cs as [|c cs IH]; intros d i; cbv zeta; cbn [fold_left].
  - cbn [fst]. rewrite app_nil_r. cbn [length]. split; [done|]. repeat (split; [done|]). split; [lia|]. done.
  - destruct (IH (insert_job p "None" a i c d) (i + 1)) as (H1 & H2 & H3 & H4 & H5 & H6 & H7 & H8 & H9 & H10). cbv zeta in H1.
    split; [|cbn [length]; cbn [insert_job nj] in H8; repeat (split; [done|]); split; [lia|]; done].
    rewrite H1. cbn [jobs insert_job nj]. rewrite <- app_assoc. f_equal. rewrite zip_seq_cons. cbn [app]. f_equal; [f_equal; lia|].
    clear. generalize 0 as k. induction cs as [|c' cs IH]; intros k; [done|]. rewrite !zip_seq_cons. f_equal; [f_equal; lia|]. apply IH.
Qed.

(** The levels of several groups, inserted at once. *)
Definition flat_descs (gs : list sgroup) (ids : list Z) : list descrow := concat (zip_with (fun g i => desc_rows i (snd g)) gs ids).
Lemma insert_descs_app a b d : insert_descs b (insert_descs a d) = insert_descs (a ++ b) d.
Proof. unfold insert_descs. cbn. by rewrite app_assoc. Qed.
Lemma add_levels_flat : forall gs ids d, length ids = length gs -> add_levels gs ids d = Ok (insert_descs (flat_descs gs ids) d).
Proof.
  induction gs as [|[p ls] gs IH]; intros ids d Hlen; destruct ids as [|i ids]; try done.
  - cbn. unfold insert_descs. cbn. rewrite app_nil_r. by destruct d.
  - cbn [add_levels]. rewrite IH by (cbn in Hlen; lia). rewrite insert_descs_app. done.
Qed.
Lemma array_descs_flat gs : forall n ids, length ids = (n * length gs)%nat ->
  array_descs n gs ids = Ok (flat_descs (concat (replicate n gs)) ids).
Proof.
  induction n as [|n IH]; intros ids Hlen; [done|]. cbn [array_descs replicate concat].
  assert (H : forall l ids', length ids' = (length l + n * length gs)%nat ->
     (fix one (l : list sgroup) (ids : list Z) : res (list descrow) :=
           match l, ids with
           | [], _ => array_descs n gs ids
           | (_, levels) :: l', g :: ids' => r <-- one l' ids' ;; Ok (desc_rows g levels ++ r)
           | (_, []) :: l', [] => one l' []
           | _ :: _, [] => Err EIndex
           end) l ids' = Ok (flat_descs (l ++ concat (replicate n gs)) ids')).
  { induction l as [|[p ls] l IHl]; intros ids' Hl.
    - apply IH. cbn in Hl. lia.
    - destruct ids' as [|i ids']; [cbn in Hl; lia|]. destruct ls; rewrite IHl by (cbn in Hl; lia); reflexivity. }
  apply H. cbn in Hlen. lia.
Qed.

Lemma bind_concat_replicate {A B} (f : A -> list B) (l : list A) (k : list B) : (forall x, f x = k) -> l ≫= f = concat (replicate (length l) k).
Proof. intros H. induction l as [|x l IH]; [done|]. cbn [length replicate concat]. rewrite bind_cons, H, IH. done. Qed.
Lemma length_concat_replicate {A} n (k : list A) : length (concat (replicate n k)) = (n * length k)%nat.
Proof. induction n as [|n IH]; [done|]. cbn [replicate concat]. rewrite app_length, IH. lia. Qed.

(** All the groups of the moldable instances [mids], inserted at once. *)
Definition pairs (mids : list Z) (gs : list sgroup) : list (Z * sgroup) := mids ≫= fun m => (fun g => (m, g)) <$> gs.
Lemma pairs_snd mids gs : snd <$> pairs mids gs = concat (replicate (length mids) gs).
Proof.
  unfold pairs. induction mids as [|m mids IH]; [done|]. rewrite bind_cons, fmap_app, IH. cbn [length replicate concat]. f_equal.
  rewrite <- list_fmap_compose. apply list_fmap_id.
Qed.
Lemma pairs_filter mids gs m : NoDup mids -> m ∈ mids -> base.filter (fun x => fst x = m) (pairs mids gs) = (fun g => (m, g)) <$> gs.
Proof.
  induction mids as [|k mids IH]; intros Hnd Hm; [by apply elem_of_nil in Hm|]. apply NoDup_cons in Hnd as [Hk Hnd].
  unfold pairs. rewrite bind_cons, filter_app. fold (pairs mids gs).
  assert (Hpn : forall k' l, k' ∉ l -> base.filter (fun x : Z * sgroup => fst x = k') (pairs l gs) = []).
  { intros k' l Hk'. apply filter_none. intros [m' g] H He. cbn in He. subst m'. apply Hk'.
    unfold pairs in H. apply elem_of_list_bind in H as (m'' & H & Hm''). apply elem_of_list_fmap in H as (g' & [= -> _] & _). done. }
  destruct (decide (m = k)) as [->|Hne].
  - rewrite Hpn, app_nil_r by done. apply filter_all. intros [m' g] H. apply elem_of_list_fmap in H as (g' & [= -> _] & _). done.
  - rewrite filter_none.
    + cbn [app]. apply IH; [done|]. apply elem_of_cons in Hm as [?|?]; done.
    + intros [m' g] H. apply elem_of_list_fmap in H as (g' & [= -> _] & _). cbn. congruence.
Qed.
Lemma new_grps_view (F : Z -> list (string * Z)) m : forall (l : list (Z * sgroup)) a,
  Forall2 (fun g i => F i = snd g) (snd <$> l) (seqZ a (Z.of_nat (length l))) ->
  (fun g => (gprop g, F (gid g))) <$> base.filter (fun g => gmld g = m) (new_grps a ((fun x => (fst x, fst (snd x))) <$> l))
  = snd <$> base.filter (fun x => fst x = m) l.
Proof.
  induction l as [|[k [p ls]] l IH]; intros a H; [done|]. rewrite fmap_cons in H. cbn [length snd] in H. rewrite (seqZ_cons a) in H by lia.
  inversion H as [|? ? ? ? H1 H2]; subst. cbn [snd] in H1.
  replace (Z.succ a) with (a + 1) in H2 by lia. replace (Z.pred (Z.of_nat (S (length l)))) with (Z.of_nat (length l)) in H2 by lia.
  rewrite fmap_cons. unfold new_grps. rewrite zip_seq_cons. fold (new_grps (a + 1) ((fun x => (fst x, fst (snd x))) <$> l)).
  rewrite !filter_cons. cbn [gmld fst snd]. destruct (decide (k = m)); [|by apply IH]. rewrite !fmap_cons. cbn [gprop gid snd]. rewrite H1. f_equal. by apply IH.
Qed.

Lemma new_mlds_one (w j : Z) : forall (k : nat) b x,
  base.filter (fun m => mjob m = j) (new_mlds x ((fun j => (j, w)) <$> seqZ b (Z.of_nat k))) =
  if (b <=? j) && (j <? b + Z.of_nat k) then [mkMld (x + (j - b)) j w] else [].
Proof.
  induction k as [|k IH]; intros b x.
  - destruct ((b <=? j) && (j <? b + Z.of_nat 0)) eqn:E; [lia|]. done.
  - rewrite (seqZ_cons b) by lia. rewrite fmap_cons. unfold new_mlds. rewrite zip_seq_cons.
    rewrite filter_cons. cbn [mjob]. replace (Z.succ b) with (b + 1) by lia. replace (Z.pred (Z.of_nat (S k))) with (Z.of_nat k) by lia.
    fold (new_mlds (x + 1) ((fun j => (j, w)) <$> seqZ (b + 1) (Z.of_nat k))). rewrite IH.
    destruct (decide (b = j)) as [->|Hb].
    + destruct ((j + 1 <=? j) && (j <? j + 1 + Z.of_nat k)) eqn:E1; [lia|]. destruct ((j <=? j) && (j <? j + Z.of_nat (S k))) eqn:E2; [|lia].
      f_equal. f_equal; lia.
    + destruct ((b + 1 <=? j) && (j <? b + 1 + Z.of_nat k)) eqn:E1, ((b <=? j) && (j <? b + Z.of_nat (S k))) eqn:E2; try lia; [|done]. f_equal. f_equal; lia.
Qed.

Section in_order3.
  Variable dw : Z.
  Variable ro : list Z -> list Z.
  Hypothesis Hro : forall l, ro l = l.

  (** What a database holds once an array is added. *)
  Definition array_added (p : params) (st : string) (gs : list sgroup) (w : option Z) (cmds : list string) (d d' : db) : Prop :=
    jobs d' = jobs d ++ array_rows p st (nj d) cmds /\
    (forall j, nj d <= j < nj d + Z.of_nat (length cmds) ->
       moldables_of d' j = [(nm d + (j - nj d), walltime_of dw w, gs)]) /\
    (forall j, j < nj d -> moldables_of d' j = moldables_of d j) /\
    mlds d' = mlds d ++ new_mlds (nm d) ((fun j => (j, walltime_of dw w)) <$> seqZ (nj d) (Z.of_nat (length cmds))).
  Lemma add_array_spec p gs w cmds d : wf d -> cmds <> [] ->
    exists t, add_array dw ro p gs w cmds d = Ok (t, seqZ (nj d) (Z.of_nat (length cmds))) /\ t <> [] /\
      (exists d', last t = Some d' /\ wf d' /\ array_added p (if p_hold p then "Hold" else "Waiting")%string gs w cmds d d') /\
      (forall d', d' ∈ t -> wf d' /\
         (array_added p "Hold" gs w cmds d d' \/ array_added p "Waiting" gs w cmds d d' \/
          (exists n, (1 <= n <= length cmds)%nat /\ jobs d' = jobs d ++ take n (array_rows p "Hold" (nj d) cmds) /\
             (forall j, j < nj d -> moldables_of d' j = moldables_of d j) /\
             (mlds d' = mlds d \/ (n = length cmds /\
                mlds d' = mlds d ++ new_mlds (nm d) ((fun j => (j, walltime_of dw w)) <$> seqZ (nj d) (Z.of_nat (length cmds)))))))).
  Proof.
    intros Hwf Hne. destruct cmds as [|c0 cs]; [done|]. set (cmds := c0 :: cs) in *. clear Hne.
    unfold add_array, cmds. cbv zeta. fold cmds.
    set (a := nj d). set (n := Z.of_nat (length cmds)).
    set (d1 := set_array a a (insert_job p "None" 0 1 c0 d)).
    pose proof (wf_n d Hwf) as Hn.
    assert (J1 : jobs d1 = jobs d ++ [mkJob a "Hold" a 1 c0 (p_props p) "None"]).
    { unfold d1. cbn [jobs set_array set_jobs insert_job]. rewrite set_jobs_old.
      - cbn. fold a. rewrite Z.eqb_refl. done.
      - intros x Hx. destruct Hwf. specialize (wf_jb0 x Hx). destruct (jid x =? a) eqn:E; [unfold a in E; lia|done]. }
    assert (W1 : wf d1).
    { apply wf_set_array; [apply wf_insert_job; [done|lia]|cbn; unfold a; lia]. }
    set (d2 := fst (fold_left _ cs (d1, 2))).
    assert (D2 : jobs d2 = jobs d ++ array_rows p "Hold" a cmds /\ mlds d2 = mlds d /\ grps d2 = grps d /\ descs d2 = descs d /\
                 nj d2 = a + n /\ nm d2 = nm d /\ ng d2 = ng d).
    { destruct (insert_jobs_fold p a cs d1 2) as (H1 & H2 & H3 & H4 & _ & _ & _ & H8 & H9 & H10). cbv zeta in H1. fold d2 in H1, H2, H3, H4, H8, H9, H10.
      split; [|split; [done|split; [done|split; [done|split; [|done]]]]].
      - rewrite H1, J1, <- app_assoc. f_equal. unfold cmds. rewrite array_rows_cons. cbn [app]. f_equal.
        assert (nj d1 = a + 1) as -> by done. clear.
        assert (H : forall k, zip_with (fun k c => mkJob (a + 1 + k) "Hold" a (2 + k) c (p_props p) "None") (seqZ k (Z.of_nat (length cs))) cs =
                   zip_with (fun k c => mkJob (a + k) "Hold" a (1 + k) c (p_props p) "None") (seqZ (k + 1) (Z.of_nat (length cs))) cs).
        { induction cs as [|c cs IH]; intros k; [done|]. rewrite !zip_seq_cons. f_equal; [f_equal; lia|]. apply IH. }
        apply H.
      - rewrite H8. change (nj d1) with (a + 1). unfold n, cmds. cbn [length]. lia. }
    destruct D2 as (J2 & M2 & G2 & X2 & N2 & NM2 & NG2).
    assert (W2 : wf d2).
    { assert (Hrows : forall r, r ∈ array_rows p "Hold" a cmds -> a <= jid r < a + n /\ jarray r = a)
        by (intros r Hr; apply array_rows_elem in Hr as (? & ? & _); done).
      destruct Hwf. split; rewrite ?J2, ?M2, ?G2, ?X2, ?N2, ?NM2, ?NG2; try done.
      - apply ascending_app. split; [done|]. split.
        + unfold array_rows. intros i j x y Hx Hy Hij. apply zip_seq_lookup in Hx as (? & _ & ->). apply zip_seq_lookup in Hy as (? & _ & ->). cbn. lia.
        + intros x y Hx Hy. specialize (wf_jb0 x Hx). apply Hrows in Hy. unfold a in Hy. lia.
      - intros r [Hr|Hr]%elem_of_app; [specialize (wf_jb0 r Hr); unfold a, n; lia|]. apply Hrows in Hr. lia.
      - intros m Hm. specialize (wf_mb0 m Hm). unfold a, n. lia.
      - unfold a, n. lia. }
    assert (Hids : ro (jid <$> base.filter (fun r => jarray r = a) (jobs d2)) = seqZ a n).
    { rewrite Hro, J2, filter_app, filter_none.
      - cbn [app]. rewrite filter_all; [apply array_rows_jid|]. intros r Hr. by apply array_rows_elem in Hr as (_ & ? & _).
      - intros r Hr. destruct Hwf. specialize (wf_jb0 r Hr). unfold a. lia. }
    rewrite Hids. clear Hids.
    set (lm := (fun j => (j, walltime_of dw w)) <$> seqZ a n).
    assert (Hlm : length lm = length cmds) by (unfold lm, n; rewrite fmap_length, seqZ_length; lia).
    assert (Hlmj : forall x, x ∈ lm -> a <= fst x < a + n).
    { intros x Hx. unfold lm in Hx. apply elem_of_list_fmap in Hx as (j & -> & Hj). apply elem_of_seqZ in Hj. cbn. lia. }
    set (d3 := insert_mlds lm d2).
    assert (W3 : wf d3).
    { apply wf_insert_mlds; [done|]. intros x Hx. rewrite N2. apply Hlmj in Hx. unfold a in *. lia. }
    assert (M3 : mlds d3 = mlds d ++ new_mlds (nm d) lm).
    { unfold d3. cbn [mlds insert_mlds]. rewrite M2, NM2. done. }
    assert (Hmids : sort_by id (mid <$> base.filter (fun m => mjob m ∈ seqZ a n) (mlds d3)) = seqZ (nm d) n).
    { rewrite M3, filter_app, filter_none, filter_all; cbn [app].
      - rewrite new_mlds_mid, Hlm. apply sort_by_ascending, ascending_seqZ.
      - intros m Hm. apply new_mlds_elem in Hm as [_ Hm]. apply Hlmj in Hm. cbn in Hm. apply elem_of_seqZ. done.
      - intros m Hm Hin. apply elem_of_seqZ in Hin. destruct Hwf. specialize (wf_mb0 m Hm). unfold a in Hin. lia. }
    rewrite Hmids. clear Hmids. set (mids := seqZ (nm d) n).
    assert (Hmids : forall m, m ∈ mids <-> nm d <= m < nm d + n) by (intros m; unfold mids; rewrite elem_of_seqZ; done).
    set (lg := mids ≫= fun m => (fun g => (m, fst g)) <$> gs).
    assert (Hlg : lg = (fun x => (fst x, fst (snd x))) <$> pairs mids gs).
    { unfold lg, pairs. clear. induction mids as [|m mids IH]; [done|]. rewrite !bind_cons, fmap_app, IH. f_equal.
      rewrite <- list_fmap_compose. done. }
    assert (Hlgl : length lg = (length cmds * length gs)%nat).
    { rewrite Hlg, fmap_length. rewrite <- (fmap_length snd), pairs_snd, length_concat_replicate. unfold mids. rewrite seqZ_length. unfold n. rewrite Nat2Z.id. done. }
    assert (Hlgm : forall x, x ∈ lg -> fst x ∈ mids).
    { intros x Hx. unfold lg in Hx. apply elem_of_list_bind in Hx as (m & Hx & Hm). apply elem_of_list_fmap in Hx as (g & -> & _). done. }
    set (d4 := insert_grps lg d3).
    assert (NM3 : nm d3 = nm d + n) by (unfold d3; cbn [nm insert_mlds]; rewrite Hlm, NM2; done).
    assert (W4 : wf d4).
    { apply wf_insert_grps; [done|]. intros x Hx. rewrite NM3. apply Hlgm, Hmids in Hx. lia. }
    assert (G4 : grps d4 = grps d ++ new_grps (ng d) lg).
    { unfold d4. cbn [grps insert_grps]. change (grps d3) with (grps d2). change (ng d3) with (ng d2). rewrite G2, NG2. done. }
    assert (Hgids : sort_by id (gid <$> base.filter (fun g => gmld g ∈ mids) (grps d4)) = seqZ (ng d) (Z.of_nat (length lg))).
    { rewrite G4, filter_app, filter_none, filter_all; cbn [app].
      - rewrite new_grps_gid. apply sort_by_ascending, ascending_seqZ.
      - intros g Hg. apply new_grps_elem in Hg as [_ Hg]. by apply Hlgm in Hg.
      - intros g Hg Hin. apply Hmids in Hin. destruct Hwf. specialize (wf_gb0 g Hg). lia. }
    rewrite Hgids. clear Hgids.
    rewrite array_descs_flat by (rewrite seqZ_length, Hlgl; lia). cbn [rbind].
    set (gsf := concat (replicate (length cmds) gs)).
    assert (Hgsf : gsf = snd <$> pairs mids gs).
    { rewrite pairs_snd. unfold gsf, mids. rewrite seqZ_length. f_equal. f_equal. unfold n. lia. }
    assert (Hgsl : length gsf = length lg) by (unfold gsf; rewrite length_concat_replicate, Hlgl; done).
    destruct (add_levels_spec gsf (seqZ (ng d) (Z.of_nat (length lg))) d4) as (d5 & E5 & S5 & L5 & F5 & B5).
    { rewrite seqZ_length, Hgsl. lia. }
    { apply NoDup_seqZ. }
    { intros g Hg x Hx. apply elem_of_seqZ in Hg. change (descs d4) with (descs d2) in Hx. rewrite X2 in Hx. destruct Hwf. specialize (wf_d0 x Hx). lia. }
    rewrite add_levels_flat in E5 by (rewrite seqZ_length, Hgsl; lia). injection E5 as E5.
    assert (NG4 : ng d4 = ng d + Z.of_nat (length lg)) by (unfold d4; cbn [ng insert_grps]; change (ng d3) with (ng d2); rewrite NG2; done).
    assert (W5 : wf d5).
    { eapply wf_same_but_descs; [exact W4|done|]. intros x Hx. destruct (B5 x Hx) as [Hx'|Hx'].
      - destruct W4. by apply wf_d0.
      - apply elem_of_seqZ in Hx'. rewrite NG4. lia. }
    (* what the states from d5 on say *)
    assert (old5 : forall m, m < nm d -> groups_of d5 m = groups_of d m).
    { intros m Hm. rewrite !groups_of_filter; [|apply Hwf|apply W5]. destruct S5 as (_ & _ & -> & _). rewrite G4, filter_app.
      rewrite (filter_none _ (new_grps (ng d) lg)), app_nil_r.
      - apply list_fmap_ext. intros i g Hg. f_equal. rewrite F5.
        + unfold levels_of. change (descs d4) with (descs d2). rewrite X2. done.
        + rewrite elem_of_seqZ. apply elem_of_list_lookup_2, elem_of_list_filter in Hg as [_ Hg]. destruct Hwf. specialize (wf_gb0 g Hg). lia.
      - intros g Hg. apply new_grps_elem in Hg as [_ Hg]. apply Hlgm, Hmids in Hg. cbn in Hg. lia. }
    assert (new5 : forall m, m ∈ mids -> groups_of d5 m = gs).
    { intros m Hm. rewrite groups_of_filter by apply W5. destruct S5 as (_ & _ & -> & _). rewrite G4, filter_app.
      rewrite (filter_none _ (grps d)); cbn [app].
      - rewrite Hlg, new_grps_view.
        + rewrite pairs_filter; [|apply NoDup_seqZ|done]. rewrite <- list_fmap_compose. apply list_fmap_id.
        + replace (length (pairs mids gs)) with (length lg) by (rewrite Hlg; by rewrite fmap_length). rewrite Hgsf in L5. exact L5.
      - intros g Hg He. apply Hmids in Hm. destruct Hwf. specialize (wf_gb0 g Hg). lia. }
    assert (F3 : forall (d' : db) j, mlds d' = mlds d3 -> wf d' -> (forall m, m < nm d -> groups_of d' m = groups_of d m) -> j < a -> moldables_of d' j = moldables_of d j).
    { intros d' j Hm' W' Ho Hj. rewrite !moldables_of_filter; [|apply Hwf|apply W']. rewrite Hm', M3, filter_app.
      rewrite (filter_none _ (new_mlds (nm d) lm)), app_nil_r.
      - apply list_fmap_ext. intros i m Hm. f_equal. apply Ho. apply elem_of_list_lookup_2, elem_of_list_filter in Hm as [_ Hm].
        destruct Hwf. specialize (wf_mb0 m Hm). lia.
      - intros m Hm. apply new_mlds_elem in Hm as [_ Hm]. apply Hlmj in Hm. cbn in Hm. lia. }
    assert (Hadd : forall st d', jobs d' = jobs d ++ array_rows p st a cmds -> mlds d' = mlds d5 -> grps d' = grps d5 -> descs d' = descs d5 ->
              array_added p st gs w cmds d d').
    { intros st d' Hj' Hm' Hg' Hx'.
      assert (Hv : forall j, moldables_of d' j = moldables_of d5 j) by (intros j; unfold moldables_of, groups_of, levels_of; rewrite Hm', Hg', Hx'; done).
      assert (M5 : mlds d5 = mlds d3) by (destruct S5 as (_ & -> & _); done).
      split; [done|]. split; [|split].
      - intros j Hj. fold a n in Hj |- *. rewrite Hv, moldables_of_filter by apply W5. rewrite M5, M3, filter_app.
        rewrite (filter_none _ (mlds d)); cbn [app].
        + assert (Hfil : base.filter (fun m => mjob m = j) (new_mlds (nm d) lm) = [mkMld (nm d + (j - a)) j (walltime_of dw w)]).
          { unfold lm, n. rewrite new_mlds_one. fold n. destruct ((a <=? j) && (j <? a + n)) eqn:E; [done|lia]. }
          rewrite Hfil. cbn [fmap list_fmap mid mwall]. f_equal. f_equal. apply new5. apply Hmids. lia.
        + intros m Hm He. destruct Hwf. specialize (wf_mb0 m Hm). unfold a in Hj. lia.
      - intros j Hj. rewrite Hv. apply F3; [done|done|done|done].
      - rewrite Hm', M5, M3. done. }
    (* the states before *)
    assert (old_early : forall d', grps d' = grps d -> descs d' = descs d -> forall m, groups_of d' m = groups_of d m)
      by (intros d' Hg' Hx' m; unfold groups_of, levels_of; rewrite Hg', Hx'; done).
    assert (old4 : forall m, m < nm d -> groups_of d4 m = groups_of d m).
    { intros m Hm. rewrite !groups_of_filter; [|apply Hwf|apply W4]. rewrite G4, filter_app.
      rewrite (filter_none _ (new_grps (ng d) lg)), app_nil_r.
      - apply list_fmap_ext. intros i g Hg. f_equal. unfold levels_of. change (descs d4) with (descs d2). rewrite X2. done.
      - intros g Hg. apply new_grps_elem in Hg as [_ Hg]. apply Hlgm, Hmids in Hg. cbn in Hg. lia. }
    rewrite E5. set (d6 := insert_types _ d5). set (d7 := insert_deps _ d6).
    set (d8 := if p_hold p then d7 else set_state (fun r => jarray r =? a) "Waiting" d7).
    set (d9 := insert_logs _ d8).
    assert (W6 : wf d6) by by apply wf_insert_types. assert (W7 : wf d7) by by apply wf_insert_deps.
    assert (J5 : jobs d5 = jobs d ++ array_rows p "Hold" a cmds) by (destruct S5 as (-> & _); exact J2).
    assert (A7 : array_added p "Hold" gs w cmds d d7) by (apply Hadd; try done).
    assert (Hwait : (fun r => if jarray r =? a then mkJob (jid r) "Waiting" (jarray r) (jindex r) (jcmd r) (jprops r) (jresv r) else r)
                      <$> (jobs d ++ array_rows p "Hold" a cmds) = jobs d ++ array_rows p "Waiting" a cmds).
    { rewrite fmap_app. f_equal.
      - transitivity ((fun r : jobrow => r) <$> jobs d); [|apply list_fmap_id]. apply list_fmap_ext. intros i r Hr.
        apply elem_of_list_lookup_2 in Hr. destruct Hwf. specialize (wf_jb0 r Hr). destruct (jarray r =? a) eqn:E; [unfold a in E; lia|done].
      - unfold array_rows. clear. generalize 0 as k. induction cmds as [|c l IH]; intros k; [done|]. rewrite !zip_seq_cons, fmap_cons.
        cbn [jarray]. rewrite Z.eqb_refl. f_equal. apply IH. }
    assert (W8 : wf d8) by (unfold d8; destruct (p_hold p); [done|by apply wf_set_state]).
    assert (A8 : array_added p (if p_hold p then "Hold" else "Waiting")%string gs w cmds d d8).
    { unfold d8. destruct (p_hold p); [done|]. apply Hadd; try done. cbn [jobs set_state set_jobs].
      change (jobs d7) with (jobs d5). rewrite J5. exact Hwait. }
    assert (W9 : wf d9) by by apply wf_insert_logs.
    assert (A9 : array_added p (if p_hold p then "Hold" else "Waiting")%string gs w cmds d d9) by exact A8.
    assert (Hfin : forall d', array_added p (if p_hold p then "Hold" else "Waiting")%string gs w cmds d d' ->
              array_added p "Hold" gs w cmds d d' \/ array_added p "Waiting" gs w cmds d d') by (intros d' H'; destruct (p_hold p); auto).
    eexists. split; [reflexivity|]. split; [done|]. split.
    - exists d9. split; [|done]. rewrite !app_assoc, last_app. done.
    - assert (Htake : forall k, (1 <= k <= length cmds)%nat -> k = length cmds -> array_rows p "Hold" a cmds = take k (array_rows p "Hold" a cmds)).
      { intros k _ ->. symmetry. apply take_ge. unfold array_rows. rewrite zip_with_length, seqZ_length. lia. }
      assert (Hlc : (1 <= length cmds)%nat) by (unfold cmds; cbn; lia).
      assert (Hearly : forall d', wf d' -> jobs d' = jobs d2 -> (forall j, j < nj d -> moldables_of d' j = moldables_of d j) ->
        (mlds d' = mlds d \/ mlds d' = mlds d3) ->
        wf d' /\ (array_added p "Hold" gs w cmds d d' \/ array_added p "Waiting" gs w cmds d d' \/
          (exists n, (1 <= n <= length cmds)%nat /\ jobs d' = jobs d ++ take n (array_rows p "Hold" (nj d) cmds) /\
             (forall j, j < nj d -> moldables_of d' j = moldables_of d j) /\
             (mlds d' = mlds d \/ (n = length cmds /\
                mlds d' = mlds d ++ new_mlds (nm d) ((fun j => (j, walltime_of dw w)) <$> seqZ (nj d) (Z.of_nat (length cmds)))))))).
      { intros d' W' J' M' Q'. split; [done|]. right. right. exists (length cmds). split; [lia|]. split; [|split; [done|]].
        - rewrite J', J2. f_equal. apply Htake; [lia|done].
        - destruct Q' as [Q'|Q']; [by left|]. right. split; [done|]. rewrite Q', M3. done. }
      intros d' Hd'. rewrite !elem_of_app in Hd'. destruct Hd' as [Hd'|[Hd'|[Hd'|[Hd'|Hd']]]].
      + apply elem_of_cons in Hd' as [->|Hd'].
        { split; [done|]. right. right. exists 1%nat. split; [lia|]. split.
          - rewrite J1. f_equal. unfold cmds. fold a. rewrite array_rows_cons. done.
          - split; [intros j Hj; done|]. left. done. }
        apply elem_of_cons in Hd' as [->|Hd'].
        { apply Hearly; [done|done| |by left]. intros j Hj. unfold moldables_of, groups_of, levels_of. rewrite M2, G2, X2. done. }
        apply elem_of_cons in Hd' as [->|Hd'].
        { apply Hearly; [done|done| |by right]. intros j Hj. apply F3; [done|done| |done]. intros m _. apply old_early; [exact G2|exact X2]. }
        apply elem_of_cons in Hd' as [->|Hd'].
        { apply Hearly; [done|done| |by right]. intros j Hj. apply F3; [done|done|done|done]. }
        apply elem_of_list_singleton in Hd' as ->. split; [done|]. left. apply Hadd; done.
      + unfold commit_if in Hd'. destruct (negb _); [|by apply elem_of_nil in Hd']. apply elem_of_list_singleton in Hd' as ->.
        split; [done|]. left. apply Hadd; done.
      + unfold commit_if in Hd'. destruct (negb _); [|by apply elem_of_nil in Hd']. apply elem_of_list_singleton in Hd' as ->.
        split; [done|]. left. done.
      + unfold commit_if in Hd'. destruct (negb _); [|by apply elem_of_nil in Hd']. apply elem_of_list_singleton in Hd' as ->.
        split; [done|]. destruct (Hfin _ A8); auto.
      + apply elem_of_list_singleton in Hd' as ->. split; [done|]. destruct (Hfin _ A9); auto.
  Qed.
End in_order3.
