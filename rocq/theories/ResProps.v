(** The numbering of resources: properties C96 to C99. *)
From Verif Require Import Base SlotModel LoadModel HierarchyModel HierarchySpec HierarchyProofs HierarchyProps ResModel.

(** ** Arrays *)
Lemma fill_i2o_spec rows : forall k a i,
  NoDup (rr_id <$> rows) ->
  (forall n r, rows !! n = Some r -> usable r = true -> rr_id r = i -> fill_i2o rows k a i = k + Z.of_nat n) /\
  ((forall r, r ∈ rows -> usable r = true -> rr_id r <> i) -> fill_i2o rows k a i = a i).
Proof.
  induction rows as [|r rows IH]; intros k a i Hnd; cbn [fill_i2o].
  - split; [intros n r H; by rewrite lookup_nil in H|done].
  - rewrite fmap_cons in Hnd. apply NoDup_cons in Hnd as [Hr Hnd]. destruct (IH (k + 1) (if usable r then fun i => if i =? rr_id r then k else a i else a) i Hnd) as [H1 H2].
    split.
    + intros n r' Hn Hu Hi. destruct n as [|n]; cbn in Hn.
      * injection Hn as <-. rewrite H2.
        -- rewrite Hu, <- Hi, Z.eqb_refl. lia.
        -- intros r' Hr' _ He. apply Hr. rewrite Hi, <- He. apply elem_of_list_fmap. eauto.
      * rewrite (H1 n r' Hn Hu Hi). lia.
    + intros Hno. rewrite H2 by (intros r' Hr'; apply Hno; by right).
      destruct (usable r) eqn:E; [|done]. destruct (i =? rr_id r) eqn:Ei; [|done].
      exfalso. apply (Hno r ltac:(left) E). lia.
Qed.
Lemma i2o_usable rows n r : NoDup (rr_id <$> rows) -> rows !! n = Some r -> usable r = true ->
  i2o rows (rr_id r) = Z.of_nat n.
Proof. intros Hnd Hn Hu. unfold i2o. destruct (fill_i2o_spec rows 0 (fun _ => 0) (rr_id r) Hnd) as [H1 _]. rewrite (H1 n r Hn Hu eq_refl). lia. Qed.
Lemma i2o_other rows n r : NoDup (rr_id <$> rows) -> rows !! n = Some r -> usable r = false ->
  i2o rows (rr_id r) = 0.
Proof.
  intros Hnd Hn Hu. unfold i2o. destruct (fill_i2o_spec rows 0 (fun _ => 0) (rr_id r) Hnd) as [_ H2]. apply H2.
  intros r' Hr' Hu' He. apply elem_of_list_lookup in Hr' as [n' Hn'].
  assert (n = n').
  { eapply (NoDup_lookup (rr_id <$> rows)); [done| |]; rewrite list_lookup_fmap; [rewrite Hn|rewrite Hn']; cbn; [done|by rewrite He]. }
  subst n'. congruence.
Qed.
Lemma fill_o2i_spec rows : forall k a i,
  (forall n r, rows !! n = Some r -> usable r = true -> i = k + Z.of_nat n -> fill_o2i rows k a i = rr_id r) /\
  ((forall n r, rows !! n = Some r -> usable r = true -> i <> k + Z.of_nat n) -> fill_o2i rows k a i = a i).
Proof.
  induction rows as [|r rows IH]; intros k a i; cbn [fill_o2i].
  - split; [intros n r H; by rewrite lookup_nil in H|done].
  - destruct (IH (k + 1) (if usable r then fun i => if i =? k then rr_id r else a i else a) i) as [H1 H2]. split.
    + intros n r' Hn Hu Hi. destruct n as [|n]; cbn in Hn.
      * injection Hn as <-. rewrite H2 by (intros; lia). rewrite Hu. destruct (i =? k) eqn:E; [done|lia].
      * apply (H1 n); [done|done|lia].
    + intros Hno. rewrite H2.
      * destruct (usable r) eqn:E; [|done]. destruct (i =? k) eqn:Ei; [|done].
        exfalso. apply (Hno 0%nat r); [done|done|lia].
      * intros n r' Hn Hu. specialize (Hno (S n) r' Hn Hu). lia.
Qed.
Lemma o2i_usable rows n r : rows !! n = Some r -> usable r = true -> o2i rows (Z.of_nat n) = rr_id r.
Proof. intros Hn Hu. unfold o2i. destruct (fill_o2i_spec rows 0 (fun _ => 0) (Z.of_nat n)) as [H1 _]. apply (H1 n); [done|done|lia]. Qed.
Lemma elem_of_ranks f rows : forall k i, i ∈ ranks f rows k <-> exists n r, rows !! n = Some r /\ f r = true /\ i = k + Z.of_nat n.
Proof.
  induction rows as [|r rows IH]; intros k i; cbn [ranks].
  - rewrite elem_of_nil. split; [done|]. intros (n & r & H & _). by rewrite lookup_nil in H.
  - rewrite elem_of_app, IH. split.
    + intros [H|(n & r' & Hn & Hf & ->)].
      * destruct (f r) eqn:E; [|by apply elem_of_nil in H]. apply elem_of_list_singleton in H. subst.
        exists 0%nat, r. split; [done|]. split; [done|lia].
      * exists (S n), r'. split; [done|]. split; [done|lia].
    + intros (n & r' & Hn & Hf & ->). destruct n as [|n]; cbn in Hn.
      * injection Hn as <-. left. rewrite Hf. apply elem_of_list_singleton. lia.
      * right. exists n, r'. split; [done|]. split; [done|lia].
Qed.
Lemma elem_of_roids rows i : i ∈ roid_itvs rows <-> exists n r, rows !! n = Some r /\ usable r = true /\ i = Z.of_nat n.
Proof.
  unfold roid_itvs. rewrite elem_of_list_to_set, elem_of_ranks.
  split; intros (n & r & H1 & H2 & H3); exists n, r; (split; [done|]); (split; [done|lia]).
Qed.

(** ** C96: numbering resources and back *)
(** Every usable resource has its own rank, and both translations are inverse of each other on them. *)
Theorem C96_numbering : forall rows n r, NoDup (rr_id <$> rows) -> rows !! n = Some r -> usable r = true ->
  i2o rows (rr_id r) = Z.of_nat n /\ o2i rows (Z.of_nat n) = rr_id r /\ Z.of_nat n ∈ roid_itvs rows.
Proof.
  intros rows n r Hnd Hn Hu. split; [by eapply i2o_usable|]. split; [by eapply o2i_usable|].
  apply elem_of_roids. eauto.
Qed.
(** An allocation is recorded on the resources meant: translating a set of ranks of usable resources gives the
    identifiers of exactly these resources, without repetition. *)
Theorem C96_recorded : forall rows (x : procset), NoDup (rr_id <$> rows) -> x ⊆ roid_itvs rows ->
  NoDup (o2i rows <$> elements x) /\
  (forall i, i ∈ (o2i rows <$> elements x) <-> exists n r, rows !! n = Some r /\ Z.of_nat n ∈ x /\ rr_id r = i).
Proof.
  intros rows x Hnd Hx. split.
  - assert (H : forall l : list Z, NoDup l -> (forall k, k ∈ l -> k ∈ x) -> NoDup (o2i rows <$> l)).
    { induction 1 as [|k l Hk Hl IH]; intros Hsub; [constructor|]. rewrite fmap_cons. constructor.
      - intros He. apply elem_of_list_fmap in He as (k' & He & Hk').
        assert (A : k ∈ roid_itvs rows) by (apply Hx, Hsub; left).
        assert (B : k' ∈ roid_itvs rows) by (apply Hx, Hsub; by right).
        apply elem_of_roids in A as (n & r & A1 & A2 & ->). apply elem_of_roids in B as (n' & r' & B1 & B2 & ->).
        rewrite (o2i_usable _ _ _ A1 A2), (o2i_usable _ _ _ B1 B2) in He.
        assert (n = n'); [|subst; done].
        eapply (NoDup_lookup (rr_id <$> rows)); [done| |]; rewrite list_lookup_fmap; [rewrite A1|rewrite B1]; cbn; [done|by rewrite He].
      - apply IH. intros k' Hk'. apply Hsub. by right. }
    apply H; [apply NoDup_elements|]. intros k. apply elem_of_elements.
  - intros i. rewrite elem_of_list_fmap. split.
    + intros (k & -> & Hk). apply elem_of_elements in Hk. pose proof (Hx k Hk) as A.
      apply elem_of_roids in A as (n & r & A1 & A2 & ->). exists n, r. split; [done|]. split; [done|].
      symmetry. by apply o2i_usable.
    + intros (n & r & Hn & Hin & <-). exists (Z.of_nat n). split; [|by apply elem_of_elements].
      symmetry. apply o2i_usable; [done|]. pose proof (Hx _ Hin) as A.
      apply elem_of_roids in A as (n' & r' & A1 & A2 & A3). assert (n = n') by lia. subst n'. congruence.
Qed.
(** The construction reads inside the arrays when identifiers are below 100000. *)
Theorem C96_bounds : forall rows, build_ok rows = true -> forall n r, rows !! n = Some r -> usable r = true ->
  at_ (i2o rows) (rr_id r) = Ok (i2o rows (rr_id r)) /\ at_ (o2i rows) (Z.of_nat n) = Ok (o2i rows (Z.of_nat n)).
Proof.
  intros rows H n r Hn Hu. apply andb_true_iff in H as [H1 H2]. rewrite forallb_forall in H1.
  assert (Hr : r ∈ rows) by by eapply elem_of_list_lookup_2. apply elem_of_list_In in Hr. specialize (H1 r Hr).
  rewrite Hu in H1. cbn in H1. apply lookup_lt_Some in Hn. unfold at_.
  destruct (rr_id r <? max_nb) eqn:E1; [|done]. destruct (Z.of_nat n <? max_nb) eqn:E2; [done|lia].
Qed.

(** ** C97: the condition of a request *)
(** What the condition contributes to a search: the ranks of the usable resources selected, and rank 0 as soon
    as a selected resource is not usable (Dead, Suspected). *)
Theorem C97_condition_exact : forall rows sel, NoDup (rr_id <$> rows) -> forall i,
  i ∈ sql_itvs rows sel <->
  (exists n r, rows !! n = Some r /\ usable r = true /\ sel r = true /\ i = Z.of_nat n) \/
  (i = 0 /\ exists r, r ∈ rows /\ usable r = false /\ sel r = true).
Proof.
  intros rows sel Hnd i. unfold sql_itvs. rewrite elem_of_list_to_set, elem_of_list_fmap. split.
  - intros (id & -> & Hid). apply elem_of_list_fmap in Hid as (r & -> & Hr).
    apply elem_of_list_filter in Hr as [Hs Hr]. destruct (usable r) eqn:Hu.
    + left. apply elem_of_list_lookup in Hr as [n Hn]. exists n, r. split; [done|]. split; [done|]. split; [done|].
      by apply i2o_usable.
    + right. pose proof Hr as Hr'. apply elem_of_list_lookup in Hr as [n Hn]. split; [by eapply i2o_other|]. eauto.
  - intros [(n & r & Hn & Hu & Hs & ->)|(-> & r & Hr & Hu & Hs)].
    + exists (rr_id r). split; [symmetry; by apply i2o_usable|]. apply elem_of_list_fmap. exists r. split; [done|].
      apply elem_of_list_filter. split; [done|]. by eapply elem_of_list_lookup_2.
    + exists (rr_id r). pose proof Hr as Hr'. apply elem_of_list_lookup in Hr as [n Hn].
      split; [symmetry; by eapply i2o_other|]. apply elem_of_list_fmap. exists r. split; [done|].
      by apply elem_of_list_filter.
Qed.
(** A request with a condition receives resources that satisfy it, provided every resource that satisfies it is
    Alive or Absent. *)
Theorem C97_condition_partial : forall rows sel free ls x, NoDup (rr_id <$> rows) ->
  (forall r, r ∈ rows -> sel r = true -> usable r = true) -> free ⊆ roid_itvs rows ->
  find_scattered (sql_itvs rows sel ∩ free) ls = Ok x ->
  forall i, i ∈ x -> exists n r, i = Z.of_nat n /\ rows !! n = Some r /\ usable r = true /\ sel r = true.
Proof.
  intros rows sel free ls x Hnd Hall Hfree H i Hi. apply C13_only_free in H. apply H in Hi.
  apply elem_of_intersection in Hi as [Hi _]. apply C97_condition_exact in Hi; [|done].
  destruct Hi as [(n & r & H1 & H2 & H3 & ->)|(_ & r & H1 & H2 & H3)]; [eauto 10|].
  specialize (Hall r H1 H3). congruence.
Qed.
(** Otherwise not: with a Suspected resource that satisfies the condition, the job is given the first resource of
    the platform, which does not satisfy it. *)
Definition ex_row (id : Z) (st : string) (net : string) : rrow :=
  mkRrow id st "default" 2147483647 (fun l => if bool_decide (l = "network_address"%string) then net else net).
Definition ex_rows : list rrow := [ex_row 1 "Alive" "n1"; ex_row 2 "Suspected" "gpu2"; ex_row 3 "Alive" "n3"].
Theorem C97_condition_refuted : exists rows sel x,
  NoDup (rr_id <$> rows) /\
  find_scattered (sql_itvs rows sel ∩ roid_itvs rows) [(level_of "network_address" rows, 1)] = Ok x /\
  0 ∈ x /\ exists r, rows !! 0%nat = Some r /\ sel r = false.
Proof.
  exists ex_rows, (fun r => bool_decide (rr_attr r "network_address" = "gpu2"%string)).
  exists (from_ok ∅ (find_scattered (sql_itvs ex_rows (fun r => bool_decide (rr_attr r "network_address" = "gpu2"%string)) ∩ roid_itvs ex_rows) [(level_of "network_address" ex_rows, 1)])).
  split; [by_dec|]. split; [apply from_ok_eq; vm_compute; reflexivity|].
  split; [by_dec|]. eexists. split; reflexivity.
Qed.

(** ** C98: the place of a running job in the schedule *)
(** A job that runs on resources no longer usable occupies rank 0 in the schedule. *)
Theorem C98_loaded_ranks : forall rows (rids : list Z), NoDup (rr_id <$> rows) ->
  (forall i, i ∈ rids -> i ∈ (rr_id <$> rows)) ->
  forall k, k ∈ (list_to_set (i2o rows <$> rids) : procset) <->
    (exists n r, rows !! n = Some r /\ usable r = true /\ rr_id r ∈ rids /\ k = Z.of_nat n) \/
    (k = 0 /\ exists r, r ∈ rows /\ usable r = false /\ rr_id r ∈ rids).
Proof.
  intros rows rids Hnd Hall k. rewrite elem_of_list_to_set, elem_of_list_fmap. split.
  - intros (id & -> & Hid). pose proof (Hall id Hid) as Hr. apply elem_of_list_fmap in Hr as (r & -> & Hr).
    destruct (usable r) eqn:Hu.
    + left. apply elem_of_list_lookup in Hr as [n Hn]. exists n, r. split; [done|]. split; [done|]. split; [done|].
      by apply i2o_usable.
    + right. pose proof Hr as Hr'. apply elem_of_list_lookup in Hr as [n Hn]. split; [by eapply i2o_other|]. eauto.
  - intros [(n & r & Hn & Hu & Hs & ->)|(-> & r & Hr & Hu & Hs)].
    + exists (rr_id r). split; [symmetry; by apply i2o_usable|done].
    + exists (rr_id r). apply elem_of_list_lookup in Hr as [n Hn]. split; [symmetry; by eapply i2o_other|done].
Qed.
Theorem C98_first_resource_refuted : exists rows rids,
  NoDup (rr_id <$> rows) /\ (forall i, i ∈ rids -> i ∈ (rr_id <$> rows)) /\
  0 ∈ (list_to_set (i2o rows <$> rids) : procset) /\
  (forall r, rows !! 0%nat = Some r -> usable r = true /\ rr_id r ∉ rids).
Proof.
  exists ex_rows, [2]. split; [by_dec|]. split.
  - intros i ->%elem_of_list_singleton. by_dec.
  - split; [by_dec|]. intros r [= <-]. split; [reflexivity|]. by_dec.
Qed.
(** When all its resources are usable, a job occupies exactly their ranks. *)
Theorem C98_usable_partial : forall rows (rids : list Z), NoDup (rr_id <$> rows) ->
  (forall i, i ∈ rids -> exists r, r ∈ rows /\ rr_id r = i /\ usable r = true) ->
  forall k, k ∈ (list_to_set (i2o rows <$> rids) : procset) <->
    exists n r, rows !! n = Some r /\ rr_id r ∈ rids /\ k = Z.of_nat n.
Proof.
  intros rows rids Hnd Hall k. rewrite C98_loaded_ranks; [|done|].
  - split.
    + intros [(n & r & H1 & _ & H2 & H3)|(_ & r & Hr & Hu & Hs)]; [eauto|].
      exfalso. destruct (Hall _ Hs) as (r' & Hr' & He & Hu').
      assert (r = r'); [|congruence].
      apply elem_of_list_lookup in Hr as [n Hn]. apply elem_of_list_lookup in Hr' as [n' Hn'].
      assert (n = n') by (eapply (NoDup_lookup (rr_id <$> rows)); [done| |]; rewrite list_lookup_fmap; [rewrite Hn|rewrite Hn'; cbn; rewrite He]; done).
      subst. congruence.
    + intros (n & r & H1 & H2 & ->). left. exists n, r. split; [done|]. split; [|done].
      destruct (Hall _ H2) as (r' & Hr' & He & Hu'). apply elem_of_list_lookup in Hr' as [n' Hn'].
      assert (n = n') by (eapply (NoDup_lookup (rr_id <$> rows)); [done| |]; rewrite list_lookup_fmap; [rewrite H1|rewrite Hn'; cbn; rewrite He]; done).
      subst. congruence.
  - intros i Hi. destruct (Hall i Hi) as (r & Hr & <- & _). apply elem_of_list_fmap. eauto.
Qed.

(** ** C99: the levels of the hierarchy *)
Definition glist := list (string * list Z).
Definition ginv (label : string) (rows : list rrow) (upto : Z) (l : glist) : Prop :=
  NoDup (l.*1) /\ (forall v ids, (v, ids) ∈ l -> ids <> []) /\
  (forall k, 0 <= k < upto -> forall v, (exists ids, (v, ids) ∈ l /\ k ∈ ids) <->
     exists r, rows !! Z.to_nat k = Some r /\ usable r = true /\ rr_attr r label = v) /\
  (forall v ids k, (v, ids) ∈ l -> k ∈ ids -> 0 <= k < upto).

Lemma add_group_fst v k (l : glist) : (add_group v k l).*1 = if bool_decide (v ∈ l.*1) then l.*1 else l.*1 ++ [v].
Proof.
  induction l as [|[w ids] l IH]; [done|]. cbn [add_group].
  change ((w, ids) :: l).*1 with (w :: l.*1) || idtac.
  destruct (bool_decide (w = v)) eqn:E.
  - apply bool_decide_eq_true in E as ->. rewrite bool_decide_true; [done|]. cbn. left.
  - apply bool_decide_eq_false in E. cbn [fmap list_fmap fst]. rewrite IH.
    destruct (bool_decide (v ∈ l.*1)) eqn:E1; [apply bool_decide_eq_true in E1|apply bool_decide_eq_false in E1].
    + rewrite bool_decide_true; [done|]. by right.
    + rewrite bool_decide_false; [done|]. intros [->|?]%elem_of_cons; done.
Qed.
Lemma elem_of_add_group v k (l : glist) w ids : NoDup (l.*1) ->
  (w, ids) ∈ add_group v k l <->
  (w <> v /\ (w, ids) ∈ l) \/ (w = v /\ exists old, ids = old ++ [k] /\ ((v, old) ∈ l \/ (old = [] /\ v ∉ l.*1))).
Proof.
  induction l as [|[u us] l IH]; intros Hnd; cbn [add_group].
  - rewrite elem_of_list_singleton. split.
    + intros [= -> ->]. right. split; [done|]. exists []. split; [done|]. right. split; [done|]. apply not_elem_of_nil.
    + intros [[_ H]|(-> & old & -> & [H|[-> _]])]; [by apply elem_of_nil in H|by apply elem_of_nil in H|done].
  - rewrite fmap_cons in Hnd. apply NoDup_cons in Hnd as [Hu Hnd]. cbn [fst] in Hu.
    assert (Hfst : forall x, (u, x) ∉ l) by (intros x Hx; apply Hu, elem_of_list_fmap; eexists (u, x); done).
    destruct (bool_decide (u = v)) eqn:E.
    + apply bool_decide_eq_true in E as ->. rewrite elem_of_cons. split.
      * intros [[= -> ->]|H].
        -- right. split; [done|]. exists us. split; [done|]. left. left.
        -- left. split; [|by right]. intros ->. by apply (Hfst ids).
      * intros [[Hne H]|(-> & old & -> & [H|[-> H]])].
        -- right. apply elem_of_cons in H as [[= -> ->]|H]; done.
        -- left. apply elem_of_cons in H as [[= ->]|H]; [done|]. by apply Hfst in H.
        -- exfalso. apply H. rewrite fmap_cons. left.
    + apply bool_decide_eq_false in E. rewrite !elem_of_cons, IH by done. rewrite fmap_cons. cbn [fst]. split.
      * intros [[= -> ->]|[[Hne H]|(-> & old & -> & [H|[-> H]])]].
        -- left. split; [done|by left].
        -- left. split; [done|by right].
        -- right. split; [done|]. exists old. split; [done|]. left. by right.
        -- right. split; [done|]. exists []. split; [done|]. right. split; [done|].
           intros [->|?]%elem_of_cons; done.
      * intros [[Hne [[= -> ->]|H]]|(-> & old & -> & [H|[-> H]])].
        -- by left.
        -- right. left. done.
        -- right. right. split; [done|]. exists old. split; [done|]. left.
           apply elem_of_cons in H as [[= -> ->]|H]; done.
        -- right. right. split; [done|]. exists []. split; [done|]. right. split; [done|].
           intros ?. apply H. by right.
Qed.
Lemma group_loop_inv label all rows : forall k l,
  (forall n, rows !! n = all !! (Z.to_nat k + n)%nat) -> 0 <= k ->
  ginv label all k l -> ginv label all (k + Z.of_nat (length rows)) (group_loop label rows k l).
Proof.
  induction rows as [|r rows IH]; intros k l Hrows Hk Hinv; cbn [group_loop length].
  - replace (k + Z.of_nat 0) with k by lia. done.
  - replace (k + Z.of_nat (S (length rows))) with (k + 1 + Z.of_nat (length rows)) by lia.
    assert (Hr : all !! Z.to_nat k = Some r) by (specialize (Hrows 0%nat); rewrite Nat.add_0_r in Hrows; done).
    apply IH; [|lia|].
    + intros n. specialize (Hrows (S n)). change ((r :: rows) !! S n) with (rows !! n) in Hrows. rewrite Hrows. f_equal. lia.
    + destruct Hinv as (I1 & I2 & I3 & I4). destruct (usable r) eqn:Hu.
      * set (v0 := rr_attr r label).
        assert (M : forall w k', (exists ids, (w, ids) ∈ add_group v0 k l /\ k' ∈ ids) <->
                    (exists ids, (w, ids) ∈ l /\ k' ∈ ids) \/ (w = v0 /\ k' = k)).
        { intros w k'. split.
          - intros (ids & H & Hin). apply elem_of_add_group in H; [|done].
            destruct H as [[Hne H]|(-> & old & -> & H)]; [left; eauto|].
            apply elem_of_app in Hin as [Hin|Hin]; [|apply elem_of_list_singleton in Hin as ->; by right].
            destruct H as [H|[-> _]]; [left; eauto|by apply elem_of_nil in Hin].
          - intros [(ids & H & Hin)|[-> ->]].
            + destruct (decide (w = v0)) as [->|Hne].
              * exists (ids ++ [k]). split; [|apply elem_of_app; by left]. apply elem_of_add_group; [done|]. right.
                split; [done|]. exists ids. split; [done|]. by left.
              * exists ids. split; [|done]. apply elem_of_add_group; [done|]. by left.
            + destruct (decide (v0 ∈ l.*1)) as [He|He].
              * apply elem_of_list_fmap in He as ([w ids] & Heq & H). cbn in Heq. subst w.
                exists (ids ++ [k]). split; [|apply elem_of_app; right; left]. apply elem_of_add_group; [done|]. right.
                split; [done|]. exists ids. split; [done|]. by left.
              * exists [k]. split; [|left]. apply elem_of_add_group; [done|]. right. split; [done|].
                exists []. split; [done|]. right. done. }
        split; [|split; [|split]].
        -- rewrite add_group_fst. destruct (bool_decide (v0 ∈ l.*1)) eqn:E; [done|]. apply bool_decide_eq_false in E.
           apply NoDup_app. split; [done|]. split; [|apply NoDup_singleton].
           intros x Hx ->%elem_of_list_singleton. done.
        -- intros v ids H. apply elem_of_add_group in H; [|done].
           destruct H as [[_ H]|(_ & old & -> & _)]; [by eapply I2|]. by destruct old.
        -- intros k' Hk' v. rewrite M. destruct (decide (k' = k)) as [->|Hne].
           ++ split.
              ** intros [(ids & H & Hin)|[-> _]]; [specialize (I4 _ _ _ H Hin); lia|]. exists r. done.
              ** intros (r' & Hr' & _ & <-). right. rewrite Hr in Hr'. injection Hr' as <-. done.
           ++ rewrite <- (I3 k') by lia. split; [|by left]. intros [H|[_ H]]; done.
        -- intros v ids k' H Hin. assert (Hm : exists ids, (v, ids) ∈ add_group v0 k l /\ k' ∈ ids) by eauto.
           apply M in Hm as [(ids' & H' & Hin')|[_ ->]]; [specialize (I4 _ _ _ H' Hin'); lia|lia].
      * split; [done|]. split; [done|]. split.
        -- intros k' Hk' v. destruct (decide (k' = k)) as [->|Hne]; [|apply I3; lia]. split.
           ++ intros (ids & H & Hin). specialize (I4 _ _ _ H Hin). lia.
           ++ intros (r' & Hr' & Hu' & _). congruence.
        -- intros v ids k' H Hin. specialize (I4 _ _ _ H Hin). lia.
Qed.
Lemma group_loop_ginv label rows : ginv label rows (Z.of_nat (length rows)) (group_loop label rows 0 []).
Proof.
  apply (group_loop_inv label rows rows 0 []); [done|lia|]. split; [constructor|]. split.
  - intros v ids H. by apply elem_of_nil in H.
  - split; [intros k Hk; lia|]. intros v ids k H. by apply elem_of_nil in H.
Qed.
(** The blocks of a level share out the usable resources: none is empty, no two overlap, together they are all
    the usable resources, and two resources are in one block exactly when they have the same value. *)
Theorem C99_level : forall label rows,
  Forall (fun b : procset => b <> ∅) (level_of label rows) /\
  disjoint_blocks (level_of label rows) /\
  ⋃ (level_of label rows) = roid_itvs rows /\
  (forall n m r s, rows !! n = Some r -> rows !! m = Some s -> usable r = true -> usable s = true ->
     ((exists b, b ∈ level_of label rows /\ Z.of_nat n ∈ b /\ Z.of_nat m ∈ b) <-> rr_attr r label = rr_attr s label)).
Proof.
  intros label rows. destruct (group_loop_ginv label rows) as (I1 & I2 & I3 & I4). unfold level_of.
  set (l := group_loop label rows 0 []) in *.
  assert (Z0 : forall n r, rows !! n = Some r -> 0 <= Z.of_nat n < Z.of_nat (length rows)).
  { intros n r Hn. apply lookup_lt_Some in Hn. lia. }
  split; [|split; [|split]].
  - apply Forall_fmap, Forall_forall. intros [v ids] H. cbn. specialize (I2 v ids H).
    destruct ids as [|i ids]; [done|]. intros He. assert (i ∈ (list_to_set (i :: ids) : procset)) by (apply elem_of_list_to_set; left).
    rewrite He in H0. by apply not_elem_of_empty in H0.
  - intros i j a b Ha Hb Hij. rewrite list_lookup_fmap in Ha, Hb.
    destruct (l !! i) as [[v ids]|] eqn:Ei; [|done]. destruct (l !! j) as [[w jds]|] eqn:Ej; [|done].
    cbn in Ha, Hb. injection Ha as <-. injection Hb as <-.
    assert (v <> w).
    { intros ->. apply Hij. eapply (NoDup_lookup l.*1); [done| |]; rewrite list_lookup_fmap; [rewrite Ei|rewrite Ej]; done. }
    apply elem_of_equiv_empty_L. intros k [H1 H2]%elem_of_intersection.
    apply elem_of_list_to_set in H1, H2. apply elem_of_list_lookup_2 in Ei, Ej.
    pose proof (I4 _ _ _ Ei H1) as Hk.
    assert (A : exists r, rows !! Z.to_nat k = Some r /\ usable r = true /\ rr_attr r label = v) by (apply I3; [done|eauto]).
    assert (B : exists r, rows !! Z.to_nat k = Some r /\ usable r = true /\ rr_attr r label = w) by (apply I3; [done|eauto]).
    destruct A as (r & R1 & _ & R2). destruct B as (s & S1 & _ & S2). congruence.
  - apply set_eq. intros k. rewrite elem_of_union_list, elem_of_roids. split.
    + intros (b & Hb & Hk). apply elem_of_list_fmap in Hb as ([v ids] & -> & H). cbn in Hk. apply elem_of_list_to_set in Hk.
      pose proof (I4 _ _ _ H Hk) as Hb. assert (A : exists r, rows !! Z.to_nat k = Some r /\ usable r = true /\ rr_attr r label = v) by (apply I3; [done|eauto]).
      destruct A as (r & R1 & R2 & _). exists (Z.to_nat k), r. split; [done|]. split; [done|lia].
    + intros (n & r & Hn & Hu & ->). destruct (I3 (Z.of_nat n) (Z0 n r Hn) (rr_attr r label)) as [_ A].
      destruct A as (ids & H & Hin); [exists r; rewrite Nat2Z.id; done|].
      exists (list_to_set ids). split; [apply elem_of_list_fmap; exists (rr_attr r label, ids); done|by apply elem_of_list_to_set].
  - intros n m r s Hn Hm Hur Hus. split.
    + intros (b & Hb & Hbn & Hbm). apply elem_of_list_fmap in Hb as ([v ids] & -> & H). cbn in Hbn, Hbm.
      apply elem_of_list_to_set in Hbn, Hbm.
      assert (A : exists r, rows !! Z.to_nat (Z.of_nat n) = Some r /\ usable r = true /\ rr_attr r label = v) by (apply I3; [by eapply Z0|eauto]).
      assert (B : exists r, rows !! Z.to_nat (Z.of_nat m) = Some r /\ usable r = true /\ rr_attr r label = v) by (apply I3; [by eapply Z0|eauto]).
      rewrite Nat2Z.id in A, B. destruct A as (r' & R1 & _ & R2). destruct B as (s' & S1 & _ & S2). congruence.
    + intros He. destruct (I3 (Z.of_nat n) (Z0 n r Hn) (rr_attr r label)) as [_ A].
      destruct A as (ids & H & Hin); [exists r; rewrite Nat2Z.id; done|].
      destruct (I3 (Z.of_nat m) (Z0 m s Hm) (rr_attr r label)) as [_ B].
      destruct B as (ids' & H' & Hin'); [exists s; rewrite Nat2Z.id; done|].
      assert (ids = ids').
      { apply elem_of_list_lookup in H as [i Hi]. apply elem_of_list_lookup in H' as [j Hj].
        assert (i = j) by (eapply (NoDup_lookup l.*1); [done| |]; rewrite list_lookup_fmap; [rewrite Hi|rewrite Hj]; done).
        subst. congruence. }
      subst ids'. exists (list_to_set ids). split; [apply elem_of_list_fmap; exists (rr_attr r label, ids); done|].
      split; by apply elem_of_list_to_set.
Qed.
Example C99_example : (fun b : procset => elements b) <$> level_of "network_address"
   [ex_row 1 "Alive" "a"; ex_row 2 "Alive" "b"; ex_row 3 "Dead" "a"; ex_row 4 "Absent" "a"] = [[0; 3]; [1]].
Proof. vm_compute. reflexivity. Qed.
Print Assumptions C96_numbering.
Print Assumptions C96_recorded.
Print Assumptions C96_bounds.
Print Assumptions C97_condition_exact.
Print Assumptions C97_condition_partial.
Print Assumptions C97_condition_refuted.
Print Assumptions C98_loaded_ranks.
Print Assumptions C98_first_resource_refuted.
Print Assumptions C98_usable_partial.
Print Assumptions C99_level.
