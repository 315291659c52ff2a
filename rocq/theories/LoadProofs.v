From Verif Require Import Base SlotModel SlotSpec SlotProofs SlotJobs SlotLookup SlotOps LoadModel.

(** Rows of the same job carry the same job, start and walltime (they come from one job, one
    prediction and one moldable description). *)
Definition consistent (rows : list grow) : Prop :=
  forall x y, x ∈ rows -> y ∈ rows -> d_id (g_job x) = d_id (g_job y) ->
    g_job x = g_job y /\ g_start x = g_start y /\ g_wall x = g_wall y.

(** The resources of job [i] in the table. *)
Definition rows_res (i2o : Z -> Z) (i : Z) (rows : list grow) : procset :=
  list_to_set ((fun x => i2o (g_rid x)) <$> base.filter (fun x => d_id (g_job x) = i) rows).

Lemma elem_rows_res i2o i rows r :
  r ∈ rows_res i2o i rows <-> exists x, x ∈ rows /\ d_id (g_job x) = i /\ r = i2o (g_rid x).
Proof.
  unfold rows_res. rewrite elem_of_list_to_set, elem_of_list_fmap. split.
  - intros (x & -> & Hx). apply elem_of_list_filter in Hx as [H1 H2]. eauto.
  - intros (x & Hx & Hi & ->). exists x. split; [done|]. apply elem_of_list_filter. done.
Qed.

(** [grouped i rows]: rows of a same job are consecutive, [i] being the job of the previous row. *)
Fixpoint grouped (i : Z) (rows : list grow) : Prop :=
  match rows with
  | [] => True
  | x :: rows' =>
      (d_id (g_job x) <> i -> forall y, y ∈ rows' -> d_id (g_job y) <> i) /\ grouped (d_id (g_job x)) rows'
  end.

Lemma grouped_not i x rows : grouped i (x :: rows) -> d_id (g_job x) <> i -> forall y, y ∈ x :: rows -> d_id (g_job y) <> i.
Proof. intros [H _] Hne y Hy. apply elem_of_cons in Hy as [->|Hy]; auto. Qed.

Lemma sorted_grouped rows : forall i x0,
  d_id (g_job x0) = i -> consistent (x0 :: rows) -> StronglySorted row_le (x0 :: rows) -> grouped i rows.
Proof.
  induction rows as [|x rows IH]; intros i x0 Hi Hc Hs; [done|]. cbn [grouped]. split.
  - intros Hne y Hy Hyi.
    inversion Hs as [|? ? Hs1 HF1]; subst. inversion Hs1 as [|? ? Hs2 HF2]; subst.
    rewrite Forall_forall in HF1, HF2.
    assert (H1 : row_le x0 x) by (apply HF1; left). assert (H2 : row_le x y) by (apply HF2; done).
    destruct (Hc x0 y) as (Ej & _); [left|right; right; done|done|].
    unfold row_le in *. rewrite <- Ej in H2. lia.
  - apply (IH (d_id (g_job x)) x eq_refl).
    + intros a b Ha Hb. apply Hc; right; done.
    + by inversion Hs.
Qed.

Section extract.
Context (i2o : Z -> Z) (logs : list slog) (sec now : Z).

(** What the loop has accumulated, closed with the current job. *)
Lemma extract_loop_spec rows : forall i d j roids out,
  i <> 0 -> d_id d = i -> Forall (fun x => d_id (g_job x) <> 0) rows -> grouped i rows ->
  exists L d' j' roids' out',
    extract_loop i2o logs sec now rows i (Some (d, j)) roids out = (Some (d', j'), roids', out') /\
    out' ++ [with_res j' (list_to_set roids')] = out ++ (snd <$> L) /\
    last L = Some (d', with_res j' (list_to_set roids')) /\
    (exists L', L = (d, with_res j (list_to_set roids ∪ rows_res i2o i rows)) :: L' /\
      (forall e k, (e, k) ∈ L' -> exists x, x ∈ rows /\ g_job x = e /\ d_id e <> i /\
         k = with_res (begin_job logs sec now x) (rows_res i2o (d_id e) rows))) /\
    NoDup (d_id ∘ fst <$> L) /\
    (forall x, x ∈ rows -> d_id (g_job x) ∈ d_id ∘ fst <$> L).
Proof.
  induction rows as [|x rows IH]; intros i d j roids out Hi Hd Hnz Hg; cbn [extract_loop].
  - exists [(d, with_res j (list_to_set roids ∪ rows_res i2o i []))], d, j, roids, out.
    assert (E : list_to_set roids ∪ rows_res i2o i [] = list_to_set roids :> procset).
    { unfold rows_res. rewrite filter_nil. cbn. by rewrite union_empty_r_L. }
    rewrite E. split; [done|]. split; [done|]. split; [done|]. split; [|split].
    + exists []. split; [done|]. intros e k Hk. by apply elem_of_nil in Hk.
    + apply NoDup_singleton.
    + intros x Hx. by apply elem_of_nil in Hx.
  - apply Forall_cons in Hnz as [Hx0 Hnz]. destruct (d_id (g_job x) =? i) eqn:E; cbn [negb].
    + apply Z.eqb_eq in E. destruct Hg as [_ Hg]. rewrite E in Hg.
      destruct (IH i d j (roids ++ [i2o (g_rid x)]) out Hi Hd Hnz Hg) as
        (L & d' & j' & roids' & out' & E1 & E2 & E3 & (L' & EL & H4) & H5 & H6).
      exists L, d', j', roids', out'. split; [done|]. split; [done|]. split; [done|]. split; [|split].
      * exists L'. split.
        -- rewrite EL. do 3 f_equal. apply leibniz_equiv. intros r.
           rewrite !elem_of_union, !elem_rows_res, !elem_of_list_to_set, elem_of_app, elem_of_list_singleton. split.
           ++ intros [[H|H]|(y & Hy & H)]; [auto|right; exists x; split; [left|done]|right; exists y; split; [by right|done]].
           ++ intros [H|(y & Hy & H1 & H2)]; [auto|]. apply elem_of_cons in Hy as [->|Hy]; [auto|]. right. eauto.
        -- intros e k Hk. destruct (H4 e k Hk) as (y & Hy & He & Hne & ->). exists y.
           split; [by right|]. split; [done|]. split; [done|]. f_equal. apply leibniz_equiv. intros r.
           rewrite !elem_rows_res. split.
           ++ intros (z & Hz & H). exists z. split; [by right|done].
           ++ intros (z & Hz & H1 & H2). apply elem_of_cons in Hz as [->|Hz]; [congruence|eauto].
      * done.
      * intros y Hy. apply elem_of_cons in Hy as [->|Hy]; [|auto]. rewrite EL. cbn. rewrite E, <- Hd. left.
    + apply Z.eqb_neq in E. pose proof (grouped_not _ _ _ Hg E) as Hno. destruct Hg as [_ Hg].
      replace (i =? 0) with false by lia. cbn [negb app].
      destruct (IH (d_id (g_job x)) (g_job x) (begin_job logs sec now x) [i2o (g_rid x)]
                  (out ++ [with_res j (list_to_set roids)]) Hx0 eq_refl Hnz Hg) as
        (L & d' & j' & roids' & out' & E1 & E2 & E3 & (L' & EL & H4) & H5 & H6).
      exists ((d, with_res j (list_to_set roids)) :: L), d', j', roids', out'.
      split; [done|]. split; [rewrite E2, <- app_assoc; done|].
      split; [rewrite EL in *; cbn in *; done|]. split; [|split].
      * exists L. split.
        -- do 3 f_equal. apply leibniz_equiv. intros r. rewrite elem_of_union, elem_rows_res. split; [auto|].
           intros [H|(y & Hy & H & _)]; [done|]. exfalso. by apply (Hno y).
        -- intros e k Hk. rewrite EL in Hk. apply elem_of_cons in Hk as [Hk|Hk].
           ++ apply pair_equal_spec in Hk as [-> ->]. exists x. split; [left|]. split; [done|]. split; [done|]. f_equal.
              apply leibniz_equiv. intros r. rewrite elem_of_union, !elem_rows_res, elem_of_list_to_set, elem_of_list_singleton. split.
              ** intros [->|(y & Hy & H)]; [exists x; split; [left|done]|exists y; split; [by right|done]].
              ** intros (y & Hy & H1 & H2). apply elem_of_cons in Hy as [->|Hy]; [auto|right; eauto].
           ++ destruct (H4 e k Hk) as (y & Hy & He & Hne & ->). exists y. split; [by right|]. split; [done|].
              split; [rewrite <- He; apply Hno; by right|]. f_equal. apply leibniz_equiv. intros r.
              rewrite !elem_rows_res. split.
              ** intros (z & Hz & H). exists z. split; [by right|done].
              ** intros (z & Hz & H1 & H2). apply elem_of_cons in Hz as [->|Hz]; [congruence|eauto].
      * rewrite fmap_cons. constructor; [|done]. cbn. rewrite Hd. intros Hin.
        apply elem_of_list_fmap in Hin as ([e k] & He & Hk). cbn in He.
        rewrite EL in Hk. apply elem_of_cons in Hk as [Hk|Hk].
        -- apply pair_equal_spec in Hk as [-> ->]. congruence.
        -- destruct (H4 e k Hk) as (y & Hy & <- & _). apply (Hno y); [by right|done].
      * intros y Hy. apply elem_of_cons in Hy as [->|Hy].
        -- right. rewrite EL. cbn. left.
        -- right. auto.
Qed.

(** The whole of extract_scheduled_jobs. *)
Lemma extract_spec suspendable rows :
  Forall (fun x => d_id (g_job x) <> 0) rows -> consistent rows -> StronglySorted row_le rows ->
  exists L : list (dbjob * job),
    (extract_scheduled_jobs i2o suspendable logs sec now rows = snd <$> L) /\
    NoDup (d_id ∘ fst <$> L) /\
    (forall x, x ∈ rows -> d_id (g_job x) ∈ d_id ∘ fst <$> L) /\
    (forall n e k, L !! n = Some (e, k) -> exists x, x ∈ rows /\ g_job x = e /\
       k = with_res (begin_job logs sec now x)
             (if bool_decide (S n = length L /\ d_state e = "Suspended"%string)
              then rows_res i2o (d_id e) rows ∖ suspendable else rows_res i2o (d_id e) rows)).
Proof.
  intros Hnz Hc Hs. destruct rows as [|x rows].
  - exists []. split; [done|]. split; [constructor|]. split; [intros x Hx; by apply elem_of_nil in Hx|]. done.
  - assert (Hg : grouped (d_id (g_job x)) rows) by (by eapply sorted_grouped).
    apply Forall_cons in Hnz as [Hx0 Hnz]. unfold extract_scheduled_jobs. cbn [extract_loop].
    replace (d_id (g_job x) =? 0) with false by lia. rewrite Z.eqb_refl. cbn [negb app].
    destruct (extract_loop_spec rows (d_id (g_job x)) (g_job x) (begin_job logs sec now x) [i2o (g_rid x)] []
                Hx0 eq_refl Hnz Hg) as
        (L & d' & j' & roids' & out' & E1 & E2 & E3 & (L' & EL & H4) & H5 & H6).
    rewrite E1. cbn [app] in E2.
    apply last_Some in E3 as [L0 E0].
    assert (Eout : out' = snd <$> L0).
    { rewrite E0, fmap_app in E2. cbn in E2. by apply app_inj_tail in E2 as [? _]. }
    set (fin := with_res j' (if bool_decide (d_state d' = "Suspended"%string) then list_to_set roids' ∖ suspendable else list_to_set roids')).
    exists (L0 ++ [(d', fin)]). split; [rewrite fmap_app, Eout; done|].
    assert (Efst : d_id ∘ fst <$> L0 ++ [(d', fin)] = d_id ∘ fst <$> L) by (rewrite E0, !fmap_app; done).
    split; [by rewrite Efst|]. split.
    { intros y Hy. rewrite Efst. apply elem_of_cons in Hy as [->|Hy]; [|auto]. rewrite EL. left. }
    assert (Hall : forall e k, (e, k) ∈ L -> exists y, y ∈ x :: rows /\ g_job y = e /\
       k = with_res (begin_job logs sec now y) (rows_res i2o (d_id e) (x :: rows))).
    { intros e k Hk. rewrite EL in Hk. apply elem_of_cons in Hk as [Hk|Hk].
      - apply pair_equal_spec in Hk as [-> ->]. exists x. split; [left|]. split; [done|]. f_equal. apply leibniz_equiv. intros r.
        rewrite elem_of_union, !elem_rows_res, elem_of_list_to_set, elem_of_list_singleton. split.
        + intros [->|(y & Hy & H)]; [exists x; split; [left|done]|exists y; split; [by right|done]].
        + intros (y & Hy & H1 & H2). apply elem_of_cons in Hy as [->|Hy]; [auto|right; eauto].
      - destruct (H4 e k Hk) as (y & Hy & He & Hne & ->). exists y. split; [by right|]. split; [done|].
        f_equal. apply leibniz_equiv. intros r. rewrite !elem_rows_res. split.
        + intros (z & Hz & H). exists z. split; [by right|done].
        + intros (z & Hz & H1 & H2). apply elem_of_cons in Hz as [->|Hz]; [congruence|eauto]. }
    intros n e k Hn. rewrite app_length. cbn [length].
    apply lookup_app_Some in Hn as [Hn|[Hle Hn]].
    + rewrite bool_decide_false by (apply lookup_lt_Some in Hn; lia). apply Hall. rewrite E0.
      apply elem_of_app. left. by eapply elem_of_list_lookup_2.
    + assert (n = length L0 /\ (e, k) = (d', fin)) as [-> [= -> ->]].
      { apply list_lookup_singleton_Some in Hn as [? ?]. split; [lia|done]. }
      destruct (Hall d' (with_res j' (list_to_set roids'))) as (y & Hy & He & Hk).
      { rewrite E0. apply elem_of_app. right. by apply elem_of_list_singleton. }
      exists y. split; [done|]. split; [done|]. unfold fin.
      assert (Er : list_to_set roids' = rows_res i2o (d_id d') (x :: rows) :> procset).
      { apply (f_equal res_set) in Hk. exact Hk. }
      assert (Ej : forall rs, with_res j' rs = with_res (begin_job logs sec now y) rs).
      { intros rs. assert (H := f_equal (fun j => with_res j rs) Hk). exact H. }
      rewrite Ej, Er. f_equal. destruct (decide (d_state d' = "Suspended"%string)).
      * rewrite !bool_decide_true by (first [done | split; [lia|done]]). done.
      * rewrite !bool_decide_false by tauto. done.
Qed.
End extract.
