(** Proofs about submissions: reading the tables back. *)
From Verif Require Import Base HierarchyModel SubmitModel SubmitSpec SubmitProofs.

(** A moldable instance with everything the query joins to it. *)
Record mview := mkMview { v_job : Z; v_props : option string; v_mld : Z; v_wall : Z; v_grps : list (Z * string * list (string * Z)) }.
Definition group_rows (j : Z) (pr : option string) (m w : Z) (g : Z * string * list (string * Z)) : list row :=
  (fun x => mkRow j pr m w (fst (fst g)) (snd (fst g)) (fst x) (snd x)) <$> snd g.
Definition mview_rows (v : mview) : list row :=
  v_grps v ≫= group_rows (v_job v) (v_props v) (v_mld v) (v_wall v).
Definition gids (v : mview) : list Z := (fun g => fst (fst g)) <$> v_grps v.
Definition full (v : mview) : Prop := v_grps v <> [] /\ Forall (fun g => snd g <> []) (v_grps v).

Section reading.
  Variable cons : option string -> string -> procset.
  Variables sec be : Z.
  Notation rd := (read_row cons sec be).
  Definition enter (s : reading) (j m w : Z) : reading :=
    if j =? prev_j s then
      if m =? prev_m s then s
      else mkReading (prev_j s) m (prev_g s) (dur sec be w)
             (match jrg s with [] => rqts s | _ => rqts s ++ [(prev_m s, prev_w s, jrg s)] end) [] (out s)
    else
      mkReading j m (prev_g s) (dur sec be w) [] []
        (if prev_j s =? 0 then out s
         else <[prev_j s := rqts s ++ [(prev_m s, prev_w s,
                 jrg s ++ match last (jrg s) with Some g => [g] | None => [([], ∅)] end)]]> (out s)).
  Definition put (s : reading) (x : row) : reading :=
    if r_grp x =? prev_g s then
      mkReading (prev_j s) (prev_m s) (prev_g s) (prev_w s) (rqts s)
        (on_last (fun g => (fst g ++ [(r_type x, r_val x)], snd g)) (jrg s)) (out s)
    else
      mkReading (prev_j s) (prev_m s) (r_grp x) (prev_w s) (rqts s)
        (jrg s ++ [([(r_type x, r_val x)], cons (r_props x) (r_gprop x))]) (out s).
  Lemma read_row_split s x : rd s x = put (enter s (r_job x) (r_mld x) (r_wall x)) x.
  Proof. reflexivity. Qed.
  Lemma enter_j s j m w : prev_j (enter s j m w) = j.
  Proof. unfold enter. destruct (j =? prev_j s) eqn:E; [|done]. destruct (m =? prev_m s); cbn; lia. Qed.
  Lemma enter_m s j m w : prev_m (enter s j m w) = m.
  Proof. unfold enter. destruct (j =? prev_j s) eqn:E; [|done]. destruct (m =? prev_m s) eqn:E2; cbn; lia. Qed.
  Lemma enter_g s j m w : prev_g (enter s j m w) = prev_g s.
  Proof. unfold enter. destruct (j =? prev_j s) eqn:E; [|done]. destruct (m =? prev_m s); done. Qed.
  Lemma enter_stay s j m w : prev_j s = j -> prev_m s = m -> enter s j m w = s.
  Proof. intros H1 H2. unfold enter. rewrite H1, H2, !Z.eqb_refl. done. Qed.
  Lemma on_last_app {A} (f : A -> A) (l : list A) x : on_last f (l ++ [x]) = l ++ [f x].
  Proof.
    induction l as [|y l IH]; [done|]. cbn [app on_last]. destruct (l ++ [x]) eqn:E; [by destruct l|]. by rewrite IH.
  Qed.
  (** A whole group. *)
  Lemma read_group_rest j pr m w g p : forall ls s pre (G : list (list (string * Z) * procset)) c,
    prev_j s = j -> prev_m s = m -> prev_g s = g -> jrg s = G ++ [(pre, c)] ->
    fold_left rd (group_rows j pr m w (g, p, ls)) s =
    mkReading j m g (prev_w s) (rqts s) (G ++ [(pre ++ ls, c)]) (out s).
  Proof.
    induction ls as [|[t v] ls IH]; intros s pre G c Hj Hm Hg HG.
    - cbn [group_rows fmap list_fmap fold_left snd]. rewrite app_nil_r. destruct s. cbn in *. subst. done.
    - cbn [group_rows fmap list_fmap fold_left snd]. rewrite read_row_split. cbn [r_job r_mld r_wall]. rewrite enter_stay by done.
      unfold put. cbn [r_grp]. cbn [fst snd]. rewrite Hg, Z.eqb_refl. rewrite HG, on_last_app.
      fold (group_rows j pr m w (g, p, ls)).
      match goal with |- fold_left rd ?l ?s' = _ => change (fold_left rd (group_rows j pr m w (g, p, ls)) s' = mkReading j m g (prev_w s) (rqts s) (G ++ [(pre ++ (t, v) :: ls, c)]) (out s)) end.
      rewrite (IH _ (pre ++ [(t, v)]) G c); [|done|done|done|done]. cbn [prev_w rqts out]. rewrite <- app_assoc. done.
  Qed.
  Lemma read_group j pr m w g p ls s : ls <> [] -> prev_g s <> g ->
    fold_left rd (group_rows j pr m w (g, p, ls)) s =
    let s' := enter s j m w in
    mkReading j m g (prev_w s') (rqts s') (jrg s' ++ [(ls, cons pr p)]) (out s').
  Proof.
    intros Hls Hg. destruct ls as [|[t v] ls]; [done|]. cbv zeta.
    cbn [group_rows fmap list_fmap fold_left snd]. rewrite read_row_split. cbn [r_job r_mld r_wall].
    unfold put. rewrite enter_g. cbn [r_grp fst snd].
    destruct (g =? prev_g s) eqn:E; [lia|]. cbn [r_type r_val r_props r_gprop fst snd].
    match goal with |- fold_left rd ?l ?s' = _ => change (fold_left rd (group_rows j pr m w (g, p, ls)) s' = mkReading j m g (prev_w (enter s j m w)) (rqts (enter s j m w)) (jrg (enter s j m w) ++ [((t, v) :: ls, cons pr p)]) (out (enter s j m w))) end.
    rewrite (read_group_rest j pr m w g p ls _ [(t, v)] (jrg (enter s j m w)) (cons pr p)); [done|apply enter_j|apply enter_m|done|done].
  Qed.
  Definition groups_view (pr : option string) (gs : list (Z * string * list (string * Z))) : list (list (string * Z) * procset) :=
    (fun g => (snd g, cons pr (snd (fst g)))) <$> gs.
  Lemma read_groups j pr m w : forall gs s, gs <> [] -> Forall (fun g => snd g <> []) gs ->
    NoDup ((fun g => fst (fst g)) <$> gs) -> (forall g, g ∈ gs -> prev_g s <> fst (fst g)) ->
    exists g', g' ∈ gs /\
    fold_left rd (gs ≫= group_rows j pr m w) s =
    let s' := enter s j m w in
    mkReading j m (fst (fst g')) (prev_w s') (rqts s') (jrg s' ++ groups_view pr gs) (out s').
  Proof.
    assert (G : forall gs s, prev_j s = j -> prev_m s = m -> Forall (fun g => snd g <> []) gs -> NoDup ((fun g => fst (fst g)) <$> gs) ->
      (forall g, g ∈ gs -> prev_g s <> fst (fst g)) -> forall g0, prev_g s = fst (fst g0) ->
      exists g', (g' = g0 \/ g' ∈ gs) /\ fold_left rd (gs ≫= group_rows j pr m w) s =
        mkReading j m (fst (fst g')) (prev_w s) (rqts s) (jrg s ++ groups_view pr gs) (out s)).
    { induction gs as [|[[g p] ls] gs IH]; intros s Hj Hm Hls Hnd Hg g0 Hg0.
      - exists g0. split; [by left|]. cbn. rewrite app_nil_r. destruct s. cbn in *. subst. done.
      - rewrite bind_cons, fold_left_app. apply Forall_cons in Hls as [Hls1 Hls2]. rewrite fmap_cons in Hnd. apply NoDup_cons in Hnd as [Hn1 Hn2].
        rewrite read_group; [|done|by apply (Hg (g, p, ls)); left]. rewrite enter_stay by done. cbv zeta.
        destruct (IH (mkReading j m g (prev_w s) (rqts s) (jrg s ++ [(ls, cons pr p)]) (out s)) eq_refl eq_refl Hls2 Hn2) with (g0 := (g, p, ls)) as (g' & Hin & E).
        + cbn. intros g1 Hg1 He. apply Hn1. cbn. rewrite He. apply elem_of_list_fmap. eauto.
        + done.
        + exists g'. split; [right; destruct Hin as [->|?]; [left|by right]|]. rewrite E. cbn [prev_w rqts jrg out]. f_equal.
          unfold groups_view. rewrite fmap_cons, <- app_assoc. done. }
    intros gs s Hne Hls Hnd Hg. destruct gs as [|[[g p] ls] gs]; [done|]. rewrite bind_cons, fold_left_app.
    apply Forall_cons in Hls as [Hls1 Hls2]. rewrite fmap_cons in Hnd. apply NoDup_cons in Hnd as [Hn1 Hn2].
    rewrite read_group; [|done|by apply (Hg (g, p, ls)); left]. cbv zeta.
    destruct (G gs (mkReading j m g (prev_w (enter s j m w)) (rqts (enter s j m w)) (jrg (enter s j m w) ++ [(ls, cons pr p)]) (out (enter s j m w))) eq_refl eq_refl Hls2 Hn2) with (g0 := (g, p, ls)) as (g' & Hin & E).
    - cbn. intros g1 Hg1 He. apply Hn1. cbn. rewrite He. apply elem_of_list_fmap. eauto.
    - done.
    - exists g'. split; [destruct Hin as [->|?]; [left|by right]|]. rewrite E. cbn [prev_w rqts jrg out]. f_equal.
      unfold groups_view. rewrite fmap_cons, <- app_assoc. done.
  Qed.

  (** The same reading, instance by instance. *)
  Definition mrq (v : mview) : mrqt := (v_mld v, dur sec be (v_wall v), groups_view (v_props v) (v_grps v)).
  Definition again (r : mrqt) : mrqt :=
    (fst r, snd r ++ match last (snd r) with Some g => [g] | None => [([], ∅)] end).
  Definition machine : Type := gmap Z (list mrqt) * Z * list mrqt.
  Definition mstep (s : machine) (v : mview) : machine :=
    let '(o, j, pd) := s in
    if v_job v =? j then (o, j, pd ++ [mrq v])
    else (if j =? 0 then o else <[j := on_last again pd]> o, v_job v, [mrq v]).
  Definition pend (s : reading) : list mrqt := rqts s ++ [(prev_m s, prev_w s, jrg s)].
  Lemma read_mviews : forall vs s, Forall full vs -> NoDup (concat (gids <$> vs)) -> NoDup (v_mld <$> vs) ->
    (forall v, v ∈ vs -> v_job v <> 0 /\ v_mld v <> prev_m s /\ prev_g s ∉ gids v) ->
    (prev_j s = 0 \/ jrg s <> []) ->
    forall pd, (prev_j s = 0 /\ pd = [] \/ pd = pend s) ->
    exists s', fold_left rd (vs ≫= mview_rows) s = s' /\
      (vs = [] \/ (prev_j s' <> 0 /\ fold_left mstep vs (out s, prev_j s, pd) = (out s', prev_j s', pend s'))).
  Proof.
    induction vs as [|v vs IH]; intros s Hfull Hg Hm Hv Hs pd Hpd; [eexists; split; [reflexivity|by left]|].
    rewrite bind_cons, fold_left_app. apply Forall_cons in Hfull as [[Hf1 Hf2] Hfull].
    rewrite fmap_cons in Hg. cbn [concat] in Hg. apply NoDup_app in Hg as (Hg1 & Hg2 & Hg3).
    rewrite fmap_cons in Hm. apply NoDup_cons in Hm as [Hm1 Hm2].
    destruct (Hv v ltac:(left)) as (V1 & V2 & V3).
    destruct (read_groups (v_job v) (v_props v) (v_mld v) (v_wall v) (v_grps v) s Hf1 Hf2 Hg1) as (g' & Hg' & E).
    { intros g Hin He. apply V3. unfold gids. rewrite He. apply elem_of_list_fmap. eauto. }
    unfold mview_rows at 2. rewrite E. clear E. cbv zeta.
    set (s1 := mkReading _ _ _ _ _ _ _).
    assert (Hne : groups_view (v_props v) (v_grps v) <> []).
    { unfold groups_view. destruct (v_grps v); [done|]. rewrite fmap_cons. done. }
    destruct (IH s1 Hfull Hg3 Hm2) with (pd := pend s1) as (s' & E & H).
    - intros v' Hv'. destruct (Hv v' ltac:(by right)) as (W1 & W2 & W3). split; [done|]. split.
      + cbn. intros He. apply Hm1. rewrite <- He. apply elem_of_list_fmap. eauto.
      + cbn. intros He. apply (Hg2 (fst (fst g'))).
        * unfold gids. apply elem_of_list_fmap. eauto.
        * apply elem_of_list_In, in_concat. exists (gids v'). split; apply elem_of_list_In; [|done].
          apply elem_of_list_fmap. eauto.
    - right. cbn. destruct (jrg (enter s (v_job v) (v_mld v) (v_wall v))); [done|]. done.
    - by right.
    - exists s'. split; [done|]. right. cbn [fold_left].
      assert (Hstep : mstep (out s, prev_j s, pd) v = (out s1, prev_j s1, pend s1)).
      { unfold mstep, s1, pend. cbn [out prev_j rqts prev_m prev_w jrg]. unfold enter.
        destruct (v_job v =? prev_j s) eqn:Ej.
        - destruct Hs as [Hs|Hs]; [lia|]. destruct Hpd as [[Hpd _]| ->]; [lia|].
          destruct (v_mld v =? prev_m s) eqn:Em; [lia|]. cbn [rqts jrg out prev_w app]. unfold pend.
          destruct (jrg s) as [|x l] eqn:EG; [done|]. rewrite <- EG. f_equal. f_equal. lia.
        - cbn [rqts jrg out prev_w app]. f_equal. f_equal. destruct (prev_j s =? 0) eqn:E0; [done|].
          destruct Hpd as [[Hpd _]| ->]; [lia|]. f_equal. unfold pend. rewrite on_last_app. done. }
      rewrite Hstep. destruct H as [->|H]; [|done]. cbn in E |- *. subst s'. split; [done|]. done.
  Qed.

  (** The instances of a job that come one after the other. *)
  Lemma mstep_other j : forall vs o k pd o' k' pd', (forall v, v ∈ vs -> v_job v <> j) -> k <> j ->
    fold_left mstep vs (o, k, pd) = (o', k', pd') -> o' !! j = o !! j /\ k' <> j.
  Proof.
    induction vs as [|v vs IH]; intros o k pd o' k' pd' Hv Hk H; cbn [fold_left] in H.
    - injection H as <- <- <-. done.
    - pose proof (Hv v ltac:(left)) as V. unfold mstep at 2 in H. destruct (v_job v =? k) eqn:E.
      + eapply IH; [|exact Hk|exact H]. intros v' Hv'. apply Hv. by right.
      + apply IH in H; [|intros v' Hv'; apply Hv; by right|done]. destruct H as [H1 H2]. split; [|done]. rewrite H1.
        destruct (k =? 0); [done|]. by rewrite lookup_insert_ne.
  Qed.
  Lemma mstep_chunk j : forall vs o pd, (forall v, v ∈ vs -> v_job v = j) ->
    fold_left mstep vs (o, j, pd) = (o, j, pd ++ (mrq <$> vs)).
  Proof.
    induction vs as [|v vs IH]; intros o pd Hv; cbn [fold_left]; [by rewrite app_nil_r|].
    unfold mstep at 2. rewrite (Hv v ltac:(left)), Z.eqb_refl. rewrite IH by (intros v' Hv'; apply Hv; by right).
    rewrite fmap_cons, <- app_assoc. done.
  Qed.
  Definition close (s : machine) : gmap Z (list mrqt) := let '(o, j, pd) := s in <[j := pd]> o.
  Lemma mstep_block j pre ch post : j <> 0 -> ch <> [] -> (forall v, v ∈ ch -> v_job v = j) ->
    (forall v, v ∈ pre -> v_job v <> j) -> (forall v, v ∈ post -> v_job v <> j) ->
    exists l, close (fold_left mstep (pre ++ ch ++ post) (∅, 0, [])) !! j = Some l /\
      (l = mrq <$> ch \/ l = on_last again (mrq <$> ch)).
  Proof.
    intros Hj Hne Hch Hpre Hpost. rewrite !fold_left_app.
    destruct (fold_left mstep pre (∅, 0, [])) as [[o k] pd] eqn:E1.
    apply (mstep_other j) in E1 as [_ Hk]; [|done|done].
    destruct ch as [|v ch]; [done|]. cbn [fold_left]. unfold mstep at 3. rewrite (Hch v ltac:(left)).
    destruct (j =? k) eqn:E; [lia|]. rewrite mstep_chunk by (intros v' Hv'; apply Hch; by right).
    set (o' := if k =? 0 then o else _). rewrite fmap_cons. change ([mrq v] ++ (mrq <$> ch)) with (mrq v :: (mrq <$> ch)).
    set (l := mrq v :: (mrq <$> ch)). destruct post as [|u post].
    - exists l. split; [cbn; by rewrite lookup_insert|by left].
    - exists (on_last again l). split; [|by right]. cbn [fold_left]. unfold mstep at 2.
      destruct (v_job u =? j) eqn:Eu; [specialize (Hpost u ltac:(left)); lia|]. destruct (j =? 0) eqn:E0; [lia|].
      destruct (fold_left mstep post _) as [[o2 k2] pd2] eqn:E2. apply (mstep_other j) in E2 as [E2 Hk2].
      + cbn. rewrite lookup_insert_ne by done. rewrite E2. by rewrite lookup_insert.
      + intros v' Hv'. apply Hpost. by right.
      + apply (Hpost u). left.
  Qed.
End reading.

(** ** The rows of the query *)
Definition view_of (d : db) (m : mldrow) : mview :=
  mkMview (mjob m) (match base.filter (fun r => jid r = mjob m) (jobs d) with r :: _ => jprops r | [] => None end) (mid m) (mwall m)
    ((fun g => (gid g, gprop g, levels_of d (gid g))) <$> base.filter (fun g => gmld g = mid m) (grps d)).
Lemma job_unique d j r : wf d -> r ∈ jobs d -> jid r = j -> base.filter (fun r => jid r = j) (jobs d) = [r].
Proof.
  intros Hwf Hr Hj. destruct Hwf as [Ha _ _ _ _ _ _ _]. apply elem_of_list_split in Hr as (l1 & l2 & E).
  rewrite E in Ha |- *. apply ascending_app in Ha as (_ & A & B). apply ascending_cons in A as [A _].
  rewrite filter_app, filter_none, filter_cons_True, filter_none; [done| |done|].
  - intros x Hx. specialize (A x Hx). lia.
  - intros x Hx. specialize (B x r Hx ltac:(left)). lia.
Qed.
Lemma rows_of_views d jids : wf d -> (forall m, m ∈ mlds d -> mjob m ∈ map jid (jobs d)) ->
  rows_of d jids = (view_of d <$> base.filter (fun m => mjob m ∈ jids) (mlds d)) ≫= mview_rows.
Proof.
  intros Hwf Hjobs. unfold rows_of. rewrite sort_by_ascending by (apply ascending_filter, Hwf).
  assert (Hin : forall m, m ∈ base.filter (fun m => mjob m ∈ jids) (mlds d) -> m ∈ mlds d)
    by (intros m Hm; by apply elem_of_list_filter in Hm as [_ ?]).
  revert Hin. generalize (base.filter (fun m => mjob m ∈ jids) (mlds d)) as ms.
  induction ms as [|m ms IH]; intros Hin; [done|]. rewrite bind_cons, fmap_cons, bind_cons.
  rewrite IH by (intros m' Hm'; apply Hin; by right). f_equal. clear IH.
  specialize (Hjobs m (Hin m ltac:(left))). apply elem_of_list_fmap in Hjobs as (r & Hr & Hrin).
  unfold view_of, mview_rows. cbn [v_grps v_job v_props v_mld v_wall].
  rewrite (job_unique d (mjob m) r Hwf Hrin (eq_sym Hr)). cbn [mbind list_bind]. rewrite app_nil_r.
  rewrite sort_by_ascending by (apply ascending_filter, Hwf).
  generalize (base.filter (fun g => gmld g = mid m) (grps d)) as gs. induction gs as [|g gs IH]; [done|].
  rewrite bind_cons, fmap_cons, bind_cons, IH. f_equal. unfold group_rows, levels_of. cbn [fst snd]. rewrite <- Hr.
  generalize (sort_by dord (base.filter (fun x => dgrp x = gid g) (descs d))) as xs.
  induction xs as [|x xs IHx]; [done|]. rewrite bind_cons, !fmap_cons, IHx. done.
Qed.
(** The rows of moldable instances of a job follow each other. *)
Definition block (d : db) (j : Z) : Prop :=
  exists pre ch post, mlds d = pre ++ ch ++ post /\ (forall m, m ∈ ch -> mjob m = j) /\
    (forall m, m ∈ pre -> mjob m <> j) /\ (forall m, m ∈ post -> mjob m <> j).
Lemma block_filter d j pre ch post : mlds d = pre ++ ch ++ post -> (forall m, m ∈ ch -> mjob m = j) ->
    (forall m, m ∈ pre -> mjob m <> j) -> (forall m, m ∈ post -> mjob m <> j) ->
    base.filter (fun m => mjob m = j) (mlds d) = ch.
Proof.
  intros -> H1 H2 H3. rewrite !filter_app, (filter_none _ pre), (filter_none _ post), filter_all, app_nil_r by done. done.
Qed.
Lemma fmap_mrq_view cons sec be d r (ms : list mldrow) : (forall m, m ∈ ms -> mjob m = jid r) -> wf d -> r ∈ jobs d ->
  mrq cons sec be <$> (view_of d <$> ms) =
  (fun x => (fst (fst x), dur sec be (snd (fst x)), (fun g => (snd g, cons (jprops r) (fst g))) <$> snd x)) <$>
    ((fun m => (mid m, mwall m, groups_of d (mid m))) <$> ms).
Proof.
  intros Hm Hwf Hr. induction ms as [|m ms IH]; [done|]. rewrite !fmap_cons, IH by (intros m' Hm'; apply Hm; by right). f_equal.
  unfold mrq. cbn [v_mld v_wall v_grps v_props view_of fst snd]. f_equal. unfold groups_view.
  rewrite (job_unique d (mjob m) r Hwf Hr) by (symmetry; apply Hm; left). rewrite groups_of_filter by apply Hwf.
  rewrite <- !list_fmap_compose. done.
Qed.
Definition to_mrqt (cons : option string -> string -> procset) (sec be : Z) (pr : option string) (x : Z * Z * list sgroup) : mrqt :=
  (fst (fst x), dur sec be (snd (fst x)), map (fun g : sgroup => (snd g, cons pr (fst g))) (snd x)).
(** What the scheduler reads of a job whose rows follow each other, when all the jobs considered are described. *)
Theorem read_back cons sec be d jids r : wf d -> (forall m, m ∈ mlds d -> mjob m ∈ map jid (jobs d)) ->
  (forall j, j ∈ jids -> described d j) -> r ∈ jobs d -> jid r ∈ jids -> block d (jid r) ->
  exists mp (l : list mrqt), get_data cons sec be d jids = Ok mp /\ request_of mp (jid r) = Ok l /\
    let asked := map (to_mrqt cons sec be (jprops r)) (moldables_of d (jid r)) in
    l = asked \/ l = on_last again asked.
Proof.
  intros Hwf Hjobs Hdesc Hr Hj Hblock.
  set (ms := base.filter (fun m => mjob m ∈ jids) (mlds d)).
  assert (Hin : forall m, m ∈ ms -> mjob m ∈ jids /\ m ∈ mlds d) by (intros m; unfold ms; by rewrite elem_of_list_filter).
  assert (Hfull : Forall full (view_of d <$> ms)).
  { apply Forall_fmap, Forall_forall. intros m Hm. apply Hin in Hm as [Hm1 Hm2]. destruct (Hdesc _ Hm1) as [_ Hd].
    rewrite moldables_of_filter in Hd by apply Hwf. rewrite Forall_forall in Hd.
    destruct (Hd (mid m, mwall m, groups_of d (mid m))) as [D1 D2].
    { apply elem_of_list_fmap. exists m. split; [done|]. by apply elem_of_list_filter. }
    cbn [snd] in D1, D2. rewrite groups_of_filter in D1, D2 by apply Hwf. split; cbn [v_grps view_of].
    - intros He. apply D1. apply fmap_nil_inv in He. rewrite He. done.
    - apply Forall_fmap, Forall_forall. intros g Hg. rewrite Forall_forall in D2. apply (D2 (gprop g, levels_of d (gid g))).
      apply elem_of_list_fmap. eauto. }
  assert (Hms : ascending mid ms) by (apply ascending_filter, Hwf).
  assert (Hg : NoDup (concat (gids <$> (view_of d <$> ms)))).
  { assert (Hgid : forall m, gids (view_of d m) = gid <$> base.filter (fun g => gmld g = mid m) (grps d)).
    { intros m. unfold gids, view_of. cbn [v_grps]. rewrite <- list_fmap_compose. done. }
    clear - Hwf Hms Hgid. induction ms as [|m ms IH]; [constructor|]. apply ascending_cons in Hms as [H1 H2].
    rewrite !fmap_cons. cbn [concat]. apply NoDup_app. split; [|split; [|by apply IH]].
    - rewrite Hgid. apply ascending_NoDup, ascending_filter, Hwf.
    - intros x Hx Hc. rewrite Hgid in Hx. apply elem_of_list_fmap in Hx as (g & -> & Hg). apply elem_of_list_filter in Hg as [Hg1 Hg2].
      apply elem_of_list_In, in_concat in Hc as (l & Hl & Hc). apply elem_of_list_In in Hl, Hc.
      apply elem_of_list_fmap in Hl as (v & -> & Hv). apply elem_of_list_fmap in Hv as (m' & -> & Hm').
      rewrite Hgid in Hc. apply elem_of_list_fmap in Hc as (g' & He & Hg'). apply elem_of_list_filter in Hg' as [Hg1' Hg2'].
      assert (g = g').
      { apply elem_of_list_lookup in Hg2 as [i Hi]. apply elem_of_list_lookup in Hg2' as [k Hk].
        destruct (Nat.lt_trichotomy i k) as [?|[?|?]].
        - pose proof (wf_g d Hwf i k g g' Hi Hk ltac:(done)). lia.
        - subst. congruence.
        - pose proof (wf_g d Hwf k i g' g Hk Hi ltac:(done)). lia. }
      subst g'. specialize (H1 m' Hm'). lia. }
  assert (Hmid : NoDup (v_mld <$> (view_of d <$> ms))).
  { rewrite <- list_fmap_compose. by apply (ascending_NoDup mid). }
  destruct (read_mviews cons sec be (view_of d <$> ms) (mkReading 0 0 0 0 [] [] ∅) Hfull Hg Hmid) with (pd := @nil mrqt) as (s' & E & H).
  { intros v Hv. apply elem_of_list_fmap in Hv as (m & -> & Hm). apply Hin in Hm as [_ Hm]. cbn [v_job v_mld view_of prev_m prev_g].
    pose proof (wf_mb d Hwf m Hm). split; [lia|]. split; [lia|]. intros Hc. unfold gids in Hc. cbn [v_grps view_of] in Hc.
    rewrite <- list_fmap_compose in Hc. apply elem_of_list_fmap in Hc as (g & He & Hg'). apply elem_of_list_filter in Hg' as [_ Hg'].
    pose proof (wf_gb d Hwf g Hg'). cbn in He. lia. }
  { by left. }
  { by left. }
  destruct Hblock as (pre & ch & post & Hb & Hch & Hpre & Hpost).
  assert (Hchm : moldables_of d (jid r) = (fun m => (mid m, mwall m, groups_of d (mid m))) <$> ch).
  { rewrite moldables_of_filter by apply Hwf. rewrite (block_filter d (jid r) pre ch post Hb Hch Hpre Hpost). done. }
  assert (Hchne : ch <> []).
  { intros ->. destruct (Hdesc _ Hj) as [D _]. rewrite Hchm in D. done. }
  assert (Hmsb : ms = base.filter (fun m => mjob m ∈ jids) pre ++ ch ++ base.filter (fun m => mjob m ∈ jids) post).
  { unfold ms. rewrite Hb, !filter_app. f_equal. f_equal. apply filter_all. intros m Hm. rewrite (Hch m Hm). done. }
  destruct H as [H|[Hs' H]].
  { exfalso. apply fmap_nil_inv in H. rewrite Hmsb in H. apply Hchne. by destruct (base.filter _ pre), ch. }
  unfold get_data. rewrite rows_of_views by done. fold ms.
  destruct ((view_of d <$> ms) ≫= mview_rows) as [|x xs] eqn:Er.
  { cbn in E. subst s'. cbn in Hs'. done. }
  cbn [out prev_j] in H. rewrite E. cbv zeta.
  assert (Hclose : <[prev_j s' := rqts s' ++ [(prev_m s', prev_w s', jrg s')]]> (out s') =
                   close (fold_left (mstep cons sec be) (view_of d <$> ms) (∅, 0, []))) by (rewrite H; done).
  rewrite Hclose, Hmsb, !fmap_app.
  destruct (mstep_block cons sec be (jid r) (view_of d <$> base.filter (fun m => mjob m ∈ jids) pre) (view_of d <$> ch)
              (view_of d <$> base.filter (fun m => mjob m ∈ jids) post)) as (l & Hl & Hcase).
  - pose proof (wf_jb d Hwf r Hr). lia.
  - intros He. apply fmap_nil_inv in He. done.
  - intros v Hv. apply elem_of_list_fmap in Hv as (m & -> & Hm). by apply Hch.
  - intros v Hv. apply elem_of_list_fmap in Hv as (m & -> & Hm). apply elem_of_list_filter in Hm as [_ Hm]. by apply Hpre.
  - intros v Hv. apply elem_of_list_fmap in Hv as (m & -> & Hm). apply elem_of_list_filter in Hm as [_ Hm]. by apply Hpost.
  - eexists _, l. split; [reflexivity|]. unfold request_of. rewrite Hl. split; [reflexivity|]. rewrite Hchm.
    rewrite (fmap_mrq_view cons sec be d r ch Hch Hwf Hr) in Hcase. exact Hcase.
Qed.
