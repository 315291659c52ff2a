(** The Gantt tables: C43, C44, C79-C83. *)
From Verif Require Import Base GanttModel GanttSpec.

(** * Numbers of resources *)
Lemma i2o_use (l : list ores) id : NoDup (o_id <$> l) -> usable l id -> exists n x, i2o l id = Z.of_nat n /\ l !! n = Some x /\ o_id x = id /\ in_use x.
Proof.
  intros HN (x & Hx & E & Hu). unfold i2o. destruct (list_find _ l) as [[n y]|] eqn:Ef.
  - apply list_find_Some in Ef as (H1 & [H2 H3] & _). by exists n, y.
  - exfalso. apply list_find_None in Ef. rewrite Forall_forall in Ef. by apply (Ef x Hx).
Qed.
Lemma i2o_not (l : list ores) id : ~ usable l id -> i2o l id = 0.
Proof.
  intros Hn. unfold i2o. destruct (list_find _ l) as [[n y]|] eqn:Ef; [|done]. apply list_find_Some in Ef as (H1 & [H2 H3] & _). exfalso. apply Hn. exists y. split; [by eapply elem_of_list_lookup_2|done].
Qed.
Lemma o2i_i2o (l : list ores) id : NoDup (o_id <$> l) -> usable l id -> o2i l (i2o l id) = id.
Proof.
  intros HN Hu. destruct (i2o_use l id HN Hu) as (n & x & E & Hl & Hid & Hx). unfold o2i. rewrite E, Nat2Z.id, Hl. by rewrite decide_True by done.
Qed.
Lemma usable_dec (l : list ores) id : usable l id \/ ~ usable l id.
Proof.
  destruct (decide (Exists (fun x => o_id x = id /\ in_use x) l)) as [H|H]; rewrite Exists_exists in H; [left|right]; [destruct H as (x & Hx & E & Hu); by exists x|]. intros (x & Hx & E & Hu). apply H. by exists x.
Qed.

(** * C43. The reset of the Gantt *)
Lemma rids_in rows m r : r ∈ rids_of rows m <-> (m, r) ∈ rows.
Proof.
  unfold rids_of. rewrite elem_of_list_fmap. split; [intros ([a b] & -> & [E Hin]%elem_of_list_filter); cbn in *; by subst|].
  intros H. exists (m, r). split; [done|]. by apply elem_of_list_filter.
Qed.
Lemma kept_in d m : m ∈ kept_resv d <-> accepted d m.
Proof.
  unfold kept_resv, accepted, job_of. rewrite elem_of_list_fmap. split.
  - intros (x & -> & ((H1 & H2 & H3) & Hx)%elem_of_list_filter). apply existsb_exists in H1 as (j & Hj & H1), H2 as ([a t] & Hp & H2), H3 as ([b r] & Hr & H3). apply elem_of_list_In in Hj, Hp, Hr. cbn in H2, H3.
    apply andb_prop in H1 as [H1 H4]. apply andb_prop in H1 as [H1 H5]. apply bool_decide_eq_true_1 in H4. apply orb_true_iff in H5.
    exists j. split; [split; [done|]; exists x; repeat split; try done; lia|]. split; [destruct H5 as [H5|H5]; apply bool_decide_eq_true_1 in H5; tauto|]. split; [done|].
    apply Z.eqb_eq in H2, H3. subst. eauto.
  - intros (j & (Hj & x & Hx & Ex & Ej) & Hs & Hr & (t & Ht) & (r & Hrr)). exists x. split; [done|]. apply elem_of_list_filter. split; [|done]. subst m. split_and!; apply existsb_exists.
    + exists j. split; [by apply elem_of_list_In|]. rewrite (bool_decide_eq_true_2 (q_resv j = "Scheduled"%string)) by done. replace (q_id j =? m_job x) with true by lia. cbn [andb]. rewrite andb_true_r. apply orb_true_iff. destruct Hs as [Hs|Hs]; [left|right]; by apply bool_decide_eq_true_2.
    + exists (m_id x, t). split; [by apply elem_of_list_In|]. cbn. lia.
    + exists (m_id x, r). split; [by apply elem_of_list_In|]. cbn. lia.
Qed.
Lemma active_iff d j : active d j <-> j ∈ gjobs d /\ q_state j ∈ current_states /\ rids_of (gasg d) (q_mld j) <> [].
Proof.
  unfold active, current_states. rewrite !elem_of_cons, elem_of_nil. split; intros (H1 & H2 & H3); (split; [done|]; split; [tauto|]).
  - destruct H3 as [r Hr]. apply rids_in in Hr. intros E. rewrite E in Hr. by apply elem_of_nil in Hr.
  - destruct (rids_of _ _) as [|r k] eqn:E; [done|]. exists r. apply rids_in. rewrite E. left.
Qed.
Lemma current_in l d x : x ∈ current_jobs l d <-> exists j, active d j /\ x = (q_mld j, q_start j, remove_dups (i2o l <$> rids_of (gasg d) (q_mld j))).
Proof.
  unfold current_jobs. rewrite elem_of_list_fmap. split.
  - intros (j & -> & [[H1 H2] H3]%elem_of_list_filter). exists j. split; [|done]. by apply active_iff.
  - intros (j & Ha & ->). exists j. split; [done|]. apply active_iff in Ha as (H1 & H2 & H3). apply elem_of_list_filter. done.
Qed.
(** When the resources of the active jobs are in use: exactly the places of the accepted reservations and
    of the active jobs. *)
Theorem C43_tables_partial l d : NoDup (o_id <$> l) -> (forall j, active d j -> 0 <= q_start j /\ forall r, (q_mld j, r) ∈ gasg d -> usable l r) ->
  (forall m t, (m, t) ∈ gpred (gantt_init l d) <-> accepted d m /\ (m, t) ∈ gpred d \/ exists j, active d j /\ q_mld j = m /\ q_start j = t) /\
  (forall m r, (m, r) ∈ gres (gantt_init l d) <-> accepted d m /\ (m, r) ∈ gres d \/ exists j, active d j /\ q_mld j = m /\ (m, r) ∈ gasg d) /\
  gjobs (gantt_init l d) = gjobs d /\ gmlds (gantt_init l d) = gmlds d /\ gasg (gantt_init l d) = gasg d.
Proof.
  intros HN Hact. unfold gantt_init, save_assigns, flush. cbn [gpred gres gjobs gmlds gasg]. split; [|split; [|done]].
  - intros m t. rewrite elem_of_app, elem_of_list_filter, elem_of_list_fmap. cbn [fst]. rewrite kept_in. split; (intros [?|H]; [by left|right]).
    + destruct H as (x & E & [Hx Hin]%elem_of_list_filter). apply current_in in Hin as (j & Ha & ->). cbn in E. injection E as -> ->. by exists j.
    + destruct H as (j & Ha & <- & <-). exists (q_mld j, q_start j, remove_dups (i2o l <$> rids_of (gasg d) (q_mld j))). split; [done|]. apply elem_of_list_filter. split; [cbn; destruct (Hact j Ha); lia|]. apply current_in. by exists j.
  - intros m r. rewrite elem_of_app, elem_of_list_filter, elem_of_list_bind. cbn [fst]. rewrite kept_in. split; (intros [?|H]; [by left|right]).
    + destruct H as (x & E & [Hx Hin]%elem_of_list_filter). apply current_in in Hin as (j & Ha & ->). cbn [fst snd] in E. apply elem_of_list_fmap in E as (k & E & Hk). injection E as -> ->. exists j. split; [done|]. split; [done|].
      apply elem_of_remove_dups, elem_of_list_fmap in Hk as (id & -> & Hid). apply rids_in in Hid. destruct (Hact j Ha) as [_ Hu]. by rewrite o2i_i2o by auto.
    + destruct H as (j & Ha & <- & Hr). exists (q_mld j, q_start j, remove_dups (i2o l <$> rids_of (gasg d) (q_mld j))). destruct (Hact j Ha) as [H0 Hu]. split.
      * cbn [fst snd]. apply elem_of_list_fmap. exists (i2o l r). split; [by rewrite o2i_i2o by auto|]. apply elem_of_remove_dups, elem_of_list_fmap. exists r. split; [done|]. by apply rids_in.
      * apply elem_of_list_filter. split; [cbn; lia|]. apply current_in. by exists j.
Qed.
(** Refuted: an active job one of whose resources is down is put on the first resource. *)
Theorem C43_down_refuted l d j r x : active d j -> 0 <= q_start j -> (q_mld j, r) ∈ gasg d -> ~ usable l r -> l !! 0%nat = Some x -> in_use x -> (q_mld j, o_id x) ∈ gres (gantt_init l d).
Proof.
  intros Ha H0 Hr Hn Hx Hu. unfold gantt_init, save_assigns. cbn [gres]. apply elem_of_app. right. apply elem_of_list_bind. exists (q_mld j, q_start j, remove_dups (i2o l <$> rids_of (gasg d) (q_mld j))). split.
  - cbn [fst snd]. apply elem_of_list_fmap. exists 0. split; [unfold o2i; change (Z.to_nat 0) with 0%nat; rewrite Hx; by rewrite decide_True by done|]. apply elem_of_remove_dups, elem_of_list_fmap. exists r. split; [by rewrite i2o_not|by apply rids_in].
  - apply elem_of_list_filter. split; [cbn; lia|]. apply current_in. by exists j.
Qed.
Lemma same_elem {A} (f : A -> Z) (l : list A) a b : NoDup (f <$> l) -> a ∈ l -> b ∈ l -> f a = f b -> a = b.
Proof.
  induction l as [|x l IH]; intros HN Ha Hb E; [by apply elem_of_nil in Ha|]. cbn [fmap list_fmap] in HN. apply NoDup_cons in HN as [H1 H2].
  apply elem_of_cons in Ha as [->|Ha]; apply elem_of_cons in Hb as [->|Hb]; [done| | |by apply IH]; exfalso; apply H1; apply elem_of_list_fmap; [exists b|exists a]; done.
Qed.
(** Refuted: a reservation that is held loses its place. *)
Theorem C43_hold_refuted l d m j : job_of d m j -> q_state j = "Hold"%string -> q_resv j = "Scheduled"%string -> NoDup (q_id <$> gjobs d) -> NoDup (m_id <$> gmlds d) -> (forall j', active d j' -> q_mld j' <> m) ->
  forall t r, (m, t) ∉ gpred (gantt_init l d) /\ (m, r) ∉ gres (gantt_init l d).
Proof.
  intros (Hj & x & Hx & Ex & Ej) Hs Hr HNj HNm Hna t r.
  assert (Hno : ~ accepted d m).
  { intros (j' & (Hj' & x' & Hx' & Ex' & Ej') & Hs' & _). assert (x' = x) as -> by (apply (same_elem m_id (gmlds d)); congruence). assert (j' = j) as -> by (apply (same_elem q_id (gjobs d)); congruence). destruct Hs' as [E|E]; congruence. }
  unfold gantt_init, save_assigns, flush. cbn [gpred gres]. split.
  - intros [[H _]%elem_of_list_filter|H]%elem_of_app; [by apply kept_in in H|]. apply elem_of_list_fmap in H as (y & E & [_ Hy]%elem_of_list_filter). apply current_in in Hy as (j' & Ha & ->). cbn in E. injection E as E1 E2. by apply (Hna j').
  - intros [[H _]%elem_of_list_filter|H]%elem_of_app; [by apply kept_in in H|]. apply elem_of_list_bind in H as (y & E & [_ Hy]%elem_of_list_filter). apply current_in in Hy as (j' & Ha & ->). apply elem_of_list_fmap in E as (k & E & _). cbn in E. injection E as E1 E2. by apply (Hna j').
Qed.
Definition res3 : list ores := [mkOres 10 "Alive"; mkOres 11 "Suspected"; mkOres 12 "Absent"].
Definition gdb1 : gdb := mkGdb
  [mkGjob 1 "Running" "None" 100 5 "default" "alice" "a" 0 []; mkGjob 2 "Waiting" "Scheduled" 500 0 "default" "bob" "b" 0 []; mkGjob 3 "Waiting" "None" 0 0 "default" "carol" "c" 0 []]
  [mkGmld 5 1 3600 true; mkGmld 6 2 3600 true; mkGmld 7 3 3600 true] [(5, 100); (6, 500); (7, 200)] [(5, 10); (6, 11); (6, 12); (7, 10)] [(5, 10)].
Example C43_case : NoDup (o_id <$> res3) /\ (forall j, active gdb1 j -> 0 <= q_start j /\ forall r, (q_mld j, r) ∈ gasg gdb1 -> usable res3 r) /\ (exists j, active gdb1 j) /\ accepted gdb1 6 /\
  gpred (gantt_init res3 gdb1) = [(6, 500); (5, 100)] /\ gres (gantt_init res3 gdb1) = [(6, 11); (6, 12); (5, 10)].
Proof.
  split; [by_dec|]. split; [|split; [|split; [|by vm_compute]]].
  - intros j Ha. apply active_iff in Ha as (Hj & Hs & _). cbn [gdb1 gjobs] in Hj. apply elem_of_cons in Hj as [->|Hj].
    + split; [done|]. intros r Hr. cbn in Hr. apply elem_of_list_singleton in Hr as [= ->]. exists (mkOres 10 "Alive"). split; [left|]. split; [done|by left].
    + exfalso. apply elem_of_cons in Hj as [->|Hj]; [|apply elem_of_list_singleton in Hj as ->]; revert Hs; by_dec.
  - exists (mkGjob 1 "Running" "None" 100 5 "default" "alice" "a" 0 []). split; [left|]. split; [by left|]. exists 10. left.
  - apply kept_in. vm_compute. left.
Qed.

(** * C79. Jobs are counted on their own resources *)
Definition chunk (l : list ores) (sec : Z) (c : lrow * list lrow) : ljob := mkLjob (w_job c.1) (w_mld c.1) (w_start c.1) (w_wall c.1 + sec) (i2o l <$> (w_rid <$> c.1 :: c.2)).
Definition flat (c : lrow * list lrow) : list lrow := c.1 :: c.2.
Definition same_id (c : lrow * list lrow) : Prop := forall y, y ∈ c.2 -> q_id (w_job y) = q_id (w_job c.1).
Lemma chunk_snoc l sec x t y : ladd l y (chunk l sec (x, t)) = chunk l sec (x, t ++ [y]).
Proof. unfold ladd, chunk. cbn [fst snd l_job l_mld l_start l_wall l_res]. by rewrite !fmap_cons, !fmap_app. Qed.
Lemma runs_chunks l sec x t rows : same_id (x, t) -> exists css, x :: t ++ rows = mjoin (flat <$> css) /\ runs l sec (chunk l sec (x, t)) rows = chunk l sec <$> css /\ Forall same_id css.
Proof.
  revert x t. induction rows as [|y rows IH]; intros x t Hs; cbn [runs].
  - exists [(x, t)]. split; [cbn; by rewrite !app_nil_r|]. split; [done|]. by apply Forall_singleton.
  - cbn [chunk l_job fst]. destruct (q_id (w_job y) =? q_id (w_job x)) eqn:E.
    + rewrite chunk_snoc. destruct (IH x (t ++ [y])) as (css & H1 & H2 & H3).
      { intros z [Hz|Hz]%elem_of_app; [by apply Hs|]. apply elem_of_list_singleton in Hz as ->. cbn. lia. }
      exists css. split; [|done]. rewrite <- H1. by rewrite <- app_assoc.
    + change (lstart l sec y) with (chunk l sec (y, [])). destruct (IH y []) as (css & H1 & H2 & H3); [by intros z ?%elem_of_nil|]. exists ((x, t) :: css). split; [|split; [cbn; by rewrite H2|by apply Forall_cons]].
      change (mjoin (flat <$> (x, t) :: css)) with ((x :: t) ++ mjoin (flat <$> css)). by rewrite <- H1.
Qed.
Lemma extract_chunks l sec rows : exists css, rows = mjoin (flat <$> css) /\ extract l sec rows = chunk l sec <$> css /\ Forall same_id css.
Proof.
  destruct rows as [|x rows]; [exists []; done|]. cbn [extract]. change (lstart l sec x) with (chunk l sec (x, [])). destruct (runs_chunks l sec x [] rows) as (css & H1 & H2 & H3); [by intros z ?%elem_of_nil|]. by exists css.
Qed.
Lemma extract_in l sec rows j : j ∈ extract l sec rows -> exists x t, j = chunk l sec (x, t) /\ same_id (x, t) /\ forall y, y ∈ x :: t -> y ∈ rows.
Proof.
  destruct (extract_chunks l sec rows) as (css & H1 & H2 & H3). rewrite H2. intros ([x t] & -> & Hc)%elem_of_list_fmap. exists x, t. split; [done|]. rewrite Forall_forall in H3. split; [by apply (H3 (x, t))|].
  intros y Hy. rewrite H1. apply elem_of_list_join. exists (flat (x, t)). split; [done|]. apply elem_of_list_fmap. by exists (x, t).
Qed.
Lemma runs_run l sec x t t' rest : same_id (x, t') -> runs l sec (chunk l sec (x, t)) (t' ++ rest) = runs l sec (chunk l sec (x, t ++ t')) rest.
Proof.
  revert t. induction t' as [|y t' IH]; intros t Hs; [by rewrite app_nil_r|]. cbn [app runs]. cbn [chunk l_job fst]. replace (q_id (w_job y) =? q_id (w_job x)) with true by (pose proof (Hs y ltac:(left)) as E; cbn in E; lia).
  rewrite chunk_snoc, IH; [by rewrite <- app_assoc|]. intros z Hz. apply Hs. by right.
Qed.
Lemma runs_grouped l sec x t css : same_id (x, t) -> NoDup (q_id (w_job x) :: css.*1) -> (forall c : Z * list lrow, c ∈ css -> c.2 <> [] /\ forall y, y ∈ c.2 -> q_id (w_job y) = c.1) ->
  exists cs, runs l sec (chunk l sec (x, t)) (mjoin css.*2) = chunk l sec <$> (x, t) :: cs /\ flat <$> cs = css.*2 /\ (fun c => q_id (w_job c.1)) <$> cs = css.*1.
Proof.
  revert x t. induction css as [|[i c] css IH]; intros x t Hs HN Hc; [exists []; done|]. destruct (Hc (i, c) ltac:(left)) as [Hne Hid]. destruct c as [|y c]; [done|]. cbn [snd fst] in Hid. change (mjoin ((i, y :: c) :: css).*2) with (y :: c ++ mjoin css.*2). cbn [runs]. cbn [chunk l_job fst].
  assert (q_id (w_job y) = i) as Hy by (apply Hid; left). cbn [fmap list_fmap fst] in HN. apply NoDup_cons in HN as [HN1 HN2].
  replace (q_id (w_job y) =? q_id (w_job x)) with false by (symmetry; apply Z.eqb_neq; intros E; apply HN1; rewrite <- E, Hy; left).
  change (lstart l sec y) with (chunk l sec (y, [])). rewrite runs_run by (intros z Hz; cbn; rewrite Hy; apply Hid; by right). cbn [app].
  destruct (IH y c) as (cs & H1 & H2 & H3); [intros z Hz; cbn; rewrite Hy; apply Hid; by right|by rewrite Hy|intros c' Hc'; apply Hc; by right|].
  exists ((y, c) :: cs). rewrite H1. split; [done|]. cbn [fmap list_fmap flat fst snd]. by rewrite H2, H3, Hy.
Qed.
Lemma extract_grouped l sec rows : grouped rows -> exists cs, rows = mjoin (flat <$> cs) /\ extract l sec rows = chunk l sec <$> cs /\ Forall same_id cs /\ NoDup ((fun c => q_id (w_job c.1)) <$> cs).
Proof.
  intros (css & -> & HN & Hc). destruct css as [|[i c] css]; [exists []; split; [done|]; split; [done|]; split; [by apply Forall_nil|apply NoDup_nil_2]|].
  destruct (Hc (i, c) ltac:(left)) as [Hne Hid]. destruct c as [|x c]; [done|]. cbn [snd fst] in Hid. assert (q_id (w_job x) = i) as Hx by (apply Hid; left).
  change (mjoin ((i, x :: c) :: css).*2) with (x :: c ++ mjoin css.*2). cbn [extract]. change (lstart l sec x) with (chunk l sec (x, [])).
  assert (same_id (x, c)) as Hs by (intros z Hz; cbn; rewrite Hx; apply Hid; by right). rewrite runs_run by done. cbn [app].
  destruct (runs_grouped l sec x c css) as (cs & H1 & H2 & H3); [done|by rewrite Hx|intros c' Hc'; apply Hc; by right|].
  exists ((x, c) :: cs). rewrite H1. split; [change (mjoin (flat <$> (x, c) :: cs)) with (x :: c ++ mjoin (flat <$> cs)); by rewrite H2|]. split; [done|]. split; [|cbn [fmap list_fmap fst]; by rewrite H3, Hx].
  apply Forall_cons. split; [done|]. apply Forall_forall. intros [y t] Hin z Hz. cbn in *.
  assert (flat (y, t) ∈ css.*2) as Hf by (rewrite <- H2; apply elem_of_list_fmap; by exists (y, t)). apply elem_of_list_fmap in Hf as ([i' c'] & E & Hc'). cbn in E. destruct (Hc (i', c') ltac:(by right)) as [_ Hid']. cbn in Hid'. rewrite <- E in Hid'. rewrite (Hid' z) by (by right). by rewrite (Hid' y) by left.
Qed.
(** Refuted: a job with a resource that is down is counted on the first resource, also when that one was
    given to another job. *)
Theorem C79_down_refuted l sec rows j x : j ∈ extract l sec rows -> x ∈ rows -> (forall y, y ∈ rows -> q_id (w_job y) = q_id (w_job x)) -> ~ usable l (w_rid x) -> forall r, l !! 0%nat = Some r -> counted_on l j (o_id r).
Proof.
  intros Hj Hx Hall Hn r Hr. exists 0, r. split; [|done].
  destruct (extract_grouped l sec rows) as (cs & H1 & H2 & H3 & H4).
  { exists [(q_id (w_job x), rows)]. cbn. rewrite app_nil_r. split; [done|]. split; [apply NoDup_singleton|]. intros c ->%elem_of_list_singleton. cbn. split; [|done]. intros ->. by apply elem_of_nil in Hx. }
  rewrite H2 in Hj. apply elem_of_list_fmap in Hj as ([y t] & -> & Hc). rewrite H1 in Hx. apply elem_of_list_join in Hx as (c' & Hxc & Hc'). apply elem_of_list_fmap in Hc' as ([y' t'] & -> & Hc').
  assert (y' :: t' = y :: t) as E.
  { assert (Hid : forall z, z ∈ cs -> q_id (w_job z.1) = q_id (w_job x)) by (intros z Hz; apply Hall; rewrite H1; apply elem_of_list_join; exists (flat z); split; [left|apply elem_of_list_fmap; by exists z]).
    assert ((y', t') = (y, t)) as [= -> ->]; [|done]. revert Hc Hc' H4 Hid. clear. intros H1 H2 H4 Hid. induction cs as [|c cs IH]; [by apply elem_of_nil in H1|]. cbn [fmap list_fmap] in H4. apply NoDup_cons in H4 as [H4 _].
    destruct cs as [|c2 cs]; [apply elem_of_list_singleton in H1, H2; congruence|]. exfalso. apply H4. cbn [fmap list_fmap]. rewrite (Hid c) by left. rewrite (Hid c2) by (right; left). left. }
  cbn [chunk l_res fst snd]. rewrite <- E. apply elem_of_list_fmap. exists (w_rid x). split; [by rewrite i2o_not|]. apply elem_of_list_fmap. by exists x.
Qed.
(** With resources in use only: exactly its own. *)
Theorem C79_own_partial l sec rows j : NoDup (o_id <$> l) -> grouped rows -> (forall x, x ∈ rows -> usable l (w_rid x)) -> j ∈ extract l sec rows ->
  forall id, counted_on l j id <-> exists x, x ∈ rows /\ q_id (w_job x) = q_id (l_job j) /\ w_rid x = id.
Proof.
  intros HN Hg Hu Hj id. destruct (extract_grouped l sec rows Hg) as (cs & H1 & H2 & H3 & H4). rewrite H2 in Hj. apply elem_of_list_fmap in Hj as ([y t] & -> & Hc).
  assert (Hin : forall z, z ∈ y :: t -> z ∈ rows) by (intros z Hz; rewrite H1; apply elem_of_list_join; exists (flat (y, t)); split; [done|apply elem_of_list_fmap; by exists (y, t)]).
  rewrite Forall_forall in H3. pose proof (H3 _ Hc) as Hs. unfold counted_on. cbn [chunk l_res l_job fst snd]. split.
  - intros (k & x & Hk & _ & Hl & Hid). apply elem_of_list_fmap in Hk as (r & -> & Hr). apply elem_of_list_fmap in Hr as (z & -> & Hz). exists z. split; [by apply Hin|]. split; [apply elem_of_cons in Hz as [->|Hz]; [done|by apply Hs]|].
    destruct (i2o_use l (w_rid z) HN (Hu z (Hin z Hz))) as (n & x' & E & Hl' & Hid' & _). rewrite E, Nat2Z.id, Hl' in Hl. congruence.
  - intros (z & Hz & Ez & <-). destruct (i2o_use l (w_rid z) HN (Hu z Hz)) as (n & x' & E & Hl' & Hid' & _). exists (i2o l (w_rid z)), x'. rewrite E, Nat2Z.id. split; [|split; [lia|done]]. rewrite <- E. apply elem_of_list_fmap. exists (w_rid z). split; [done|]. apply elem_of_list_fmap. exists z. split; [done|].
    rewrite H1 in Hz. apply elem_of_list_join in Hz as (c' & Hzc & Hc'). apply elem_of_list_fmap in Hc' as ([y' t'] & -> & Hc'). pose proof (H3 _ Hc') as Hs'.
    assert (q_id (w_job y') = q_id (w_job z)) as E' by (apply elem_of_cons in Hzc as [->|Hzc]; [done|symmetry; by apply Hs']).
    assert ((y', t') = (y, t)) as [= -> ->]; [|done]. apply (same_elem (fun c => q_id (w_job c.1)) cs); try done. cbn. congruence.
Qed.
Lemma grouped_complete (cs : list (lrow * list lrow)) y t z : Forall same_id cs -> NoDup ((fun c => q_id (w_job c.1)) <$> cs) -> (y, t) ∈ cs -> z ∈ mjoin (flat <$> cs) -> q_id (w_job z) = q_id (w_job y) -> z ∈ y :: t.
Proof.
  intros H3 H4 Hc Hz E. rewrite Forall_forall in H3. apply elem_of_list_join in Hz as (c' & Hzc & Hc'). apply elem_of_list_fmap in Hc' as ([y' t'] & -> & Hc'). pose proof (H3 _ Hc') as Hs'.
  assert (q_id (w_job y') = q_id (w_job z)) as E' by (apply elem_of_cons in Hzc as [->|Hzc]; [done|symmetry; by apply Hs']).
  assert ((y', t') = (y, t)) as [= -> ->]; [|done]. apply (same_elem (fun c => q_id (w_job c.1)) cs); try done. cbn. congruence.
Qed.

(** * C83. A best-effort job that shares its resource is left alone *)
(** Refuted: whatever the types of the two jobs. *)
Theorem C83_share_refuted j1 j2 : share j1 j2 = false.
Proof.
  assert (ts_of j1 = None) as H; [|unfold share; by rewrite H]. unfold ts_of. destruct (filter _ (q_types j1)) as [|p k] eqn:E; [done|]. exfalso.
  assert (p ∈ filter (fun p => p.1 = "timesharing"%string) (q_types j1)) as Hp by (rewrite E; left). apply elem_of_list_filter in Hp as [Hp1 Hp]. unfold q_types in Hp. apply elem_of_list_filter in Hp as [Hp2 _]. apply Hp2. rewrite Hp1. left.
Qed.

(** * C44. Launch *)
Lemma dfind_dput {A} k k' (v : A) l : dfind k (dput k' v l) = if k =? k' then Some v else dfind k l.
Proof.
  induction l as [|[a b] l IH]; cbn [dput dfind]; [done|]. destruct (k' =? a) eqn:E; cbn [dfind].
  - destruct (k =? k') eqn:E2; [done|]. by replace (k =? a) with false by lia.
  - destruct (k =? a) eqn:E2; [by replace (k =? k') with false by lia|done].
Qed.
Lemma dput_in {A} k (v : A) l p : p ∈ dput k v l -> p = (k, v) \/ p ∈ l.
Proof.
  induction l as [|[a b] l IH]; cbn [dput]; [intros ->%elem_of_list_singleton; by left|]. destruct (k =? a); intros [->|H]%elem_of_cons; [by left|right; by right|right; left|]. destruct (IH H) as [?|?]; [by left|right; by right].
Qed.
Lemma dput_has {A} k (v : A) l : (k, v) ∈ dput k v l.
Proof. induction l as [|[a b] l IH]; cbn [dput]; [left|]. destruct (k =? a); [left|by right]. Qed.
Lemma dput_keeps {A} k (v : A) l k' : k' ∈ l.*1 -> k' ∈ (dput k v l).*1.
Proof.
  induction l as [|[a b] l IH]; cbn [dput fmap list_fmap fst]; [by intros ?%elem_of_nil|]. destruct (k =? a) eqn:E; intros [->|H]%elem_of_cons; cbn [fmap list_fmap fst].
  - replace k with a by lia. left.
  - by right.
  - left.
  - right. by apply IH.
Qed.
Lemma fold_dput_keys {A B} (f : B -> Z) (g : B -> A) rows a k : k ∈ a.*1 \/ (exists x, x ∈ rows /\ f x = k) -> k ∈ (fold_left (fun a x => dput (f x) (g x) a) rows a).*1.
Proof.
  revert a. induction rows as [|x rows IH]; intros a H; cbn [fold_left]; [by destruct H as [?|(y & ?%elem_of_nil & _)]|]. apply IH. destruct H as [H|(y & [->|Hy]%elem_of_cons & <-)]; [left; by apply dput_keeps| |right; by exists y].
  left. apply elem_of_list_fmap. exists (f x, g x). split; [done|]. apply dput_has.
Qed.
Lemma fold_dput_in {A B} (f : B -> Z) (g : B -> A) rows a p : p ∈ fold_left (fun a x => dput (f x) (g x) a) rows a -> p ∈ a \/ exists x, x ∈ rows /\ p = (f x, g x).
Proof.
  revert a. induction rows as [|x rows IH]; intros a H; cbn [fold_left] in H; [by left|]. destruct (IH _ H) as [H1|(y & Hy & ->)]; [|right; exists y; split; [by right|done]]. apply dput_in in H1 as [->|?]; [right; exists x; split; [left|done]|by left].
Qed.
Lemma fold_dput_find {A B} (f : B -> Z) (g : B -> A) rows a k : (exists v, dfind k a = Some v) \/ (exists x, x ∈ rows /\ f x = k) -> exists v, dfind k (fold_left (fun a x => dput (f x) (g x) a) rows a) = Some v.
Proof.
  revert a. induction rows as [|x rows IH]; intros a H; cbn [fold_left]; [by destruct H as [?|(y & ?%elem_of_nil & _)]|]. apply IH. rewrite dfind_dput. destruct (k =? f x) eqn:E; [left; by eexists|]. destruct H as [H|(y & [->|Hy]%elem_of_cons & <-)]; [by left|lia|right; by exists y].
Qed.
Lemma be_test j : existsb (fun p => bool_decide (p.1 = "besteffort"%string)) (q_types j) = true <-> is_besteffort j.
Proof.
  unfold is_besteffort, q_types. rewrite existsb_exists. split.
  - intros ([a v] & Hin & E). apply bool_decide_eq_true_1 in E. cbn in E. subst. apply elem_of_list_In, elem_of_list_filter in Hin as [_ Hin]. by exists v.
  - intros [v Hv]. exists ("besteffort"%string, v). split; [|by apply bool_decide_eq_true_2]. apply elem_of_list_In, elem_of_list_filter. split; [|done]. cbn. by_dec.
Qed.
Lemma be_fold sched a k : (exists v, dfind k a = Some v) \/ (exists s, s ∈ sched /\ is_besteffort (l_job s) /\ k ∈ l_res s) ->
  exists v, dfind k (fold_left (fun a j => if existsb (fun p => bool_decide (p.1 = "besteffort"%string)) (q_types (l_job j)) then fold_left (fun a k => dput k (l_job j) a) (l_res j) a else a) sched a) = Some v.
Proof.
  revert a. induction sched as [|s sched IH]; intros a H; cbn [fold_left]; [by destruct H as [?|(y & ?%elem_of_nil & _)]|]. apply IH. destruct (existsb _ _) eqn:E.
  - destruct H as [H|(y & [->|Hy]%elem_of_cons & Hb & Hk)]; [left|left|right; by exists y]; apply (fold_dput_find (fun k => k) (fun _ => l_job s)); [by left|right; by exists k].
  - destruct H as [H|(y & [->|Hy]%elem_of_cons & Hb & Hk)]; [by left| |right; by exists y]. apply be_test in Hb. congruence.
Qed.
Lemma fold_dput_val {A} (ks : list Z) (v : A) a k b : dfind k (fold_left (fun a k => dput k v a) ks a) = Some b -> dfind k a = Some b \/ k ∈ ks /\ b = v.
Proof.
  revert a. induction ks as [|x ks IH]; intros a H; cbn [fold_left] in H; [by left|]. destruct (IH _ H) as [H1|[H1 ->]]; [|right; split; [by right|done]]. rewrite dfind_dput in H1. destruct (k =? x) eqn:E; [|by left]. right. injection H1 as <-. split; [|done]. replace k with x by lia. left.
Qed.
Lemma be_fold_inv sched a k b : dfind k (fold_left (fun a j => if existsb (fun p => bool_decide (p.1 = "besteffort"%string)) (q_types (l_job j)) then fold_left (fun a k => dput k (l_job j) a) (l_res j) a else a) sched a) = Some b ->
  dfind k a = Some b \/ exists s, s ∈ sched /\ is_besteffort (l_job s) /\ k ∈ l_res s /\ b = l_job s.
Proof.
  revert a. induction sched as [|s sched IH]; intros a H; cbn [fold_left] in H; [by left|]. destruct (IH _ H) as [H1|(y & Hy & H1)]; [|right; exists y; split; [by right|done]]. destruct (existsb _ _) eqn:E in H1; [|by left].
  apply fold_dput_val in H1 as [H1|[H1 ->]]; [by left|]. right. exists s. split; [left|]. split; [by apply be_test|done].
Qed.
Lemma be_map_has sched k s : s ∈ sched -> is_besteffort (l_job s) -> k ∈ l_res s -> exists b, dfind k (be_map sched) = Some b.
Proof. intros H1 H2 H3. apply be_fold. right. by exists s. Qed.
Lemma be_map_from sched k b : dfind k (be_map sched) = Some b -> exists s, s ∈ sched /\ is_besteffort (l_job s) /\ k ∈ l_res s /\ b = l_job s.
Proof. intros H. apply be_fold_inv in H as [H|H]; done. Qed.
Lemma to_kill_spec be jobs items fr out : to_kill be jobs items fr = Ok out ->
  (forall i, i ∈ fr -> i ∈ out) /\ (forall k jid b, (k, jid) ∈ items -> dfind k be = Some b -> q_id b ∈ out) /\
  (forall i, i ∈ out -> i ∈ fr \/ exists k jid b, (k, jid) ∈ items /\ dfind k be = Some b /\ q_id b = i).
Proof.
  revert fr. induction items as [|[k jid] items IH]; intros fr H; cbn [to_kill] in H; [injection H as <-; split; [done|]; split; [by intros ? ? ? ?%elem_of_nil|tauto]|].
  destruct (dfind k be) as [b|] eqn:Eb.
  - destruct (dfind jid jobs) as [j|]; [|done]. rewrite C83_share_refuted in H. case_bool_decide as Ef.
    + destruct (IH _ H) as (H1 & H2 & H3). split; [done|]. split.
      * intros k' jid' b' [[= -> ->]|Hin]%elem_of_cons Hb; [|by apply (H2 k' jid')]. rewrite Eb in Hb. injection Hb as <-. by apply H1.
      * intros i Hi. destruct (H3 i Hi) as [?|(k' & jid' & b' & Hin & Hb)]; [by left|]. right. exists k', jid', b'. split; [by right|done].
    + destruct (0 <? q_ckpt b); [done|]. destruct (IH _ H) as (H1 & H2 & H3). split; [intros i Hi; apply H1; apply elem_of_app; by left|]. split.
      * intros k' jid' b' [[= -> ->]|Hin]%elem_of_cons Hb; [|by apply (H2 k' jid')]. rewrite Eb in Hb. injection Hb as <-. apply H1, elem_of_app. right. left.
      * intros i Hi. destruct (H3 i Hi) as [[?|Hi']%elem_of_app|(k' & jid' & b' & Hin & Hb)]; [by left| |right; exists k', jid', b'; split; [by right|done]]. apply elem_of_list_singleton in Hi' as ->. right. exists k, jid, b. split; [left|done].
  - destruct (IH _ H) as (H1 & H2 & H3). split; [done|]. split.
    + intros k' jid' b' [[= -> ->]|Hin]%elem_of_cons Hb; [congruence|by apply (H2 k' jid')].
    + intros i Hi. destruct (H3 i Hi) as [?|(k' & jid' & b' & Hin & Hb)]; [by left|]. right. exists k', jid', b'. split; [by right|done].
Qed.
(** A resource needed by a job to be launched, now or soon, and held by a best-effort job: nothing is
    launched, and such a best-effort job is deleted. *)
Theorem C44_kill_first l sec now rows sched d d' sent kills x s : finish_round l sec now rows sched d = Ok (d', sent, kills) ->
  x ∈ rows -> s ∈ sched -> is_besteffort (l_job s) -> i2o l (w_rid x) ∈ l_res s ->
  sent = [] /\ d' = d /\ exists s', s' ∈ sched /\ is_besteffort (l_job s') /\ i2o l (w_rid x) ∈ l_res s' /\ q_id (l_job s') ∈ kills.
Proof.
  intros H Hx Hs Hb Hk. unfold finish_round in H. apply rbind_Ok in H as (k & Hkill & H). destruct (to_kill_spec _ _ _ _ _ Hkill) as (_ & H2 & _).
  destruct (be_map_has sched _ s Hs Hb Hk) as [b Eb]. assert (i2o l (w_rid x) ∈ (rid2jid l rows).*1) as Hin by (apply (fold_dput_keys (fun x => i2o l (w_rid x)) (fun x => q_id (w_job x))); right; by exists x).
  apply elem_of_list_fmap in Hin as ([k0 jid] & E & Hin). cbn in E. subst k0. pose proof (H2 _ _ _ Hin Eb) as Hk2. destruct (be_map_from _ _ _ Eb) as (s' & Hs' & Hb' & Hk' & ->).
  rewrite bool_decide_eq_false_2 in H by (intros ->; by apply elem_of_nil in Hk2). injection H as <- <- <-. split; [done|]. split; [done|]. by exists s'.
Qed.
(** Only best-effort jobs in the way are deleted. *)
Theorem C44_kill_only l sec now rows sched d d' sent kills i : finish_round l sec now rows sched d = Ok (d', sent, kills) -> i ∈ kills ->
  exists s x, s ∈ sched /\ is_besteffort (l_job s) /\ q_id (l_job s) = i /\ x ∈ rows /\ i2o l (w_rid x) ∈ l_res s.
Proof.
  intros H Hi. unfold finish_round in H. apply rbind_Ok in H as (k & Hkill & H). destruct (to_kill_spec _ _ _ _ _ Hkill) as (_ & _ & H3).
  assert (i ∈ k) as Hik by (case_bool_decide; injection H as <- <- <-; [by apply elem_of_nil in Hi|done]). destruct (H3 i Hik) as [?%elem_of_nil|(k' & jid & b & Hin & Eb & <-)]; [done|].
  destruct (be_map_from _ _ _ Eb) as (s & Hs & Hb & Hk & ->). apply (fold_dput_in (fun x => i2o l (w_rid x)) (fun x => q_id (w_job x))) in Hin as [?%elem_of_nil|(x & Hx & E)]; [done|]. injection E as -> _. exists s, x. done.
Qed.
Lemma launch_sent now js s : NoDup s.2 -> NoDup (fold_left (launch_one now) js s).2 /\ (forall i, i ∈ (fold_left (launch_one now) js s).2 <-> i ∈ s.2 \/ exists j, j ∈ js /\ q_id (l_job j) = i).
Proof.
  revert s. induction js as [|j js IH]; intros s HN; cbn [fold_left]; [split; [done|]; intros i; split; [by left|intros [?|(j & ?%elem_of_nil & _)]; done]|].
  destruct (IH (launch_one now s j)) as [H1 H2].
  { unfold launch_one. cbn [snd]. case_bool_decide; [done|]. apply NoDup_app. split; [done|]. split; [|apply NoDup_singleton]. intros x Hx ->%elem_of_list_singleton. done. }
  split; [done|]. intros i. rewrite H2. unfold launch_one at 1. cbn [snd]. split.
  - intros [Hi|(j' & Hj' & E)]; [|right; exists j'; split; [by right|done]]. case_bool_decide; [by left|]. apply elem_of_app in Hi as [?|Hi]; [by left|]. apply elem_of_list_singleton in Hi as ->. right. exists j. split; [left|done].
  - intros [Hi|(j' & [->|Hj']%elem_of_cons & E)]; [left; case_bool_decide; [done|apply elem_of_app; by left]|left; subst i; case_bool_decide; [done|apply elem_of_app; right; left]|right; by exists j'].
Qed.
(** One launch at most for each job. *)
Theorem C44_once l sec now rows sched d d' sent kills : finish_round l sec now rows sched d = Ok (d', sent, kills) -> NoDup sent.
Proof.
  intros H. unfold finish_round in H. apply rbind_Ok in H as (k & _ & H). case_bool_decide; injection H as <- <- <-; [|apply NoDup_nil_2]. apply launch_sent. apply NoDup_nil_2.
Qed.
Lemma gantt_rows_in P d x : x ∈ gantt_rows P d <-> exists m, m ∈ gmlds d /\ m_id m = w_mld x /\ m_job m = q_id (w_job x) /\ w_job x ∈ gjobs d /\ (w_mld x, w_start x) ∈ gpred d /\ (w_mld x, w_rid x) ∈ gres d /\ w_wall x = m_wall m /\ P (w_job x) m (w_start x) = true.
Proof.
  unfold gantt_rows. rewrite elem_of_list_bind. split.
  - intros ([pm pt] & H & Hp). apply elem_of_list_bind in H as (m & H & [Em Hm]%elem_of_list_filter). apply elem_of_list_bind in H as (j & H & [Ej Hj]%elem_of_list_filter). apply elem_of_list_bind in H as ([rm rr] & H & [Er Hr]%elem_of_list_filter). cbn [fst snd] in *. subst rm.
    destruct (P j m pt) eqn:EP; [|by apply elem_of_nil in H]. apply elem_of_list_singleton in H as ->. cbn. by exists m.
  - intros (m & Hm & Em & Ej & Hj & Hp & Hr & Ew & EP). exists (w_mld x, w_start x). split; [|done]. apply elem_of_list_bind. exists m. split; [|by apply elem_of_list_filter]. apply elem_of_list_bind. exists (w_job x). split; [|by apply elem_of_list_filter]. apply elem_of_list_bind. exists (w_mld x, w_rid x). split; [|by apply elem_of_list_filter].
    cbn [fst snd]. rewrite EP. apply elem_of_list_singleton. destruct x. cbn in *. by subst.
Qed.
Lemma launch_rows_in date d x : x ∈ launch_rows date d <-> exists m, m ∈ gmlds d /\ m_id m = w_mld x /\ m_job m = q_id (w_job x) /\ w_job x ∈ gjobs d /\ (w_mld x, w_start x) ∈ gpred d /\ (w_mld x, w_rid x) ∈ gres d /\ w_wall x = m_wall m /\ (w_start x <=? date) && bool_decide (q_state (w_job x) = "Waiting"%string) = true.
Proof. exact (gantt_rows_in (fun j _ st => (st <=? date) && bool_decide (q_state j = "Waiting"%string)) d x). Qed.
(** What is launched: a waiting job whose predicted start is reached and none of whose resources is
    Absent. *)
Theorem C44_due_partial l sec now date rows sched d d' sent kills i : NoDup (o_id <$> l) -> rows ≡ₚ launch_rows date d -> grouped rows -> finish_round l sec now rows sched d = Ok (d', sent, kills) -> i ∈ sent ->
  exists j m t, job_of d m j /\ q_id j = i /\ q_state j = "Waiting"%string /\ (m, t) ∈ gpred d /\ t <= now /\ (exists r, (m, r) ∈ gres d) /\
    forall r x, (m, r) ∈ gres d -> x ∈ l -> o_id x = r -> o_state x <> "Absent"%string.
Proof.
  intros HN HP Hg H Hi. unfold finish_round in H. apply rbind_Ok in H as (k & _ & H). case_bool_decide; [|injection H as <- <- <-; by apply elem_of_nil in Hi]. injection H as _ <- _.
  apply launch_sent in Hi as [?%elem_of_nil|(j & Hj & <-)]; [done| |apply NoDup_nil_2]. apply elem_of_list_filter in Hj as [[Hst Hab] Hj].
  destruct (extract_grouped l sec rows Hg) as (cs & H1 & H2 & H3 & H4). rewrite H2 in Hj. apply elem_of_list_fmap in Hj as ([y t] & -> & Hc). cbn [chunk l_job l_start l_res fst snd] in *.
  assert (y ∈ rows) as Hy by (rewrite H1; apply elem_of_list_join; exists (flat (y, t)); split; [left|apply elem_of_list_fmap; by exists (y, t)]).
  rewrite HP in Hy. apply launch_rows_in in Hy as (m & Hm & Em & Ej & Hjob & Hpred & Hres & Hw & HP2). pose proof HP2 as HP3. apply andb_prop in HP3 as [Hd Hwait]. apply bool_decide_eq_true_1 in Hwait.
  exists (w_job y), (w_mld y), (w_start y). split; [split; [done|]; by exists m|]. split; [done|]. split; [done|]. split; [done|]. split; [done|]. split; [by exists (w_rid y)|].
  intros r x Hr Hx Hid Habs.
  assert (mkLrow (w_job y) (w_mld y) (w_start y) (m_wall m) r ∈ rows) as Hz by (rewrite HP; apply launch_rows_in; exists m; done).
  rewrite H1 in Hz. apply (grouped_complete cs y t) in Hz; [|done|done|done|done].
  assert (is_absent l (i2o l r)) as Hia.
  { destruct (i2o_use l r HN) as (n & x' & E & Hl & Hid' & _); [exists x; split; [done|]; split; [done|by right]|]. rewrite E. unfold is_absent. rewrite Nat2Z.id, Hl. split; [lia|].
    assert (x' = x) as ->; [|done]. apply (same_elem o_id l); [done|by eapply elem_of_list_lookup_2|done|congruence]. }
  assert (i2o l r ∈ filter (is_absent l) (i2o l <$> (w_rid <$> y :: t))) as Hf. { apply elem_of_list_filter. split; [done|]. apply elem_of_list_fmap. exists r. split; [done|]. apply elem_of_list_fmap. by exists (mkLrow (w_job y) (w_mld y) (w_start y) (m_wall m) r). }
  rewrite Hab in Hf. by apply elem_of_nil in Hf.
Qed.
(** What a launch does to the jobs. *)
Lemma set_launched_jobs id now m d j : j ∈ gjobs (set_launched id now m d) -> (q_id j = id /\ q_state j = "toLaunch"%string /\ q_start j = now) \/ (q_id j <> id /\ j ∈ gjobs d).
Proof. unfold set_launched. cbn [gjobs]. intros (x & -> & Hx)%elem_of_list_fmap. destruct (q_id x =? id) eqn:E; [left; cbn; split; [lia|done]|right; split; [lia|done]]. Qed.
Lemma launch_one_jobs now s j x : x ∈ gjobs (launch_one now s j).1 -> (q_id x = q_id (l_job j) /\ q_state x = "toLaunch"%string /\ q_start x = now) \/ (q_id x <> q_id (l_job j) /\ x ∈ gjobs s.1).
Proof. unfold launch_one. cbn [fst]. intros H. apply set_launched_jobs in H as [?|[? ?]]; [by left|]. right. split; [done|]. by destruct (_ && _) in H0. Qed.
Lemma launch_jobs now js s x : x ∈ gjobs (fold_left (launch_one now) js s).1 -> ((exists j, j ∈ js /\ q_id (l_job j) = q_id x) /\ q_state x = "toLaunch"%string /\ q_start x = now) \/ ((forall j, j ∈ js -> q_id (l_job j) <> q_id x) /\ x ∈ gjobs s.1).
Proof.
  revert s. induction js as [|j js IH]; intros s H; cbn [fold_left] in H; [right; split; [by intros ? ?%elem_of_nil|done]|].
  destruct (IH _ H) as [((j' & Hj' & E) & H1)|[H1 H2]]; [left; split; [exists j'; split; [by right|done]|done]|].
  apply launch_one_jobs in H2 as [(E & Hs & Ht)|[E Hx]]; [left; split; [exists j; split; [left|done]|done]|]. right. split; [|done]. intros j' [->|Hj']%elem_of_cons; [congruence|by apply H1].
Qed.
Theorem C44_effect l sec now rows sched d d' sent kills x : finish_round l sec now rows sched d = Ok (d', sent, kills) -> x ∈ gjobs d' ->
  (q_id x ∈ sent /\ q_state x = "toLaunch"%string /\ q_start x = now) \/ (q_id x ∉ sent /\ x ∈ gjobs d).
Proof.
  intros H Hx. unfold finish_round in H. apply rbind_Ok in H as (k & _ & H). case_bool_decide; injection H as <- <- <-; [|right; split; [apply not_elem_of_nil|done]].
  apply launch_jobs in Hx as [(Hj & Hs)|[Hj Hx]]; [left|right]; (split; [|done]).
  - apply launch_sent; [apply NoDup_nil_2|]. by right.
  - intros Hi. apply launch_sent in Hi as [?%elem_of_nil|(j & Hj' & E)]; [done| |apply NoDup_nil_2]. by apply (Hj j).
Qed.
(** Refuted: a resource that is down, but not Absent, does not prevent the launch. *)
Theorem C44_down_refuted l sec now date d x x0 : launch_rows date d = [x] -> w_start x <= now -> ~ usable l (w_rid x) -> l !! 0%nat = Some x0 -> o_state x0 = "Alive"%string ->
  exists d', finish_round l sec now (launch_rows date d) [] d = Ok (d', [q_id (w_job x)], []).
Proof.
  intros -> Hst Hn Hl Ha. unfold finish_round. cbn [extract runs rid2jid fold_left dput to_kill be_map dfind]. cbn [rbind].
  rewrite bool_decide_eq_true_2 by done. assert (filter (ready l now) [lstart l sec x] = [lstart l sec x]) as ->.
  { rewrite filter_cons_True; [done|]. split; [done|]. unfold lstart. cbn [l_res]. rewrite i2o_not by done. rewrite filter_cons_False; [done|]. intros [_ H]. change (Z.to_nat 0) with 0%nat in H. rewrite Hl in H. congruence. }
  cbn [fold_left]. unfold launch_one. cbn [fst snd]. rewrite (bool_decide_eq_false_2 (_ ∈ [])) by apply not_elem_of_nil. by eexists.
Qed.
Lemma to_kill_ckpt be jobs items fr out : to_kill be jobs items fr = Ok out -> forall i, i ∈ out -> i ∈ fr \/ exists k b, dfind k be = Some b /\ q_ckpt b <= 0.
Proof.
  revert fr. induction items as [|[k jid] items IH]; intros fr H i Hi; cbn [to_kill] in H; [injection H as <-; by left|].
  destruct (dfind k be) as [b|] eqn:Eb; [|by apply (IH fr)]. destruct (dfind jid jobs) as [j|]; [|done]. rewrite C83_share_refuted in H. case_bool_decide; [by apply (IH fr)|]. destruct (0 <? q_ckpt b) eqn:Ec; [done|].
  destruct (IH _ H i Hi) as [[?|_]%elem_of_app|?]; [by left| |by right]. right. exists k, b. split; [done|lia].
Qed.
(** Refuted: a best-effort job with a checkpoint in the way stops the round with an error. *)
Theorem C44_checkpoint_refuted l sec now rows sched d x s : x ∈ rows -> s ∈ sched -> is_besteffort (l_job s) -> i2o l (w_rid x) ∈ l_res s -> (forall s', s' ∈ sched -> is_besteffort (l_job s') -> 0 < q_ckpt (l_job s')) ->
  forall out, finish_round l sec now rows sched d <> Ok out.
Proof.
  intros Hx Hs Hb Hk Hall [[d' sent] kills] H. destruct (C44_kill_first _ _ _ _ _ _ _ _ _ _ _ H Hx Hs Hb Hk) as (_ & _ & s' & _ & _ & _ & Hi).
  unfold finish_round in H. apply rbind_Ok in H as (k & Hkill & H).
  assert (q_id (l_job s') ∈ k) as Hik by (case_bool_decide; injection H as <- <- <-; [by apply elem_of_nil in Hi|done]).
  destruct (to_kill_ckpt _ _ _ _ _ Hkill _ Hik) as [?%elem_of_nil|(k' & b & Eb & Hc)]; [done|]. destruct (be_map_from _ _ _ Eb) as (s2 & Hs2 & Hb2 & _ & ->). specialize (Hall s2 Hs2 Hb2). lia.
Qed.
Definition res4 : list ores := [mkOres 10 "Alive"; mkOres 11 "Alive"; mkOres 12 "Alive"; mkOres 13 "Absent"].
Definition jobA : gjob := mkGjob 1 "Waiting" "None" 0 0 "default" "alice" "a" 0 [].
Definition jobB : gjob := mkGjob 2 "Waiting" "None" 0 0 "default" "bob" "b" 0 [].
Definition gdb2 : gdb := mkGdb [jobA; jobB] [mkGmld 5 1 3600 true; mkGmld 6 2 3600 true] [(5, 100); (6, 100)] [(5, 10); (5, 11); (6, 12)] [].
Definition rowA (r : Z) : lrow := mkLrow jobA 5 100 3600 r.
Definition rowB (r : Z) : lrow := mkLrow jobB 6 100 3600 r.
(** Refuted: the database may answer the rows of a job apart from each other; the job is then handled
    twice and its resources are assigned twice. *)
Theorem C44_twice_refuted : exists d', [rowA 10; rowB 12; rowA 11] ≡ₚ launch_rows 100 gdb2 /\ finish_round res4 60 100 [rowA 10; rowB 12; rowA 11] [] gdb2 = Ok (d', [1; 2], []) /\
  gasg d' = [(5, 10); (5, 11); (6, 12); (5, 10); (5, 11)].
Proof.
  eexists. split; [|split; [vm_compute; reflexivity|vm_compute; reflexivity]].
  assert (launch_rows 100 gdb2 = [rowA 10; rowA 11; rowB 12]) as -> by (vm_compute; reflexivity). constructor. apply Permutation_swap.
Qed.
Definition jobE : gjob := mkGjob 9 "Running" "None" 10 8 "besteffort" "eve" "e" 0 [("besteffort", "")]%string.
Example C44_case :
  (launch_rows 100 gdb2 ≡ₚ launch_rows 100 gdb2 /\ grouped (launch_rows 100 gdb2) /\ exists d', finish_round res4 60 100 (launch_rows 100 gdb2) [] gdb2 = Ok (d', [1; 2], [])) /\
  finish_round res4 60 100 (launch_rows 100 gdb2) [mkLjob jobE 8 10 1000 [1; 2]] gdb2 = Ok (gdb2, [], [9]).
Proof.
  assert (launch_rows 100 gdb2 = [rowA 10; rowA 11; rowB 12]) as -> by (vm_compute; reflexivity). split; [|vm_compute; reflexivity]. split; [done|]. split; [|eexists; vm_compute; reflexivity].
  exists [(1, [rowA 10; rowA 11]); (2, [rowB 12])]. split; [done|]. split; [by_dec|]. intros c [->|Hc]%elem_of_cons; [|apply elem_of_list_singleton in Hc as ->]; cbn [fst snd]; (split; [done|]).
  - intros x [->|Hx]%elem_of_cons; [done|]. by apply elem_of_list_singleton in Hx as ->.
  - intros x Hx. by apply elem_of_list_singleton in Hx as ->.
Qed.
Example C79_case : NoDup (o_id <$> res4) /\ (forall x, x ∈ launch_rows 100 gdb2 -> usable res4 (w_rid x)) /\ extract res4 60 (launch_rows 100 gdb2) = [mkLjob jobA 5 100 3660 [0; 1]; mkLjob jobB 6 100 3660 [2]] /\
  ~ usable res3 11 /\ extract res3 60 [rowA 11] = [mkLjob jobA 5 100 3660 [0]].
Proof.
  split; [by_dec|]. split; [|split; [vm_compute; reflexivity|split; [|vm_compute; reflexivity]]].
  - assert (launch_rows 100 gdb2 = [rowA 10; rowA 11; rowB 12]) as -> by (vm_compute; reflexivity). intros x [->|[->|Hx]%elem_of_cons]%elem_of_cons; [| |apply elem_of_list_singleton in Hx as ->].
    + exists (mkOres 10 "Alive"). split; [left|]. split; [done|by left].
    + exists (mkOres 11 "Alive"). split; [right; left|]. split; [done|by left].
    + exists (mkOres 12 "Alive"). split; [right; right; left|]. split; [done|by left].
  - intros (x & Hx & E & Hs). unfold res3 in Hx. apply elem_of_cons in Hx as [->|[->|Hx]%elem_of_cons]; [done|by destruct Hs|]. by apply elem_of_list_singleton in Hx as ->.
Qed.
(** Two jobs that both share with everybody: the best-effort one is deleted. *)
Definition jobS (id : Z) (texts : list (string * string)) : gjob := mkGjob id "Waiting" "None" 0 0 "default" "alice" "a" 0 texts.
Example C83_case : let j := jobS 1 [("timesharing", "*,*")]%string in let b := jobS 2 [("besteffort", ""); ("timesharing", "*,*")]%string in
  finish_round res4 60 100 [mkLrow j 5 100 3600 10] [mkLjob b 8 10 1000 [0]] gdb2 = Ok (gdb2, [], [2]).
Proof. vm_compute. reflexivity. Qed.

(** * C80. A reservation launched late keeps its announced end *)
Definition late (now : Z) (j : ljob) : bool := bool_decide (q_resv (l_job j) = "Scheduled"%string) && (l_start j <? now).
Lemma launch_one_mlds now s j : gmlds (launch_one now s j).1 = (fun x => if late now j && (m_id x =? l_mld j) then mkGmld (m_id x) (m_job x) (l_wall j - (now - l_start j)) (m_cur x) else x) <$> gmlds s.1.
Proof.
  unfold launch_one, late. cbn [fst]. destruct (_ && _); cbn [set_launched set_pred set_wall gmlds andb]; [done|]. symmetry. apply list_fmap_id.
Qed.
Lemma launch_mlds now js s y : NoDup (l_mld <$> js) -> y ∈ gmlds (fold_left (launch_one now) js s).1 ->
  exists y0, y0 ∈ gmlds s.1 /\ m_id y0 = m_id y /\ m_job y0 = m_job y /\
    (forall j, j ∈ js -> l_mld j = m_id y -> m_wall y = if late now j then l_wall j - (now - l_start j) else m_wall y0) /\ ((forall j, j ∈ js -> l_mld j <> m_id y) -> m_wall y = m_wall y0).
Proof.
  revert s. induction js as [|j js IH]; intros s HN Hy; cbn [fold_left] in Hy; [exists y; split; [done|]; repeat split; by intros ? ?%elem_of_nil|].
  cbn [fmap list_fmap] in HN. apply NoDup_cons in HN as [Hj HN]. destruct (IH _ HN Hy) as (y1 & H1 & H2 & H3 & H4 & H5). rewrite launch_one_mlds in H1. apply elem_of_list_fmap in H1 as (y0 & E & H0).
  assert (m_id y0 = m_id y1 /\ m_job y0 = m_job y1) as [E1 E2] by (subst y1; by destruct (_ && _)). exists y0. split; [done|]. split; [congruence|]. split; [congruence|]. split.
  - intros j' [->|Hj']%elem_of_cons Em.
    + rewrite H5. 2:{ intros j2 Hj2 E3. apply Hj. apply elem_of_list_fmap. exists j2. split; [congruence|done]. }
      rewrite E. destruct (late now j) eqn:El; cbn [andb]; [|done]. by replace (m_id y0 =? l_mld j) with true by lia.
    + rewrite (H4 j' Hj' Em). destruct (late now j'); [done|]. rewrite E. destruct (late now j); cbn [andb]; [|done]. destruct (m_id y0 =? l_mld j) eqn:E3; [|done]. exfalso. apply Hj. apply elem_of_list_fmap. exists j'. split; [lia|done].
  - intros Hno. rewrite H5 by (intros j' Hj'; apply Hno; by right). rewrite E. destruct (late now j); cbn [andb]; [|done]. destruct (m_id y0 =? l_mld j) eqn:E3; [|done]. exfalso. apply (Hno j); [left|lia].
Qed.
Lemma filter_NoDup_fmap {A} (f : A -> Z) (P : A -> Prop) `{!forall x, Decision (P x)} (l : list A) : NoDup (f <$> l) -> NoDup (f <$> filter P l).
Proof.
  induction l as [|x l IH]; intros Hf; [constructor|]. cbn [fmap list_fmap] in Hf. apply NoDup_cons in Hf as [H1 H2]. destruct (decide (P x)); [rewrite filter_cons_True by done|rewrite filter_cons_False by done; by apply IH].
  cbn [fmap list_fmap]. apply NoDup_cons. split; [|by apply IH]. intros (z & E & [_ Hz]%elem_of_list_filter)%elem_of_list_fmap. apply H1. apply elem_of_list_fmap. by exists z.
Qed.
Lemma NoDup_fmap_inj {A} (f g : A -> Z) (l : list A) : NoDup (f <$> l) -> (forall a b, a ∈ l -> b ∈ l -> g a = g b -> f a = f b) -> NoDup (g <$> l).
Proof.
  induction l as [|x l IH]; intros H Hi; [constructor|]. cbn [fmap list_fmap] in *. apply NoDup_cons in H as [H1 H2]. apply NoDup_cons. split; [|apply IH; [done|]; intros a b Ha Hb; apply Hi; by right].
  intros (z & E & Hz)%elem_of_list_fmap. apply H1. apply elem_of_list_fmap. exists z. split; [|done]. apply Hi; [left|by right|done].
Qed.
(** The recorded walltime of what is launched.  A reservation that starts late ends, by its new walltime,
    at its announced end plus the security time. *)
Theorem C80_end_partial l sec now date rows sched d d' sent kills x y : NoDup (m_id <$> gmlds d) -> one_place d -> NoDup (q_id <$> gjobs d) ->
  rows ≡ₚ launch_rows date d -> grouped rows -> finish_round l sec now rows sched d = Ok (d', sent, kills) ->
  x ∈ rows -> q_id (w_job x) ∈ sent -> y ∈ gmlds d' -> m_id y = w_mld x ->
  if bool_decide (q_resv (w_job x) = "Scheduled"%string) && (w_start x <? now) then now + m_wall y = w_start x + w_wall x + sec else m_wall y = w_wall x.
Proof.
  intros HNm Hone HNj HP Hg H Hx Hi Hy Ey. unfold finish_round in H. apply rbind_Ok in H as (k & _ & H). case_bool_decide as Hk; [|injection H as <- <- <-; by apply elem_of_nil in Hi]. injection H as <- <- _.
  destruct (extract_grouped l sec rows Hg) as (cs & H1 & H2 & H3 & H4).
  assert (Hc : forall z t, (z, t) ∈ cs -> z ∈ rows) by (intros z t Hz; rewrite H1; apply elem_of_list_join; exists (flat (z, t)); split; [left|apply elem_of_list_fmap; by exists (z, t)]).
  assert (Hrow : forall z, z ∈ rows -> exists m, m ∈ gmlds d /\ m_id m = w_mld z /\ m_job m = q_id (w_job z) /\ w_job z ∈ gjobs d /\ (w_mld z, w_start z) ∈ gpred d /\ w_wall z = m_wall m).
  { intros z Hz. rewrite HP in Hz. apply launch_rows_in in Hz as (m & Hm & Em & Ej & Hjob & Hpred & _ & Hw & _). exists m. done. }
  assert (Hsame : forall z z', z ∈ rows -> z' ∈ rows -> w_mld z = w_mld z' -> q_id (w_job z) = q_id (w_job z')).
  { intros z z' Hz Hz' E. destruct (Hrow z Hz) as (m & Hm & Em & Ej & _), (Hrow z' Hz') as (m' & Hm' & Em' & Ej' & _). assert (m = m') as <- by (apply (same_elem m_id (gmlds d)); congruence). congruence. }
  assert (HNl : NoDup (l_mld <$> filter (ready l now) (extract l sec rows))).
  { apply filter_NoDup_fmap. rewrite H2. rewrite <- list_fmap_compose. apply (NoDup_fmap_inj (fun c => q_id (w_job c.1))); [done|]. intros [a ta] [b tb] Ha Hb E. cbn in *. apply Hsame; [by apply (Hc a ta)|by apply (Hc b tb)|done]. }
  destruct (launch_mlds now _ _ y HNl Hy) as (y0 & Hy0 & E1 & E2 & H5 & _). cbn [fst] in Hy0.
  apply launch_sent in Hi as [?%elem_of_nil|(j & Hj & Ej)]; [done| |apply NoDup_nil_2]. pose proof Hj as Hjf. apply elem_of_list_filter in Hj as [_ Hj]. rewrite H2 in Hj. apply elem_of_list_fmap in Hj as ([z t] & Ejc & Hz).
  cbn [chunk l_job fst snd] in *. pose proof (Hc z t Hz) as Hzr. destruct (Hrow z Hzr) as (m & Hm & Em & Emj & Hjob & Hpred & Hw). destruct (Hrow x Hx) as (mx & Hmx & Emx & Emjx & Hjobx & Hpredx & Hwx).
  assert (w_job z = w_job x) as Ejob by (apply (same_elem q_id (gjobs d)); try done; subst j; done).
  assert (w_mld z = w_mld x /\ w_start z = w_start x) as [Emm Est].
  { apply (Hone _ _ _ _ (w_job z)); try done; split; try done; [exists m|exists mx]; split; try done; split; try done; congruence. }
  assert (m = mx) as <- by (apply (same_elem m_id (gmlds d)); congruence). assert (y0 = m) as -> by (apply (same_elem m_id (gmlds d)); congruence).
  specialize (H5 j Hjf). subst j. cbn [chunk l_mld l_job l_wall l_start fst snd] in H5. specialize (H5 ltac:(congruence)). unfold late in H5. cbn [chunk l_mld l_job l_wall l_start fst snd] in H5. rewrite Ejob, Est in H5. destruct (_ && _); lia.
Qed.
(** Refuted: with a security time, a late reservation ends after its announced end. *)
Theorem C80_late_refuted l sec now date rows sched d d' sent kills x y : 0 < sec -> NoDup (m_id <$> gmlds d) -> one_place d -> NoDup (q_id <$> gjobs d) ->
  rows ≡ₚ launch_rows date d -> grouped rows -> finish_round l sec now rows sched d = Ok (d', sent, kills) ->
  x ∈ rows -> q_id (w_job x) ∈ sent -> q_resv (w_job x) = "Scheduled"%string -> w_start x < now -> y ∈ gmlds d' -> m_id y = w_mld x -> w_start x + w_wall x < now + m_wall y.
Proof.
  intros Hsec HNm Hone HNj HP Hg H Hx Hi Hs Hst Hy Ey. pose proof (C80_end_partial _ _ _ _ _ _ _ _ _ _ _ _ HNm Hone HNj HP Hg H Hx Hi Hy Ey) as E.
  rewrite bool_decide_eq_true_2 in E by done. replace (w_start x <? now) with true in E by lia. cbn [andb] in E. lia.
Qed.
Definition jobR : gjob := mkGjob 1 "Waiting" "Scheduled" 50 0 "default" "alice" "a" 0 [].
Definition gdb3 : gdb := mkGdb [jobR; jobB] [mkGmld 5 1 3600 true; mkGmld 6 2 3600 true] [(5, 50); (6, 100)] [(5, 10); (5, 11); (6, 12)] [].
Example C80_case : NoDup (m_id <$> gmlds gdb3) /\ one_place gdb3 /\ NoDup (q_id <$> gjobs gdb3) /\ grouped (launch_rows 100 gdb3) /\
  exists d', finish_round res4 60 100 (launch_rows 100 gdb3) [] gdb3 = Ok (d', [1; 2], []) /\ (m_wall <$> gmlds d') = [3610; 3600].
Proof.
  split; [by_dec|]. split; [|split; [by_dec|split; [|eexists; split; vm_compute; reflexivity]]].
  - intros m1 t1 m2 t2 j H1 H2 (_ & x1 & Hx1 & E1 & J1) (_ & x2 & Hx2 & E2 & J2). cbn [gdb3 gpred gmlds] in *.
    apply elem_of_cons in H1 as [H1|H1%elem_of_list_singleton]; apply elem_of_cons in H2 as [H2|H2%elem_of_list_singleton]; injection H1 as -> ->; injection H2 as -> ->; try done; exfalso;
    apply elem_of_cons in Hx1 as [Hx1|Hx1%elem_of_list_singleton]; apply elem_of_cons in Hx2 as [Hx2|Hx2%elem_of_list_singleton]; subst x1 x2; cbn in *; lia.
  - assert (launch_rows 100 gdb3 = [mkLrow jobR 5 50 3600 10; mkLrow jobR 5 50 3600 11; rowB 12]) as -> by (vm_compute; reflexivity).
    exists [(1, [mkLrow jobR 5 50 3600 10; mkLrow jobR 5 50 3600 11]); (2, [rowB 12])]. split; [done|]. split; [by_dec|]. intros c [->|Hc]%elem_of_cons; [|apply elem_of_list_singleton in Hc as ->]; cbn [fst snd]; (split; [done|]).
    + intros x [->|Hx]%elem_of_cons; [done|]. by apply elem_of_list_singleton in Hx as ->.
    + intros x Hx. by apply elem_of_list_singleton in Hx as ->.
Qed.

(** * C82. A reservation that cannot start expires *)
Theorem C82_expired_partial l timeout now j d d' : l_start j + l_wall j < now -> wait_resv l timeout now j d = Ok d' ->
  (forall x, x ∈ gjobs d' -> (q_id x = q_id (l_job j) /\ q_state x = "Error"%string) \/ (q_id x <> q_id (l_job j) /\ x ∈ gjobs d)) /\ gmlds d' = gmlds d /\ gpred d' = gpred d /\ gres d' = gres d /\ gasg d' = gasg d.
Proof.
  intros He H. unfold wait_resv in H. replace (l_start j + l_wall j <? now) with true in H by lia. injection H as <-. split; [|done]. cbn [set_error gjobs]. intros x (z & -> & Hz)%elem_of_list_fmap. destruct (q_id z =? q_id (l_job j)) eqn:E; [left; cbn; split; [lia|done]|right; split; [lia|done]].
Qed.
(** Only then. *)
Theorem C82_only_expired l timeout now j d d' : wait_resv l timeout now j d = Ok d' -> gjobs d' <> gjobs d -> l_start j + l_wall j < now.
Proof.
  intros H Hne. unfold wait_resv in H. destruct (l_start j + l_wall j <? now) eqn:E; [lia|]. exfalso. apply Hne. destruct (_ && _); [by injection H as <-|]. destruct (l_start j <? now); [|by injection H as <-]. destruct (now <? _); [destruct (bool_decide _); [by injection H as <-|done]|]. injection H as <-. unfold remove_gantt. by case_bool_decide.
Qed.
Definition restart (j : ljob) (t : Z) : ljob := mkLjob (l_job j) (l_mld j) t (l_wall j) (l_res j).
(** Successive rounds: the job is read again with its predicted start. *)
Fixpoint rounds (l : list ores) (timeout : Z) (dates : list Z) (j : ljob) (d : gdb) : res gdb :=
  match dates with
  | [] => Ok d
  | now :: dates => d' <-- wait_resv l timeout now j d ;;
      rounds l timeout dates (match dfind (l_mld j) (gpred d') with Some t => restart j t | None => j end) d'
  end.
(** Each date follows the one before by two seconds at least and the walltime at most. *)
Fixpoint regular (w last : Z) (dates : list Z) : Prop := match dates with [] => True | t :: ts => last + 1 < t /\ t <= last + 1 + w /\ regular w t ts end.
Lemma dfind_set m t (rows : list (Z * Z)) : m ∈ rows.*1 -> dfind m ((fun p => if p.1 =? m then (m, t) else p) <$> rows) = Some t.
Proof.
  induction rows as [|[a b] rows IH]; cbn [fmap list_fmap fst]; [by intros ?%elem_of_nil|]. intros H. destruct (a =? m) eqn:E; cbn [dfind]; [by rewrite Z.eqb_refl|]. replace (m =? a) with false by lia. apply IH. apply elem_of_cons in H as [->|H]; [lia|done].
Qed.
(** Refuted: while none of its resources is in use, its start is put off at each round; it never expires. *)
Theorem C82_pushed_refuted l timeout dates j d last d' : filter (is_roid l) (l_res j) = [] -> l_start j = last + 1 -> l_mld j ∈ (gpred d).*1 -> regular (l_wall j) last dates -> rounds l timeout dates j d = Ok d' -> gjobs d' = gjobs d.
Proof.
  intros Hno. revert j d last Hno. induction dates as [|now dates IH]; intros j d last Hno Hst Hin Hreg H; cbn [rounds] in H; [by injection H as <-|]. destruct Hreg as (H1 & H2 & H3).
  unfold wait_resv in H. replace (l_start j + l_wall j <? now) with false in H by lia. rewrite Hno in H. rewrite bool_decide_eq_true_2 in H by done. replace (l_start j <? now) with true in H by lia. cbn [andb rbind] in H.
  cbn [set_pred gpred] in H. rewrite dfind_set in H by done. apply (IH _ _ now) in H; [done|done|done| |done]. cbn [restart l_mld set_pred gpred]. rewrite <- list_fmap_compose.
  apply elem_of_list_fmap in Hin as (p & E & Hp). apply elem_of_list_fmap. exists p. split; [|done]. cbn. destruct (p.1 =? l_mld j) eqn:Ep; cbn; lia.
Qed.
Definition resDown : list ores := [mkOres 10 "Suspected"; mkOres 11 "Alive"].
Example C82_case : let j := mkLjob jobR 5 100 660 [0] in filter (is_roid resDown) (l_res j) = [] /\ regular 660 99 [500; 1000; 1600] /\ (exists d', rounds resDown 300 [500; 1000; 1600] j gdb3 = Ok d' /\ gpred d' = [(5, 1601); (6, 100)]) /\
  exists d', wait_resv resDown 300 761 j gdb3 = Ok d' /\ (q_state <$> gjobs d') = ["Error"; "Waiting"]%string.
Proof. split; [vm_compute; reflexivity|]. split; [cbn; lia|]. split; eexists; split; vm_compute; reflexivity. Qed.

(** * C81. A reservation whose resources are not all there *)
Lemma i2o_roid l id : usable l id -> is_roid l (i2o l id).
Proof.
  intros (x & Hx & E & Hu). unfold i2o. destruct (list_find _ l) as [[n y]|] eqn:Ef.
  - apply list_find_Some in Ef as (H1 & [H2 H3] & _). split; [lia|]. by rewrite Nat2Z.id, H1.
  - exfalso. apply list_find_None in Ef. rewrite Forall_forall in Ef. by apply (Ef x Hx).
Qed.
Lemma filter_none {A} (P : A -> Prop) `{!forall x, Decision (P x)} (l : list A) : (forall x, x ∈ l -> ~ P x) -> filter P l = [].
Proof. induction l as [|x l IH]; intros Hf; [done|]. rewrite filter_cons_False by (apply Hf; left). apply IH. intros y Hy. apply Hf. by right. Qed.
Lemma wait_all_there l timeout now j d : (forall k, k ∈ l_res j -> is_roid l k) -> l_res j <> [] -> now <= l_start j + l_wall j -> wait_resv l timeout now j d = Ok d.
Proof.
  intros Hall Hne He. unfold wait_resv. replace (l_start j + l_wall j <? now) with false by lia. rewrite (filter_none (fun k => ~ is_roid l k)) by (intros k Hk Hn; apply Hn; by apply Hall).
  rewrite (bool_decide_eq_false_2 (filter (is_roid l) (l_res j) = [])). 2:{ destruct (l_res j) as [|k ks] eqn:E; [done|]. rewrite filter_cons_True; [done|]. apply Hall. left. }
  cbn [andb]. destruct (l_start j <? now); [|done]. destruct (now <? _); [by rewrite bool_decide_eq_true_2|]. unfold remove_gantt. by rewrite bool_decide_eq_true_2.
Qed.
Lemma extract_ne l sec rows j : j ∈ extract l sec rows -> l_res j <> [].
Proof. intros (x & t & -> & _)%extract_in. done. Qed.
(** All its resources in use: the tables are left as they are. *)
Theorem C81_all_there_partial l sec timeout now rows j d : (forall x, x ∈ rows -> usable l (w_rid x)) -> j ∈ extract l sec rows -> now <= l_start j + l_wall j -> wait_resv l timeout now j d = Ok d.
Proof.
  intros Hu Hj He. apply wait_all_there; [|by eapply extract_ne|done]. apply extract_in in Hj as (x & t & -> & _ & Hin). cbn [chunk l_res fst snd]. intros k (r & -> & Hr)%elem_of_list_fmap. apply elem_of_list_fmap in Hr as (z & -> & Hz). apply i2o_roid. apply Hu. by apply Hin.
Qed.
(** Refuted: when the first resource is in use, missing resources are never noticed: the reservation
    neither waits for them nor gives them up. *)
Theorem C81_unnoticed_refuted l sec timeout now rows j d x0 : l !! 0%nat = Some x0 -> in_use x0 -> j ∈ extract l sec rows -> now <= l_start j + l_wall j -> wait_resv l timeout now j d = Ok d.
Proof.
  intros H0 Hu Hj He. apply wait_all_there; [|by eapply extract_ne|done]. apply extract_in in Hj as (x & t & -> & _ & Hin). cbn [chunk l_res fst snd]. intros k (r & -> & Hr)%elem_of_list_fmap.
  destruct (usable_dec l r) as [Hr'|Hn]; [by apply i2o_roid|]. rewrite i2o_not by done. split; [lia|]. change (Z.to_nat 0) with 0%nat. by rewrite H0.
Qed.
Lemma first_down l x0 : l !! 0%nat = Some x0 -> ~ in_use x0 -> ~ is_roid l 0.
Proof. intros H0 Hu [_ H]. change (Z.to_nat 0) with 0%nat in H. by rewrite H0 in H. Qed.
Lemma missing_some l sec rows j x : ~ is_roid l 0 -> j ∈ extract l sec rows -> (forall y, y ∈ rows -> q_id (w_job y) = q_id (w_job x)) -> x ∈ rows -> i2o l (w_rid x) ∈ l_res j.
Proof.
  intros H0 Hj Hall Hx. destruct (extract_grouped l sec rows) as (cs & H1 & H2 & H3 & H4).
  { exists [(q_id (w_job x), rows)]. cbn. rewrite app_nil_r. split; [done|]. split; [apply NoDup_singleton|]. intros c ->%elem_of_list_singleton. cbn. split; [|done]. intros ->. by apply elem_of_nil in Hx. }
  rewrite H2 in Hj. apply elem_of_list_fmap in Hj as ([y t] & -> & Hc). pose proof Hx as Hx2. rewrite H1 in Hx2. cbn [chunk l_res fst snd]. apply elem_of_list_fmap. exists (w_rid x). split; [done|]. apply elem_of_list_fmap. exists x. split; [done|].
  apply (grouped_complete cs y t); try done. symmetry. apply Hall. rewrite H1. apply elem_of_list_join. exists (flat (y, t)). split; [left|]. apply elem_of_list_fmap. by exists (y, t).
Qed.
(** Refuted: when it is not, the round stops with an error while the reservation waits ... *)
Theorem C81_wait_refuted l sec timeout now rows j d x0 x x' : l !! 0%nat = Some x0 -> ~ in_use x0 -> j ∈ extract l sec rows -> (forall y, y ∈ rows -> q_id (w_job y) = q_id (w_job x)) ->
  x ∈ rows -> usable l (w_rid x) -> x' ∈ rows -> ~ usable l (w_rid x') -> l_start j < now -> now <= l_start j + l_wall j -> now < l_start j + timeout -> wait_resv l timeout now j d = Err EType.
Proof.
  intros H0 Hu Hj Hall Hx Hux Hx' Hnx Hst He Ht. pose proof (first_down _ _ H0 Hu) as Hd. pose proof (missing_some _ _ _ _ _ Hd Hj Hall Hx) as Hin. assert (i2o l (w_rid x') ∈ l_res j) as Hin' by (apply (missing_some l sec rows j x' Hd Hj); [|done]; intros y Hy; rewrite (Hall y Hy); symmetry; by apply Hall).
  unfold wait_resv. replace (l_start j + l_wall j <? now) with false by lia. rewrite (bool_decide_eq_false_2 (filter (is_roid l) (l_res j) = [])).
  2:{ intros E. assert (i2o l (w_rid x) ∈ filter (is_roid l) (l_res j)) as H by (apply elem_of_list_filter; split; [by apply i2o_roid|done]). rewrite E in H. by apply elem_of_nil in H. }
  cbn [andb]. replace (l_start j <? now) with true by lia. replace (now <? l_start j + timeout) with true by lia. rewrite bool_decide_eq_false_2; [done|].
  intros E. assert (i2o l (w_rid x') ∈ filter (fun k => ~ is_roid l k) (l_res j)) as H by (apply elem_of_list_filter; split; [by rewrite i2o_not|done]). rewrite E in H. by apply elem_of_nil in H.
Qed.
(** ... and after the delay it loses all its resources, those that are there too. *)
Theorem C81_reduce_refuted l sec timeout now rows j d d' x0 x x' : l !! 0%nat = Some x0 -> ~ in_use x0 -> j ∈ extract l sec rows -> (forall y, y ∈ rows -> q_id (w_job y) = q_id (w_job x)) ->
  x ∈ rows -> usable l (w_rid x) -> x' ∈ rows -> ~ usable l (w_rid x') -> l_start j < now -> now <= l_start j + l_wall j -> l_start j + timeout <= now -> wait_resv l timeout now j d = Ok d' ->
  forall r, r <> 0 -> (l_mld j, r) ∉ gres d'.
Proof.
  intros H0 Hu Hj Hall Hx Hux Hx' Hnx Hst He Ht H r Hr. pose proof (first_down _ _ H0 Hu) as Hd. pose proof (missing_some _ _ _ _ _ Hd Hj Hall Hx) as Hin. assert (i2o l (w_rid x') ∈ l_res j) as Hin' by (apply (missing_some l sec rows j x' Hd Hj); [|done]; intros y Hy; rewrite (Hall y Hy); symmetry; by apply Hall).
  unfold wait_resv in H. replace (l_start j + l_wall j <? now) with false in H by lia. rewrite (bool_decide_eq_false_2 (filter (is_roid l) (l_res j) = [])) in H.
  2:{ intros E. assert (i2o l (w_rid x) ∈ filter (is_roid l) (l_res j)) as H2 by (apply elem_of_list_filter; split; [by apply i2o_roid|done]). rewrite E in H2. by apply elem_of_nil in H2. }
  cbn [andb] in H. replace (l_start j <? now) with true in H by lia. replace (now <? l_start j + timeout) with false in H by lia. injection H as <-. unfold remove_gantt. rewrite bool_decide_eq_false_2.
  2:{ intros E. assert (i2o l (w_rid x') ∈ filter (fun k => ~ is_roid l k) (l_res j)) as H2 by (apply elem_of_list_filter; split; [by rewrite i2o_not|done]). rewrite E in H2. by apply elem_of_nil in H2. }
  cbn [gres]. intros [Hk _]%elem_of_list_filter. apply Hk. split; [done|]. cbn [snd]. intros (k & E & [Hk1 Hk2]%elem_of_list_filter)%elem_of_list_fmap.
  apply extract_in in Hj as (y & t & -> & _ & _). cbn [chunk l_res fst snd] in Hk2. apply elem_of_list_fmap in Hk2 as (id & -> & _). destruct (usable_dec l id) as [Hid|Hid]; [by apply Hk1, i2o_roid|]. rewrite i2o_not in E by done. apply Hr. rewrite E. unfold o2i. change (Z.to_nat 0) with 0%nat. rewrite H0. by rewrite decide_False by done.
Qed.
Definition rowR (r : Z) : lrow := mkLrow jobR 5 50 3600 r.
Example C81_case :
  extract res4 60 [rowR 10; rowR 11] = [mkLjob jobR 5 50 3660 [0; 1]] /\
  (let j := mkLjob jobR 5 50 3660 [0; 1] in extract resDown 60 [rowR 10; rowR 11] = [j] /\ is_err EType (wait_resv resDown 300 100 j gdb3) = true /\ exists d', wait_resv resDown 300 400 j gdb3 = Ok d' /\ gres d' = [(6, 12)]).
Proof. split; [vm_compute; reflexivity|]. split; [vm_compute; reflexivity|]. split; [vm_compute; reflexivity|]. eexists. split; vm_compute; reflexivity. Qed.
Print Assumptions C43_tables_partial.
Print Assumptions C43_down_refuted.
Print Assumptions C43_hold_refuted.
Print Assumptions C79_down_refuted.
Print Assumptions C79_own_partial.
Print Assumptions C83_share_refuted.
Print Assumptions C44_kill_first.
Print Assumptions C44_kill_only.
Print Assumptions C44_once.
Print Assumptions C44_due_partial.
Print Assumptions C44_effect.
Print Assumptions C44_down_refuted.
Print Assumptions C44_checkpoint_refuted.
Print Assumptions C44_twice_refuted.
Print Assumptions C80_end_partial.
Print Assumptions C80_late_refuted.
Print Assumptions C82_expired_partial.
Print Assumptions C82_only_expired.
Print Assumptions C82_pushed_refuted.
Print Assumptions C81_all_there_partial.
Print Assumptions C81_unnoticed_refuted.
Print Assumptions C81_wait_refuted.
Print Assumptions C81_reduce_refuted.
