(** C145-C146: proofs. *)
From Coq Require Import Ascii.
From Verif Require Import Base SPrioModel SPrioSpec.
From Verif Require ReqModel ReqProps.
From Verif Require Import ReqSpec.

Lemma is_id_spec f : is_id f = true <-> (f = "resource_id" \/ f = "id")%string.
Proof. unfold is_id. rewrite orb_true_iff, !bool_decide_eq_true. done. Qed.
Lemma among_spec f l r : among f l r = true <-> beside f l r.
Proof.
  unfold among, beside, column. destruct (is_id f) eqn:E.
  - rewrite decide_True by (by apply is_id_spec). rewrite bool_decide_eq_true, elem_of_list_fmap. split.
    + intros (r' & [= H] & H2). by exists r'.
    + intros (r' & H1 & H2). exists r'. by rewrite H2.
  - rewrite decide_False by (intros H; apply is_id_spec in H; congruence).
    destruct (r_cols r f) as [v|]; cbn [fmap option_fmap option_map].
    + rewrite bool_decide_eq_true, elem_of_list_fmap. split.
      * intros (r' & H & H2). exists v, r'. destruct (r_cols r' f) as [v'|] eqn:E2; [|done]. cbn in H. split; [done|]. split; [done|]. congruence.
      * intros (v' & r' & [= <-] & H1 & H2). exists r'. rewrite H2. done.
    + split; [done|]. by intros (v & r' & ? & _).
Qed.
Lemma raise_level_at f l all incr p r : NoDup (r_id <$> all) -> r ∈ all ->
  raise_level f l all incr p (r_id r) = p (r_id r) + (if decide (beside f l r) then incr else 0).
Proof.
  intros HN Hr. unfold raise_level. destruct (decide (beside f l r)) as [H|H].
  - rewrite bool_decide_eq_true_2; [done|]. apply elem_of_list_fmap. exists r. split; [done|]. apply elem_of_list_filter. split; [by apply among_spec|done].
  - rewrite bool_decide_eq_false_2; [lia|]. intros (r' & E & H2)%elem_of_list_fmap. apply elem_of_list_filter in H2 as [H2 H3].
    assert (r' = r) as ->. { apply elem_of_list_lookup in Hr as [i Hi]. apply elem_of_list_lookup in H3 as [k Hk].
      assert (i = k) as <-; [|congruence]. eapply NoDup_lookup; [exact HN| |]; rewrite list_lookup_fmap; [rewrite Hi|rewrite Hk]; cbn; [done|by rewrite E]. }
    apply H. by apply among_spec.
Qed.
Lemma raise_at fs k v c l all p r : NoDup (r_id <$> all) -> r ∈ all ->
  raise fs k (2 * v) c l all p (r_id r) = p (r_id r) + v * c * burden (k + 1) fs l r.
Proof.
  intros HN Hr. revert k p. induction fs as [|f fs IH]; intros k p; cbn [raise burden]; [lia|].
  rewrite IH, raise_level_at by done. destruct (decide (beside f l r)); lia.
Qed.
Lemma factor_shares t : shares t = true -> factor t = coefficient t.
Proof.
  unfold shares, factor, coefficient. rewrite orb_true_iff, !bool_decide_eq_true. intros H.
  destruct (decide ("besteffort"%string ∈ t)) as [H1|H1], (decide ("timesharing"%string ∈ t)) as [H2|H2];
    repeat ((rewrite bool_decide_eq_true_2 by done) || (rewrite bool_decide_eq_false_2 by done)); try done; by destruct H.
Qed.
Lemma factor_not t : shares t = false -> factor t = 0.
Proof.
  unfold shares, factor. rewrite orb_false_iff, !bool_decide_eq_false. intros [H1 H2]. by rewrite !decide_False by done.
Qed.
Lemma burden_nil k fs r : burden k fs [] r = 0.
Proof.
  revert k. induction fs as [|f fs IH]; intros k; [done|]. cbn [burden]. rewrite IH. rewrite decide_False; [done|].
  unfold beside. destruct (decide _); [intros (r' & H & _)|intros (v & r' & _ & H & _)]; by apply elem_of_nil in H.
Qed.

(** ** Sums *)
Definition is_active (j : jrow) : bool := bool_decide (j_state j ∈ active_states).
Definition part (fs : list string) (d : db) (r : rsc) (j : jrow) : Z :=
  if is_active j then weight fs (j_types j) (held d (j_mld j)) r else 0.
Lemma sum_parts fs d r : sum ((fun j => weight fs (j_types j) (held d (j_mld j)) r) <$> occupying d) = sum (part fs d r <$> jobs d).
Proof.
  unfold occupying. induction (jobs d) as [|j l IH]; [done|]. rewrite filter_cons, fmap_cons. unfold sum in *. cbn [foldr]. rewrite <- IH.
  unfold part, is_active. destruct (decide (j_state j ∈ active_states)).
  - rewrite bool_decide_eq_true_2 by done. done.
  - rewrite bool_decide_eq_false_2 by done. lia.
Qed.
Lemma get_in id d j : get id d = Some j -> j ∈ jobs d /\ j_id j = id.
Proof.
  unfold get. destruct (filter _ _) as [|j' [|]] eqn:E; [done| |done]. intros [= ->].
  assert (H : j ∈ filter (fun j => j_id j = id) (jobs d)) by (rewrite E; apply elem_of_cons; by left).
  by apply elem_of_list_filter in H as [? ?].
Qed.
Lemma uniq_id (l : list jrow) j j' : NoDup (j_id <$> l) -> j ∈ l -> j' ∈ l -> j_id j = j_id j' -> j = j'.
Proof.
  intros HN H1 H2 E. apply elem_of_list_lookup in H1 as [i Hi]. apply elem_of_list_lookup in H2 as [k Hk].
  assert (i = k) as <-; [|congruence]. eapply NoDup_lookup; [exact HN| |]; rewrite list_lookup_fmap; [rewrite Hi|rewrite Hk]; cbn; [done|by rewrite E].
Qed.
Lemma uniq_mld (l : list jrow) j j' : NoDup (j_mld <$> l) -> j ∈ l -> j' ∈ l -> j_mld j = j_mld j' -> j = j'.
Proof.
  intros HN H1 H2 E. apply elem_of_list_lookup in H1 as [i Hi]. apply elem_of_list_lookup in H2 as [k Hk].
  assert (i = k) as <-; [|congruence]. eapply NoDup_lookup; [exact HN| |]; rewrite list_lookup_fmap; [rewrite Hi|rewrite Hk]; cbn; [done|by rewrite E].
Qed.
Definition upd_row (id : Z) (f : jrow -> jrow) (l : list jrow) : list jrow := (fun j => if bool_decide (j_id j = id) then f j else j) <$> l.
Lemma upd_row_in id f l j' : j' ∈ upd_row id f l <-> exists j, j ∈ l /\ j' = if bool_decide (j_id j = id) then f j else j.
Proof. unfold upd_row. rewrite elem_of_list_fmap. split; intros (j & ? & ?); by exists j. Qed.
Lemma upd_row_ids {B} (k : jrow -> B) id f l : (forall j, k (f j) = k j) -> k <$> upd_row id f l = k <$> l.
Proof. intros H. unfold upd_row. rewrite <- list_fmap_compose. apply list_fmap_ext. intros i j _. cbn. by case_bool_decide. Qed.
Lemma sum_cons x l : sum (x :: l) = x + sum l.
Proof. done. Qed.
Lemma upd_row_cons id f a l : upd_row id f (a :: l) = (if bool_decide (j_id a = id) then f a else a) :: upd_row id f l.
Proof. done. Qed.
Lemma sum_upd (g g' : jrow -> Z) id f l j : NoDup (j_id <$> l) -> j ∈ l -> j_id j = id ->
  (forall j', j' ∈ l -> j_id j' <> id -> g' j' = g j') ->
  sum (g' <$> upd_row id f l) = sum (g <$> l) + (g' (f j) - g j).
Proof.
  intros HN Hj E Hg. induction l as [|a l IH]; [by apply elem_of_nil in Hj|].
  rewrite fmap_cons in HN. apply NoDup_cons in HN as [Ha HN]. rewrite upd_row_cons, !fmap_cons, !sum_cons. apply elem_of_cons in Hj as [->|Hj].
  - rewrite bool_decide_eq_true_2 by done.
    assert (H : forall j', j' ∈ l -> j_id j' <> id). { intros j' Hj' E2. apply Ha. rewrite E, <- E2. apply elem_of_list_fmap. by exists j'. }
    assert (Hs : sum (g' <$> upd_row id f l) = sum (g <$> l)); [|lia].
    clear IH HN Ha. induction l as [|b l IHl]; [done|]. rewrite upd_row_cons, !fmap_cons, !sum_cons.
    rewrite bool_decide_eq_false_2 by (apply H; apply elem_of_cons; by left).
    rewrite Hg; [|apply elem_of_cons; right; apply elem_of_cons; by left|apply H; apply elem_of_cons; by left].
    f_equal. apply IHl.
    + intros j' Hj' Hn. apply Hg; [|done]. apply elem_of_cons in Hj' as [->|Hj']; apply elem_of_cons; [by left|right; apply elem_of_cons; by right].
    + intros j' Hj'. apply H. apply elem_of_cons. by right.
  - assert (j_id a <> id). { intros E2. apply Ha. rewrite E2, <- E. apply elem_of_list_fmap. by exists j. }
    rewrite bool_decide_eq_false_2 by done. rewrite Hg; [|apply elem_of_cons; by left|done].
    rewrite IH; [lia|done|done|]. intros j' Hj'. apply Hg. apply elem_of_cons. by right.
Qed.

(** ** The invariant *)
Record Inv (o : string) (d0 : db) (T : list Z) (d : db) : Prop := {
  i_rs : rs d = rs d0;
  i_ids : j_id <$> jobs d = j_id <$> jobs d0;
  i_mlds : j_mld <$> jobs d = j_mld <$> jobs d0;
  i_prio : forall r, r ∈ rs d -> prio d (r_id r) = prio d0 (r_id r) + sum (part (levels o) d r <$> jobs d);
  i_state : forall j, j ∈ jobs d -> j_state j = "Waiting"%string \/ j_state j ∈ active_states \/ j_state j = "Terminated"%string;
  i_wait : forall j, j ∈ jobs d -> j_state j = "Waiting"%string -> (START, j_id j) ∉ evs d /\ forall x, (j_mld j, x) ∉ asg d;
  i_share : forall j, j ∈ jobs d -> j_state j ∈ active_states -> shares (j_types j) = true ->
    (START, j_id j) ∈ evs d \/ levels o = [] \/ held d (j_mld j) = [];
  i_plain : forall j, j ∈ jobs d -> j_id j ∉ T -> shares (j_types j) = false -> (START, j_id j) ∉ evs d;
  i_types : forall j, j ∈ jobs d -> j_id j ∉ T -> exists j0, j0 ∈ jobs d0 /\ j_id j0 = j_id j /\ j_types j0 = j_types j }.
Lemma waiting_inactive j : j_state j = "Waiting"%string -> is_active j = false.
Proof. intros E. unfold is_active. rewrite E. by_dec. Qed.
Lemma init_inv o d : fresh d -> Inv o d [] d.
Proof.
  intros (H0 & H1 & H2 & H3 & H4 & H5). constructor; try done.
  - intros r Hr. assert (E : sum (part (levels o) d r <$> jobs d) = 0); [|lia].
    assert (HA : Forall (fun j => is_active j = false) (jobs d)) by (apply Forall_forall; intros j Hj; apply waiting_inactive; by apply H3).
    clear H1 H2 H3. induction HA as [|j l Hj HA IH]; [done|]. rewrite fmap_cons, sum_cons, IH. unfold part. by rewrite Hj.
  - intros j Hj. left. by apply H3.
  - intros j Hj _. rewrite H4, H5. split; [|intros x]; apply not_elem_of_nil.
  - intros j Hj Ha. rewrite (H3 _ Hj) in Ha. exfalso. apply (bool_decide_eq_true_2 _) in Ha. vm_compute in Ha. discriminate.
  - intros j Hj _ _. rewrite H4. apply not_elem_of_nil.
  - intros j Hj _. by exists j.
Qed.

(** What update_current_scheduler_priority does. *)
Lemma update_rs o b j d : rs (update_priority o b j d) = rs d /\ jobs (update_priority o b j d) = jobs d /\ asg (update_priority o b j d) = asg d.
Proof. unfold update_priority. destruct o; [|done]. destruct (shares _ && _); [|done]. by destruct (_ && _). Qed.
Definition applies (b : bool) (j : jrow) (d : db) : Prop :=
  shares (j_types j) = true /\ ((START, j_id j) ∈ evs d <-> b = false).
Lemma update_off o b j d : ~ applies b j d -> update_priority (Some o) b j d = d.
Proof.
  intros H. unfold update_priority. destruct (shares (j_types j)) eqn:E; [|done]. cbn [andb].
  destruct (decide ((START, j_id j) ∈ evs d)) as [Hs|Hs].
  - rewrite bool_decide_eq_true_2 by done. destruct b; [done|]. exfalso. apply H. by split.
  - rewrite bool_decide_eq_false_2 by done. destruct b; [|done]. exfalso. apply H. split; done.
Qed.
Lemma update_on o b j d : applies b j d -> NoDup (r_id <$> rs d) -> let d' := update_priority (Some o) b j d in
  (forall r, r ∈ rs d -> prio d' (r_id r) = prio d (r_id r) + (if b then 1 else -1) * weight (levels o) (j_types j) (held d (j_mld j)) r) /\
  (evs d' = evs d ++ [(if b then START else STOP, j_id j)] \/ (levels o <> [] /\ held d (j_mld j) = [] /\ evs d' = evs d)).
Proof.
  intros [H1 H2] HN. cbn zeta. unfold update_priority. rewrite H1. cbn [andb].
  assert (E : (if b then negb (bool_decide ((START, j_id j) ∈ evs d)) else bool_decide ((START, j_id j) ∈ evs d)) = true).
  { destruct b; [rewrite bool_decide_eq_false_2; [done|]; intros H; by apply H2 in H|rewrite bool_decide_eq_true_2; [done|]; by apply H2]. }
  rewrite E. destruct (negb (bool_decide (levels o = [])) && bool_decide (held d (j_mld j) = [])) eqn:E2.
  - apply andb_true_iff in E2 as [E2 E3]. apply bool_decide_eq_true in E3. apply negb_true_iff, bool_decide_eq_false in E2. split; [|by right].
    intros r Hr. rewrite E3. unfold weight. rewrite burden_nil. lia.
  - cbn [prio evs]. split; [|by left]. intros r Hr. unfold weight. rewrite factor_shares by done.
    transitivity (raise (levels o) 0 (2 * (if b then 1 else -1)) (coefficient (j_types j)) (held d (j_mld j)) (rs d) (prio d) (r_id r)); [by destruct b|].
    rewrite raise_at by done. change (0 + 1) with 1. destruct b; lia.
Qed.

Lemma held_app d m l : (forall x, (m, x) ∉ l) -> forall r, (m, r_id r) ∈ asg d ++ l <-> (m, r_id r) ∈ asg d.
Proof. intros H r. rewrite elem_of_app. split; [intros [?|?]; [done|exfalso; by eapply H]|by left]. Qed.
Lemma held_eq d d' m : rs d' = rs d -> (forall x, (m, x) ∈ asg d' <-> (m, x) ∈ asg d) -> held d' m = held d m.
Proof. intros E H. unfold held. rewrite E. apply list_filter_iff. intros r. by rewrite H. Qed.
Lemma part_eq fs d d' r j : held d' (j_mld j) = held d (j_mld j) -> part fs d' r j = part fs d r j.
Proof. intros H. unfold part. by rewrite H. Qed.

(** One step on job [j], whose row becomes [f j]; [b]: what update_current_scheduler_priority was asked. *)
Lemma step_inv o d0 T T' d d' j f : Inv o d0 T d -> NoDup (j_id <$> jobs d) -> NoDup (j_mld <$> jobs d) -> j ∈ jobs d ->
  (forall j', j_id (f j') = j_id j' /\ j_mld (f j') = j_mld j') ->
  rs d' = rs d -> jobs d' = upd_row (j_id j) f (jobs d) ->
  (forall m x, m <> j_mld j -> (m, x) ∈ asg d' <-> (m, x) ∈ asg d) ->
  (forall e i, i <> j_id j -> (e, i) ∈ evs d' <-> (e, i) ∈ evs d) ->
  (forall i, i ∈ T -> i ∈ T') -> (forall i, i ∈ T' -> i ∈ T \/ i = j_id j) ->
  (forall r, r ∈ rs d -> prio d' (r_id r) = prio d (r_id r) + (part (levels o) d' r (f j) - part (levels o) d r j)) ->
  (j_state (f j) = "Waiting"%string \/ j_state (f j) ∈ active_states \/ j_state (f j) = "Terminated"%string) ->
  (j_state (f j) = "Waiting"%string -> (START, j_id j) ∉ evs d' /\ forall x, (j_mld j, x) ∉ asg d') ->
  (j_state (f j) ∈ active_states -> shares (j_types (f j)) = true -> (START, j_id j) ∈ evs d' \/ levels o = [] \/ held d' (j_mld j) = []) ->
  (j_id j ∉ T' -> shares (j_types (f j)) = false -> (START, j_id j) ∉ evs d') ->
  (j_id j ∉ T' -> j_types (f j) = j_types j) ->
  Inv o d0 T' d'.
Proof.
  intros [I1 I2 I3 I4 I9 I5 I6 I7 I8] HN HM Hj Hf Hrs Hjobs Hasg Hevs HT HT2 Hp Hst Hw Hs Hpl Hty.
  assert (Hheld : forall j', j' ∈ jobs d -> j_id j' <> j_id j -> held d' (j_mld j') = held d (j_mld j')).
  { intros j' Hj' Hn. apply held_eq; [done|]. intros x. apply Hasg. intros E. apply Hn. by rewrite (uniq_mld (jobs d) j' j HM Hj' Hj E). }
  assert (Hcase : forall j', j' ∈ jobs d' -> j' = f j \/ (j' ∈ jobs d /\ j_id j' <> j_id j)).
  { intros j' Hj'. rewrite Hjobs in Hj'. apply upd_row_in in Hj' as (j1 & Hj1 & ->). case_bool_decide as E; [left|by right].
    f_equal. by apply (uniq_id (jobs d)). }
  destruct (Hf j) as [Hf1 Hf2]. constructor.
  - by rewrite Hrs.
  - rewrite Hjobs, upd_row_ids; [done|]. intros j'. apply Hf.
  - rewrite Hjobs, upd_row_ids; [done|]. intros j'. apply Hf.
  - intros r Hr. rewrite Hrs in Hr. rewrite Hp, I4 by done. rewrite Hjobs.
    rewrite (sum_upd (part (levels o) d r) (part (levels o) d' r) (j_id j) f (jobs d) j HN Hj eq_refl); [lia|].
    intros j' Hj' Hn. apply part_eq. by apply Hheld.
  - intros j' Hj'. apply Hcase in Hj' as [->|[Hj' Hn]]; [done|by apply I9].
  - intros j' Hj' E. apply Hcase in Hj' as [->|[Hj' Hn]].
    + rewrite Hf1, Hf2. by apply Hw.
    + destruct (I5 j' Hj' E) as [H1 H2]. split; [by rewrite Hevs|]. intros x. rewrite Hasg; [apply H2|].
      intros E2. apply Hn. by rewrite (uniq_mld (jobs d) j' j HM Hj' Hj E2).
  - intros j' Hj' E Hsh. apply Hcase in Hj' as [->|[Hj' Hn]].
    + rewrite Hf1, Hf2. by apply Hs.
    + rewrite Hevs by done. rewrite Hheld by done. by apply I6.
  - intros j' Hj' HnT Hsh. apply Hcase in Hj' as [->|[Hj' Hn]].
    + rewrite Hf1 in *. by apply Hpl.
    + rewrite Hevs by done. apply I7; [done| |done]. intros H. by apply HnT, HT.
  - intros j' Hj' HnT. apply Hcase in Hj' as [->|[Hj' Hn]].
    + rewrite Hf1 in *. destruct (I8 j Hj) as (j0 & ? & ? & ?); [intros H; by apply HnT, HT|]. exists j0. split; [done|]. split; [done|]. rewrite Hty by done. done.
    + apply I8; [done|]. intros H. by apply HnT, HT.
Qed.
Lemma inv_more o d0 T T' d : Inv o d0 T d -> (forall i, i ∈ T -> i ∈ T') -> Inv o d0 T' d.
Proof.
  intros [I1 I2 I3 I4 I9 I5 I6 I7 I8] H. constructor; try done.
  - intros j Hj Hn. apply I7; [done|]. intros Ht. by apply Hn, H.
  - intros j Hj Hn. apply I8; [done|]. intros Ht. by apply Hn, H.
Qed.
Lemma set_row_jobs id f d : jobs (set_row id f d) = upd_row id f (jobs d).
Proof. done. Qed.
Lemma active_not_waiting s : s ∈ active_states -> s <> "Waiting"%string.
Proof. intros H ->. apply (bool_decide_eq_true_2 _) in H. vm_compute in H. discriminate. Qed.
Lemma update_evs o b j d e i : i <> j_id j -> (e, i) ∈ evs (update_priority o b j d) <-> (e, i) ∈ evs d.
Proof.
  intros H. unfold update_priority. destruct o; [|done]. destruct (shares _ && _); [|done]. destruct (_ && _); [done|]. cbn [evs].
  rewrite elem_of_app, elem_of_list_singleton. split; [intros [?|[= -> ->]]; done|by left].
Qed.
Lemma update_started o j d : (START, j_id j) ∈ evs d -> (START, j_id j) ∈ evs (update_priority (Some o) false j d).
Proof.
  intros H. unfold update_priority. destruct (shares _ && _); [|done]. destruct (_ && _); [done|]. cbn [evs]. apply elem_of_app. by left.
Qed.
Section steps.
Context (o : string) (d0 : db) (HF : fresh d0).
Lemma uniqs T d : Inv o d0 T d -> NoDup (r_id <$> rs d) /\ NoDup (j_id <$> jobs d) /\ NoDup (j_mld <$> jobs d).
Proof. destruct HF as (H0 & H1 & H2 & _). intros []. split; [congruence|]. split; congruence. Qed.

Lemma launch_inv T d id ids : Inv o d0 T d -> Inv o d0 T (launch (Some o) id ids d).
Proof.
  intros HI. unfold launch. destruct (get id d) as [j|] eqn:G; [|done]. case_bool_decide as Hst; [|done].
  destruct (get_in _ _ _ G) as [Hj <-]. destruct (uniqs T d HI) as (HR & HN & HM). destruct (i_wait _ _ _ _ HI j Hj Hst) as [HnS HnA].
  set (d1 := set_row _ _ _).
  destruct (update_rs (Some o) true j d1) as (U1 & U2 & U3).
  assert (Hp0 : forall r, part (levels o) d r j = 0) by (intros r; unfold part; by rewrite waiting_inactive).
  assert (Hheld : held (update_priority (Some o) true j d1) (j_mld j) = held d1 (j_mld j)) by (apply held_eq; [done|by rewrite U3]).
  eapply (step_inv o d0 T T d _ j (with_state "toLaunch")); [done..| | | | | | | | | | | |].
  - by rewrite U1.
  - by rewrite U2.
  - intros m x Hm. rewrite U3. cbn [asg d1 set_row]. rewrite elem_of_app. split; [|by left].
    intros [?|H]; [done|]. apply elem_of_list_fmap in H as (y & [= -> _] & _). done.
  - intros e i Hi. by rewrite update_evs.
  - done.
  - by left.
  - intros r Hr. rewrite Hp0. unfold part. cbn [with_state j_types j_mld]. replace (is_active (with_state "toLaunch" j)) with true by by_dec.
    rewrite Hheld. destruct (shares (j_types j)) eqn:Es.
    + destruct (update_on o true j d1) as [H1 _]; [split; [done|]; split; [intros H; by apply HnS in H|done]|done|]. rewrite H1 by done. cbn [prio d1 set_row]. lia.
    + rewrite update_off by (intros [? _]; congruence). unfold weight. rewrite factor_not by done. cbn [prio d1 set_row]. lia.
  - right; left. by_dec.
  - done.
  - intros _ Es. destruct (update_on o true j d1) as [_ [H1|(H1 & H2 & H3)]]; [split; [done|]; split; [intros H; by apply HnS in H|done]|done| |].
    + left. rewrite H1. apply elem_of_app. right. by apply elem_of_list_singleton.
    + right; right. by rewrite Hheld.
  - intros _ Es. cbn [with_state j_types] in Es. rewrite update_off by (intros [? _]; congruence). done.
  - done.
Qed.
Lemma move_inv T d id s : Inv o d0 T d -> Inv o d0 T (move id s d).
Proof.
  intros HI. unfold move. destruct (get id d) as [j|] eqn:G; [|done]. destruct (bool_decide (j_state j ∈ active_states)) eqn:E1; [|done].
  destruct (bool_decide (s ∈ _)) eqn:E2; [|done]. cbn [andb]. apply bool_decide_eq_true in E1, E2.
  assert (Hs : s ∈ active_states). { repeat (apply elem_of_cons in E2 as [->|E2]; [by_dec|]). by apply elem_of_nil in E2. }
  destruct (get_in _ _ _ G) as [Hj <-]. destruct (uniqs T d HI) as (HR & HN & HM).
  eapply (step_inv o d0 T T d _ j (with_state s)); try done.
  - by left.
  - intros r Hr. unfold part. cbn [with_state j_types j_mld]. unfold is_active. cbn [j_state with_state].
    rewrite !bool_decide_eq_true_2 by done. cbn [prio set_row]. change (held (set_row (j_id j) (with_state s) d) (j_mld j)) with (held d (j_mld j)). lia.
  - right; by left.
  - cbn. intros E. by apply active_not_waiting in E.
  - intros _ Es. by apply (i_share _ _ _ _ HI).
  - intros HT Es. by apply (i_plain _ _ _ _ HI).
Qed.
Lemma finish_inv T d id : Inv o d0 T d -> Inv o d0 T (finish (Some o) id d).
Proof.
  intros HI. unfold finish. destruct (get id d) as [j|] eqn:G; [|done]. case_bool_decide as Hst; [|done].
  destruct (get_in _ _ _ G) as [Hj <-]. destruct (uniqs T d HI) as (HR & HN & HM).
  set (d1 := set_row _ _ _). cbn zeta. destruct (update_rs (Some o) false j d1) as (U1 & U2 & U3).
  eapply (step_inv o d0 T T d _ j (with_state "Terminated")); [done..| | | | | | | | | | | |]; cbn [rs jobs asg evs prio].
  - by rewrite U1.
  - by rewrite U2.
  - intros m x Hm. rewrite U3. rewrite elem_of_list_filter. cbn. split; [by intros [_ ?]|done].
  - intros e i Hi. by rewrite update_evs.
  - done.
  - by left.
  - intros r Hr. unfold part at 1. replace (is_active (with_state "Terminated" j)) with false by by_dec. unfold part.
    destruct (decide (applies false j d)) as [Ha|Ha].
    2: { rewrite update_off by done. cbn [prio d1 set_row]. destruct (is_active j) eqn:Eact; [|lia].
         unfold weight. destruct (shares (j_types j)) eqn:Es; [|rewrite factor_not by done; lia].
         apply bool_decide_eq_true in Eact. destruct (i_share _ _ _ _ HI j Hj Eact Es) as [H|[H|H]].
         - exfalso. apply Ha. split; done.
         - rewrite H. cbn [burden]. lia.
         - rewrite H, burden_nil. lia. }
    destruct (update_on o false j d1) as [H1 _]; [done|done|]. rewrite H1 by done. cbn [prio d1 set_row].
    change (held d1 (j_mld j)) with (held d (j_mld j)).
    destruct (is_active j) eqn:Eact; [lia|]. exfalso. apply bool_decide_eq_false in Eact.
    destruct (i_state _ _ _ _ HI j Hj) as [H|[H|H]]; [|done|done]. destruct (i_wait _ _ _ _ HI j Hj H) as [H2 _]. apply H2. by apply Ha.
  - by right; right.
  - cbn. by intros ?.
  - intros H. apply (bool_decide_eq_true_2 _) in H. vm_compute in H. discriminate.
  - intros HT Es. cbn [with_state j_types] in Es. rewrite update_off by (intros [? _]; congruence). cbn [evs d1 set_row]. by apply (i_plain _ _ _ _ HI).
  - done.
Qed.
Lemma toggle_inv T d id : Inv o d0 T d -> id ∉ T -> ~ both_types d0 id -> Inv o d0 (id :: T) (toggle (Some o) id d).
Proof.
  intros HI HT HB. assert (HI' : Inv o d0 (id :: T) d) by (eapply inv_more; [done|]; intros; apply elem_of_cons; by right).
  unfold toggle. destruct (get id d) as [j|] eqn:G; [|done]. case_bool_decide as Hst; [|done].
  destruct (get_in _ _ _ G) as [Hj <-]. destruct (uniqs T d HI) as (HR & HN & HM).
  assert (Hact : j_state j ∈ active_states) by (rewrite Hst; by_dec).
  assert (Hia : is_active j = true) by (by apply bool_decide_eq_true_2).
  case_bool_decide as Hb.
  - destruct (update_rs (Some o) false j d) as (U1 & U2 & U3).
    assert (Hts : "timesharing"%string ∉ j_types j).
    { intros H. apply HB. destruct (i_types _ _ _ _ HI j Hj HT) as (j0 & H1 & H2 & H3). exists j0. rewrite H3. done. }
    set (f := with_types (filter (fun t => t <> "besteffort"%string))).
    assert (Hsh : shares (j_types (f j)) = false).
    { unfold shares. apply orb_false_iff. split; apply bool_decide_eq_false_2; cbn [f with_types j_types]; rewrite elem_of_list_filter; by intros [? ?]. }
    assert (Hso : shares (j_types j) = true) by (unfold shares; by rewrite bool_decide_eq_true_2).
    eapply (step_inv o d0 T (j_id j :: T) d _ j f); [done..| | | | | | | | | | | |]; rewrite ?set_row_jobs; cbn [rs asg evs prio set_row].
    + done.
    + by rewrite U2.
    + intros m x Hm. by rewrite U3.
    + intros e i Hi. by rewrite update_evs.
    + intros i Hi. apply elem_of_cons. by right.
    + intros i Hi. apply elem_of_cons in Hi as [->|Hi]; [by right|by left].
    + intros r Hr. unfold part. replace (is_active (f j)) with true by (symmetry; exact Hia). rewrite Hia.
      unfold weight at 1. rewrite (factor_not _ Hsh). destruct (decide (applies false j d)) as [Ha|Ha].
      * destruct (update_on o false j d Ha HR) as [H1 _]. rewrite H1 by done. lia.
      * rewrite update_off by done. destruct (i_share _ _ _ _ HI j Hj Hact Hso) as [H|[H|H]].
        -- exfalso. apply Ha. split; done.
        -- unfold weight. rewrite H. cbn [burden]. lia.
        -- unfold weight. rewrite H, burden_nil. lia.
    + right; by left.
    + cbn. intros E. by apply active_not_waiting in E.
    + intros _ H. congruence.
    + intros H. exfalso. apply H, elem_of_cons. by left.
    + intros H. exfalso. apply H, elem_of_cons. by left.
  - set (f := with_types (fun l => l ++ ["besteffort"%string])). cbn zeta. fold (f j).
    set (d1 := set_row _ f d).
    destruct (update_rs (Some o) true (f j) d1) as (U1 & U2 & U3).
    assert (Hsh : shares (j_types (f j)) = true).
    { unfold shares. rewrite bool_decide_eq_true_2; [done|]. cbn. apply elem_of_app. right. by apply elem_of_list_singleton. }
    assert (Hheld : held (update_priority (Some o) true (f j) d1) (j_mld j) = held d (j_mld j)) by (apply held_eq; [done|by rewrite U3]).
    assert (Hne : forall d2, held d2 (j_mld (f j)) = held d2 (j_mld j)) by done.
    eapply (step_inv o d0 T (j_id j :: T) d _ j f); [done..| | | | | | | | | | | |].
    + by rewrite U1.
    + by rewrite U2.
    + intros m x Hm. by rewrite U3.
    + intros e i Hi. by rewrite update_evs.
    + intros i Hi. apply elem_of_cons. by right.
    + intros i Hi. apply elem_of_cons in Hi as [->|Hi]; [by right|by left].
    + intros r Hr. unfold part. replace (is_active (f j)) with true by (symmetry; exact Hia). rewrite Hia, Hne, Hheld.
      destruct (decide ("timesharing"%string ∈ j_types j)) as [Hts|Hts].
      * assert (Hso : shares (j_types j) = true) by (unfold shares; rewrite (bool_decide_eq_true_2 ("timesharing"%string ∈ _)) by done; by rewrite orb_true_r).
        assert (Ef : factor (j_types (f j)) = factor (j_types j)).
        { unfold factor. rewrite (decide_False (P := "besteffort"%string ∈ j_types j)) by done.
          rewrite (decide_True (P := "timesharing"%string ∈ j_types j)) by done.
          rewrite (decide_True (P := "timesharing"%string ∈ j_types (f j))) by (cbn; apply elem_of_app; by left).
          rewrite (decide_True (P := "besteffort"%string ∈ j_types (f j))); [done|]. cbn. apply elem_of_app. right. by apply elem_of_list_singleton. }
        destruct (decide (applies true (f j) d1)) as [Ha|Ha].
        -- destruct (update_on o true (f j) d1 Ha HR) as [H1 _]. rewrite H1 by done. cbn [prio d1 set_row]. change (held d1 (j_mld (f j))) with (held d (j_mld j)).
           unfold weight. rewrite Ef. destruct (i_share _ _ _ _ HI j Hj Hact Hso) as [H|[H|H]].
           ++ destruct Ha as [_ Ha]. apply Ha in H. discriminate.
           ++ rewrite H. cbn [burden]. lia.
           ++ rewrite H, burden_nil. lia.
        -- rewrite update_off by done. unfold weight. rewrite Ef. cbn [prio d1 set_row]. lia.
      * assert (Hso : shares (j_types j) = false) by (unfold shares; by rewrite !bool_decide_eq_false_2).
        pose proof (i_plain _ _ _ _ HI j Hj HT Hso) as HnS.
        destruct (update_on o true (f j) d1) as [H1 _]; [split; [done|]; split; [intros H; by apply HnS in H|done]|done|].
        rewrite H1 by done. unfold weight at 2 3. rewrite (factor_not _ Hso). cbn [prio d1 set_row]. change (held d1 (j_mld (f j))) with (held d (j_mld j)). unfold weight. lia.
    + right; by left.
    + cbn. intros E. by apply active_not_waiting in E.
    + intros _ _. destruct (decide (applies true (f j) d1)) as [Ha|Ha].
      * destruct (update_on o true (f j) d1 Ha HR) as [_ [H1|(H1 & H2 & H3)]].
        -- left. rewrite H1. apply elem_of_app. right. by apply elem_of_list_singleton.
        -- right; right. by rewrite Hheld.
      * left. rewrite update_off by done. destruct (decide ((START, j_id j) ∈ evs d)) as [H|H]; [done|]. exfalso. apply Ha. split; [done|]. split; [intros H2; by apply H in H2|done].
    + intros H. exfalso. apply H, elem_of_cons. by left.
    + intros H. exfalso. apply H, elem_of_cons. by left.
Qed.
Lemma run_inv h : ordinary h -> NoDup (toggled h) -> (forall id, id ∈ toggled h -> ~ both_types d0 id) ->
  exists T, Inv o d0 T (run (Some o) d0 h) /\ forall i, i ∈ T -> i ∈ toggled h.
Proof.
  induction h as [|s h IH] using rev_ind; intros HO HN HB.
  - exists []. split; [by apply init_inv|]. intros i Hi. by apply elem_of_nil in Hi.
  - assert (HO' : ordinary h) by (intros x Hx; apply HO, elem_of_app; by left).
    assert (Htg : toggled (h ++ [s]) = toggled h ++ toggled [s]) by (unfold toggled; by rewrite omap_app).
    rewrite Htg in *. apply NoDup_app in HN as (HN1 & HN2 & _).
    destruct IH as (T & HI & HT); [done|done|intros; apply HB, elem_of_app; by left|].
    unfold run in *. rewrite fold_left_app. cbn [fold_left]. set (d := fold_left _ h d0) in *.
    assert (Hs : match s with FinishCut _ | SetColumn _ _ _ => False | _ => True end) by (apply HO, elem_of_app; right; by apply elem_of_list_singleton).
    assert (Hk : forall i, i ∈ T -> i ∈ toggled h ++ toggled [s]) by (intros; apply elem_of_app; left; by apply HT).
    destruct s as [id ids|id st|id|id|id|id f v]; cbn [step].
    + exists T. split; [by apply launch_inv|done].
    + exists T. split; [by apply move_inv|done].
    + exists T. split; [by apply finish_inv|done].
    + exists (id :: T). split.
      * apply toggle_inv; [done| |apply HB, elem_of_app; right; cbn; by apply elem_of_list_singleton].
        intros H. apply (HN2 id); [by apply HT|]. cbn. by apply elem_of_list_singleton.
      * intros i Hi. apply elem_of_cons in Hi as [->|Hi]; [|by apply Hk]. apply elem_of_app. right. cbn. by apply elem_of_list_singleton.
    + done.
    + done.
Qed.
End steps.
Lemma none_prio h d : prio (run None d h) = prio d.
Proof.
  induction h as [|s h IH] using rev_ind; [done|]. unfold run in *. rewrite fold_left_app. cbn [fold_left]. rewrite <- IH. set (d1 := fold_left _ h d).
  destruct s as [id ids|id st|id|id|id|id f v]; cbn [step]; [unfold launch|unfold move|unfold finish|unfold toggle|done|done];
    (destruct (get id d1); [|done]); repeat (destruct (bool_decide _); try done).
Qed.

(** * The theorems *)
Theorem C145_balance order d0 h : fresh d0 -> ordinary h -> NoDup (toggled h) -> (forall id, id ∈ toggled h -> ~ both_types d0 id) ->
  forall r, r ∈ rs d0 -> prio (run order d0 h) (r_id r) = expected order (prio d0) (run order d0 h) r.
Proof.
  intros HF HO HN HB r Hr. destruct order as [o|]; [|by rewrite none_prio]. destruct (run_inv o d0 HF h HO HN HB) as (T & HI & _).
  unfold expected. rewrite sum_parts. apply (i_prio _ _ _ _ HI). by rewrite (i_rs _ _ _ _ HI).
Qed.
Theorem C145_back order d0 h : fresh d0 -> ordinary h -> NoDup (toggled h) -> (forall id, id ∈ toggled h -> ~ both_types d0 id) ->
  (forall j, j ∈ jobs (run order d0 h) -> j_state j ∉ active_states) ->
  forall r, r ∈ rs d0 -> prio (run order d0 h) (r_id r) = prio d0 (r_id r).
Proof.
  intros HF HO HN HB HE r Hr. rewrite (C145_balance order d0 h HF HO HN HB r Hr). unfold expected. destruct order; [|done].
  replace (occupying (run (Some s) d0 h)) with (@nil jrow); [cbn; lia|]. unfold occupying. symmetry.
  destruct (filter _ _) as [|j l] eqn:E; [done|]. exfalso.
  assert (H : j ∈ filter (fun j => j_state j ∈ active_states) (jobs (run (Some s) d0 h))) by (rewrite E; apply elem_of_cons; by left).
  apply elem_of_list_filter in H as [H1 H2]. by apply (HE j).
Qed.

Theorem C145_held d m r : r ∈ held d m <-> r ∈ rs d /\ (m, r_id r) ∈ asg d.
Proof. unfold held. rewrite elem_of_list_filter. tauto. Qed.
(** "/a/b/c", also with repeated or final slashes, names a, b, c in this order. *)
Theorem C145_levels a s : lacks ["/"%char] a ->
  levels (a +:+ String "/" s) = (if decide (a = ""%string) then [] else [a]) ++ levels s /\
  levels a = if decide (a = ""%string) then [] else [a].
Proof.
  intros H. unfold levels. rewrite ReqProps.split_on_sep by done. rewrite (ReqProps.split_on_lacks "/" a) by done. rewrite !filter_cons, filter_nil.
  destruct (decide (a = ""%string)) as [->|E].
  - split; reflexivity.
  - destruct (decide (a <> ""%string)); [|done]. split; reflexivity.
Qed.

(** ** Examples *)
Definition no_cols : string -> option string := fun f => if bool_decide (f = "network_address"%string) then Some "n1"%string else None.
Definition ex_db (types : list string) : db := mkDb [mkR 1 no_cols; mkR 2 no_cols; mkR 3 (fun _ => None)] (fun _ => 0)
  [mkJ 7 "Waiting" types 70; mkJ 8 "Waiting" ["timesharing"%string] 80] [] [].
Definition ex_order : option string := Some "/network_address/resource_id"%string.
Definition prios (d : db) : list Z := (fun r => prio d (r_id r)) <$> rs d.
(** One best-effort job on resource 1: its node counts for 20, the resource itself for 40 more. *)
Theorem C145_example : fresh (ex_db ["besteffort"%string]) /\
  prios (run ex_order (ex_db ["besteffort"%string]) [Launch 7 [1]; Move 7 "Running"]) = [60; 20; 0] /\
  prios (run ex_order (ex_db ["besteffort"%string]) [Launch 7 [1]; Launch 8 [1; 2; 3]; Move 7 "Running"; Toggle 7]) = [6; 6; 4] /\
  prios (run ex_order (ex_db ["besteffort"%string]) [Launch 7 [1]; Launch 8 [1; 2; 3]; Move 7 "Running"; Toggle 7; Finish 7; Finish 8]) = [0; 0; 0].
Proof.
  split; [|split; [|split]; reflexivity]. unfold fresh. split; [by_dec|]. split; [by_dec|]. split; [by_dec|].
  split; [|done]. intros j Hj. apply elem_of_cons in Hj as [->|Hj]; [done|]. apply elem_of_cons in Hj as [->|Hj]; [done|]. by apply elem_of_nil in Hj.
Qed.
(** oardel --besteffort twice on a best-effort job: once it has ended, its resources are below their priority. *)
Theorem C146_twice_refuted : let d := run ex_order (ex_db ["besteffort"%string]) [Launch 7 [1]; Move 7 "Running"; Toggle 7; Toggle 7; Finish 7] in
  prios d = [-60; -20; 0] /\ j_state <$> jobs d = ["Terminated"; "Waiting"]%string.
Proof. split; reflexivity. Qed.
(** Once on a job that is both best-effort and time-sharing. *)
Theorem C146_both_refuted : let d := run ex_order (ex_db ["besteffort"; "timesharing"]%string) [Launch 7 [1]; Move 7 "Running"; Toggle 7; Finish 7] in
  prios d = [-6; -2; 0].
Proof. reflexivity. Qed.
(** A resource moved to another node while a best-effort job runs on it. *)
Theorem C146_moved_refuted : let d := run ex_order (ex_db ["besteffort"%string]) [Launch 7 [1]; SetColumn 1 "network_address" "n2"; Finish 7] in
  prios d = [0; 20; 0].
Proof. reflexivity. Qed.
(** A job whose launch was not counted (killed before the update) is not discounted at its end. *)
Theorem C146_uncounted order id d : (START, id) ∉ evs d -> prio (finish order id d) = prio d.
Proof.
  intros H. unfold finish. destruct (get id d) as [j|] eqn:G; [|done]. destruct (get_in _ _ _ G) as [_ <-]. case_bool_decide; [|done]. cbn [prio].
  destruct order; [|done]. rewrite update_off; [done|]. intros [_ Ha]. apply H. by apply Ha.
Qed.
(** A kill between the commit of the final state and the update. *)
Theorem C146_kill_refuted : let d := run ex_order (ex_db ["besteffort"%string]) [Launch 7 [1]; FinishCut 7; Finish 7] in
  prios d = [60; 20; 0] /\ j_state <$> jobs d = ["Terminated"; "Waiting"]%string.
Proof. split; reflexivity. Qed.
Print Assumptions C145_balance.
Print Assumptions C145_back.
Print Assumptions C145_example.
Print Assumptions C146_twice_refuted.
Print Assumptions C146_both_refuted.
Print Assumptions C146_moved_refuted.
Print Assumptions C146_uncounted.
Print Assumptions C146_kill_refuted.
Print Assumptions C145_held.
Print Assumptions C145_levels.
