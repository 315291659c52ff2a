(** Walltime changes: C33 (walltime part), C34, C35, C64, C65. *)
From Verif Require Import Base JobModel JobSpec JobProofs JobLife JobProps TimeModel WalltimeModel.

(** ** C33: walltime changes *)
Theorem C33_walltime_only_owner cf now id user s force delay d d' :
  request cf now id user s force delay d = Ok (0, d') ->
  exists j, j ∈ jobs d /\ j_id j = id /\ (user = j_user j \/ user = "oar"%string \/ user = "root"%string).
Proof.
  unfold request. destruct (negb (bool_decide (enabled cf = _))); [done|]. destruct (get_job d id) as [j|] eqn:E; [|done].
  apply get_job_in in E as [Hj Hid]. destruct (negb (bool_decide (j_user j = user)) && _) eqn:Eu; [done|]. intros _. exists j. split; [done|]. split; [done|].
  apply andb_false_iff in Eu as [Eu|Eu]; apply negb_false_iff, bool_decide_eq_true in Eu; [by left|]. set_solver.
Qed.
Theorem C33_walltime_refused_no_effect cf now id user s force delay d c d' :
  request cf now id user s force delay d = Ok (c, d') -> c <> 0 -> d' = d.
Proof. unfold request. repeat case_match; intros [= <- <-]; done. Qed.
(** Forcing and delaying other jobs are only for the users the configuration names. *)
Theorem C33_force_allowed cf now id user s force delay d d' :
  request cf now id user s force delay d = Ok (0, d') ->
  (force = true -> user_in user (force_users cf) = true) /\ (delay = true -> user_in user (delay_users cf) = true).
Proof.
  unfold request. destruct (negb (bool_decide (enabled cf = _))); [done|]. destruct (get_job d id) as [j|] eqn:E; [|done].
  destruct (_ && _); [done|]. destruct (negb _); [done|]. destruct (filter _ (mlds d)) as [|m [|]]; [done| |done]. destruct (get_conf _ _ _); [|done].
  destruct (parse_change _ _); [|done]. case_bool_decide; [done|]. destruct (force && _) eqn:Ef; [done|]. destruct (delay && _) eqn:Ed; [done|]. intros _.
  split; intros ->; cbn [andb] in *; by apply negb_false_iff.
Qed.

(** ** The amount granted *)
Lemma possible_end_le env from to res delay excl : 0 < to ->
  (forall p, p ∈ preds env -> from < p_start p -> security env + 1 < p_start p) ->
  possible_end env from to res delay excl <= to /\
  forall p, p ∈ preds env -> from < p_start p -> excl p = false -> p_res p ∈ res -> (if delay then p_reservation p else true) = true ->
    possible_end env from to res delay excl + security env <= p_start p.
Proof.
  intros Hto Hpos. unfold possible_end.
  set (l := p_start <$> _).
  assert (Hl : forall s, s ∈ l -> security env + 1 < s).
  { intros s Hs. unfold l in Hs. apply elem_of_list_fmap in Hs as (p & -> & Hp). apply elem_of_list_filter in Hp as [(_ & ? & _) ?]. apply Hpos; [done|lia]. }
  assert (Hfold : forall l first, 0 < first -> (forall s, s ∈ l -> security env + 1 < s) ->
    let r := fold_left (fun first s => if (first =? 0) || (s - security env <? first) then s - security env - 1 else first) l first in
    r <= first /\ forall s, s ∈ l -> r + security env <= s).
  { clear. induction l as [|s l IH]; intros first Hf Hl; cbn [fold_left]; [split; [lia|]; intros s Hs; by apply elem_of_nil in Hs|].
    assert (Hs : security env + 1 < s) by (apply Hl; left).
    set (first' := if (first =? 0) || (s - security env <? first) then s - security env - 1 else first).
    assert (0 < first' /\ first' <= first /\ first' + security env <= s) as (H1 & H2 & H3).
    { unfold first'. destruct (first =? 0) eqn:E0; [lia|]. cbn [orb]. destruct (s - security env <? first) eqn:E1; lia. }
    destruct (IH first' H1) as [H4 H5]; [intros; apply Hl; by right|]. split; [lia|]. intros x Hx. apply elem_of_cons in Hx as [->|Hx]; [lia|by apply H5]. }
  destruct (Hfold l to Hto Hl) as [H1 H2]. split; [done|]. intros p Hp Hf He Hr Hd.
  destruct (decide (p_start p <= to + security env)) as [Hle|Hgt].
  - apply H2. unfold l. apply elem_of_list_fmap. exists p. split; [done|]. apply elem_of_list_filter. done.
  - lia.
Qed.
(** Times are after the origin by more than the security time; walltimes are not negative. *)
Definition sane (env : wenv) (j : job) (m : mld) : Prop := 0 <= security env < j_start j /\ 0 <= m_wall m.
Lemma suspended_sum_nonneg now id d : 0 <= suspended_sum now id d.
Proof.
  unfold suspended_sum. generalize (filter (fun e => l_job e = id /\ (l_state e = "Suspended" \/ l_state e = "Resuming")%string) (logs d)). intros l.
  assert (forall a, 0 <= a -> 0 <= fold_left (fun acc e => let t := (if l_stop e =? 0 then now else l_stop e) - l_start e in if 0 <? t then acc + t else acc) l a) as H; [|by apply H].
  induction l as [|e l IH]; intros a Ha; [done|]. cbn [fold_left]. apply IH. cbv zeta. destruct (0 <? _) eqn:E; lia.
Qed.
Lemma grant_pos env now d j m w fit : 0 < w_pending w -> sane env j m -> grant env now d j m w = Ok (Some fit) ->
  0 < fit <= w_pending w.
Proof.
  intros Hp (Hs & Hw). unfold grant. replace (0 <? w_pending w) with true by lia.
  destruct (get_conf (apply_conf env) _ _) as [ap|]; [|done]. destruct (get_conf (incr_conf env) _ _) as [inc|]; [|done].
  destruct (negb _ && _ && _); [done|].
  set (fit0 := if negb (bool_decide (w_force w = "YES"%string)) && (0 <? inc) && (inc <? w_pending w) then inc else w_pending w).
  assert (Hf0 : 0 < fit0 <= w_pending w). { unfold fit0. destruct (negb _); cbn [andb]; [|lia]. destruct (0 <? inc) eqn:E1; cbn [andb]; [|lia]. destruct (inc <? w_pending w) eqn:E2; lia. }
  clearbody fit0. pose proof (suspended_sum_nonneg now (j_id j) d) as Hsu. set (from := j_start j + m_wall m + suspended_sum now (j_id j) d) in *.
  intros H. apply rbind_Ok in H as (to & Hto & H). apply rbind_Ok in H as (excl & _ & H).
  assert (to <= from + fit0). { destruct (assoc "inner" _); [|injection Hto as <-; lia]. apply rbind_Ok in Hto as (e & _ & Hto). injection Hto as <-. destruct (e <? _) eqn:E; lia. }
  destruct (_ <=? 0) eqn:E in H; [done|]. injection H as <-.
  destruct (decide (0 < to)) as [Hpos|Hneg].
  - destruct (possible_end_le env from to (rids env (m_id m)) (bool_decide (w_delay w = "YES"%string)) excl Hpos) as [Hle _]; [intros; lia|]. lia.
  - (* the container ends before the origin of time: nothing is granted *)
    exfalso. assert (possible_end env from to (rids env (m_id m)) (bool_decide (w_delay w = "YES"%string)) excl <= 0) as Hle; [|lia].
    unfold possible_end. match goal with |- fold_left _ ?l _ <= 0 => destruct l as [|s l'] eqn:El end; [cbn [fold_left]; lia|].
    exfalso. match type of El with ?l = _ => assert (s ∈ l) as Hin by (rewrite El; left) end.
    apply elem_of_list_fmap in Hin as (p & -> & Hp'). apply elem_of_list_filter in Hp' as [(_ & ? & _) _]. lia.
Qed.
Lemma grant_neg env now d j m w fit : w_pending w < 0 -> grant env now d j m w = Ok (Some fit) ->
  now <= j_start j + m_wall m + suspended_sum now (j_id j) d ->
  w_pending w <= fit <= 0 /\ now <= j_start j + (m_wall m + fit) + suspended_sum now (j_id j) d.
Proof.
  intros Hp. unfold grant. replace (0 <? w_pending w) with false by lia. replace (w_pending w <? 0) with true by lia. intros [= <-] Hnow.
  destruct (_ <? - w_pending w) eqn:E; lia.
Qed.

(** ** One request at a time *)
Definition wrows (id : Z) (d : db) : list wtc * list mld * list slog :=
  (filter (fun w => w_job w = id) (wtcs d), filter (fun m => m_job m = id) (mlds d), logs d).
Lemma filter_upd_w id i f l : (forall w, w_job (f w) = w_job w) -> filter (fun w => w_job w = i) (upd (fun w => w_job w = id) f l) = upd (fun w => w_job w = id) f (filter (fun w => w_job w = i) l).
Proof.
  intros Hf. unfold upd. induction l as [|w l IH]; [done|]. cbn [fmap list_fmap]. destruct (decide (w_job w = i)) as [E|E].
  - rewrite (filter_cons_True _ w) by done. cbn [fmap list_fmap]. rewrite filter_cons_True by (destruct (decide _); [by rewrite Hf|done]). by rewrite IH.
  - rewrite (filter_cons_False _ w) by done. rewrite filter_cons_False by (destruct (decide _); [by rewrite Hf|done]). done.
Qed.
Lemma filter_upd_m id i f l : (forall w, m_job (f w) = m_job w) -> filter (fun w => m_job w = i) (upd (fun w => m_job w = id) f l) = upd (fun w => m_job w = id) f (filter (fun w => m_job w = i) l).
Proof.
  intros Hf. unfold upd. induction l as [|w l IH]; [done|]. cbn [fmap list_fmap]. destruct (decide (m_job w = i)) as [E|E].
  - rewrite (filter_cons_True _ w) by done. cbn [fmap list_fmap]. rewrite filter_cons_True by (destruct (decide _); [by rewrite Hf|done]). by rewrite IH.
  - rewrite (filter_cons_False _ w) by done. rewrite filter_cons_False by (destruct (decide _); [by rewrite Hf|done]). done.
Qed.
Lemma process_one_other env now j m w id d d' : j_id j <> id -> process_one env now (j, m, w) d = Ok d' -> wrows id d' = wrows id d.
Proof.
  intros Hi. unfold process_one. intros H. apply rbind_Ok in H as (g & _ & H). destruct g as [fit|]; injection H as <-; [|done].
  unfold wrows, change_walltime, update_request. cbn [wtcs mlds logs with_wtcs with_mlds add_event with_events].
  rewrite filter_upd_w, filter_upd_m by done. rewrite !upd_none; [done|..].
  - intros x Hx ?. apply elem_of_list_filter in Hx as [? _]. congruence.
  - intros x Hx ?. apply elem_of_list_filter in Hx as [? _]. congruence.
Qed.
Lemma process_list_other env now l id d d' : (forall x, x ∈ l -> j_id x.1.1 <> id) -> process_list env now l d = Ok d' -> wrows id d' = wrows id d.
Proof.
  revert d. induction l as [|[[j m] w] l IH]; intros d Hl H; [by injection H as <-|]. cbn [process_list] in H. apply rbind_Ok in H as (d1 & H1 & H2).
  rewrite (IH d1) by (try done; intros; apply Hl; by right). apply (process_one_other env now j m w); [|done]. apply (Hl (j, m, w)). left.
Qed.
Lemma process_list_app env now l1 l2 d d' : process_list env now (l1 ++ l2) d = Ok d' -> exists d1, process_list env now l1 d = Ok d1 /\ process_list env now l2 d1 = Ok d'.
Proof.
  revert d. induction l1 as [|x l1 IH]; intros d H; [eauto|]. cbn [app process_list] in *. apply rbind_Ok in H as (d1 & H1 & H2). rewrite H1. cbn [rbind]. by apply IH.
Qed.
(** The requests treated: one per job. *)
Lemma to_process_in env d j m w : (j, m, w) ∈ to_process env d <-> j ∈ jobs d /\ j_state j = "Running"%string /\ m ∈ mlds d /\ m_id m = j_mld j /\ w ∈ wtcs d /\ w_job w = j_id j /\ w_pending w <> 0 /\ rids env (m_id m) <> [].
Proof.
  unfold to_process. rewrite elem_of_list_bind. split.
  - intros (j' & H & Hj'). apply elem_of_list_filter in Hj' as [? ?]. apply elem_of_list_bind in H as (m' & H & Hm'). apply elem_of_list_filter in Hm' as [? ?].
    apply elem_of_list_bind in H as (w' & H & Hw'). apply elem_of_list_filter in Hw' as [[? ?] ?]. destruct (rids env (m_id m')) eqn:E; [by apply elem_of_nil in H|].
    apply elem_of_list_singleton in H as [= -> -> ->]. rewrite E. done.
  - intros (H1 & H2 & H3 & H4 & H5 & H6 & H7 & H8). exists j. split; [|by apply elem_of_list_filter]. apply elem_of_list_bind. exists m. split; [|by apply elem_of_list_filter].
    apply elem_of_list_bind. exists w. split; [|by apply elem_of_list_filter]. destruct (rids env (m_id m)); [done|]. left.
Qed.
Definition wtc_uniq (d : db) : Prop := NoDup (w_job <$> wtcs d) /\ NoDup (m_id <$> mlds d).
Lemma at_most_one {A} (f : A -> Z) (P : A -> Prop) `{!forall x, Decision (P x)} l : NoDup (f <$> l) -> (forall x y, P x -> P y -> f x = f y) -> (length (filter P l) <= 1)%nat.
Proof.
  intros HN HP. induction l as [|x l IH]; [cbn; lia|]. cbn [fmap list_fmap] in HN. apply NoDup_cons in HN as [H1 H2]. rewrite filter_cons. destruct (decide (P x)) as [Hx|Hx]; [|by apply IH].
  destruct (filter P l) as [|y ?] eqn:E; [cbn; lia|]. exfalso. apply H1. assert (y ∈ filter P l) as Hy by (rewrite E; left). apply elem_of_list_filter in Hy as [Hy1 Hy2].
  apply elem_of_list_fmap. exists y. split; [|done]. by apply HP.
Qed.
Lemma to_process_nodup env d : uniq d -> wtc_uniq d -> NoDup ((fun x => j_id x.1.1) <$> to_process env d).
Proof.
  intros HU [HW HM]. unfold to_process, uniq in *. revert HU. induction (jobs d) as [|j l IH]; intros HU; [apply NoDup_nil_2|].
  cbn [fmap list_fmap] in HU. apply NoDup_cons in HU as [H1 H2]. rewrite filter_cons. destruct (decide (j_state j = "Running"%string)); [|by apply IH].
  cbn [mbind list_bind]. rewrite fmap_app. apply NoDup_app. split; [|split; [|by apply IH]].
  - pose proof (at_most_one m_id (fun m => m_id m = j_mld j) (mlds d) HM ltac:(intros; congruence)) as L1.
    destruct (filter _ (mlds d)) as [|m [|]]; cbn [length] in L1; [apply NoDup_nil_2| |lia]. cbn [mbind list_bind]. rewrite app_nil_r.
    pose proof (at_most_one w_job (fun w => w_job w = j_id j /\ w_pending w <> 0) (wtcs d) HW ltac:(intros ? ? [] []; congruence)) as L2.
    destruct (filter _ (wtcs d)) as [|w [|]]; cbn [length] in L2; [apply NoDup_nil_2| |lia]. cbn [mbind list_bind]. rewrite app_nil_r.
    destruct (rids env (m_id m)); [apply NoDup_nil_2|apply NoDup_singleton].
  - assert (Hin : forall x L, x ∈ (fun x : job * mld * wtc => j_id x.1.1) <$> (L ≫= (fun j => m ← filter (fun m => m_id m = j_mld j) (mlds d); w ← filter (fun w => w_job w = j_id j /\ w_pending w <> 0) (wtcs d); match rids env (m_id m) with [] => [] | _ => [(j, m, w)] end)) -> exists y, y ∈ L /\ j_id y = x).
    { intros x L Hx. apply elem_of_list_fmap in Hx as ([[a b] c] & -> & Hx). apply elem_of_list_bind in Hx as (y & Hy & Hl). exists y. split; [done|].
      apply elem_of_list_bind in Hy as (m & Hy & _). apply elem_of_list_bind in Hy as (w & Hy & _). destruct (rids env (m_id m)); [by apply elem_of_nil in Hy|]. apply elem_of_list_singleton in Hy as [= -> -> ->]. done. }
    intros x Hx Hx'. apply Hin in Hx' as (y & Hy & <-). apply elem_of_list_filter in Hy as [_ Hy].
    destruct (Hin (j_id y) [j]) as (z & Hz & Hzy). { cbn [mbind list_bind]. by rewrite app_nil_r. } apply elem_of_list_singleton in Hz as ->. apply H1. rewrite Hzy. apply elem_of_list_fmap. eauto.
Qed.

Lemma process_one_jobs env now x d d' : process_one env now x d = Ok d' -> jobs d' = jobs d.
Proof. destruct x as [[j m] w]. unfold process_one. intros H. apply rbind_Ok in H as (g & _ & H). destruct g; injection H as <-; done. Qed.
Lemma process_list_jobs env now l d d' : process_list env now l d = Ok d' -> jobs d' = jobs d.
Proof. revert d. induction l as [|x l IH]; intros d H; [by injection H as <-|]. cbn [process_list] in H. apply rbind_Ok in H as (d1 & H1 & H2). rewrite (IH d1) by done. by apply process_one_jobs in H1. Qed.
(** [fit] seconds went from pending to granted and to the walltime. *)
Definition moved (j : job) (m : mld) (w : wtc) (fit : Z) (d' : db) : Prop :=
  (exists w', w' ∈ wtcs d' /\ w_job w' = w_job w /\ w_pending w' = w_pending w - fit /\ w_granted w' = w_granted w + fit) /\
  (exists m', m' ∈ mlds d' /\ m_id m' = m_id m /\ m_job m' = m_job m /\ m_wall m' = m_wall m + fit).
Definition treated (env : wenv) (now : Z) (d : db) (j : job) (m : mld) (w : wtc) (fit : Z) : Prop :=
  w_pending w <> 0 /\ exists d1, jobs d1 = jobs d /\ logs d1 = logs d /\ grant env now d1 j m w = Ok (Some fit).
Lemma process_at env now d d' j m w :
  uniq d -> wtc_uniq d -> process env now d = Ok d' ->
  j ∈ jobs d -> w ∈ wtcs d -> w_job w = j_id j -> m ∈ mlds d -> m_id m = j_mld j -> m_job m = j_id j ->
  exists fit, moved j m w fit d' /\ (fit = 0 \/ treated env now d j m w fit).
Proof.
  intros HU HWU HP Hj Hw Hwj Hm Hmid Hmj. set (id := j_id j). unfold process in HP.
  assert (Hsame : wrows id d' = wrows id d -> moved j m w 0 d' /\ (0 = 0 \/ treated env now d j m w 0)).
  { intros E. unfold wrows in E. injection E as E1 E2 E3. split; [split|by left].
    - exists w. repeat split; try lia. assert (w ∈ filter (fun w => w_job w = id) (wtcs d')) as H by (rewrite E1; by apply elem_of_list_filter). by apply elem_of_list_filter in H as [_ ?].
    - exists m. repeat split; try lia. assert (m ∈ filter (fun m => m_job m = id) (mlds d')) as H by (rewrite E2; by apply elem_of_list_filter). by apply elem_of_list_filter in H as [_ ?].
  }
  assert (Honly : forall j' m' w', (j', m', w') ∈ to_process env d -> j_id j' = id -> (j', m', w') = (j, m, w)).
  { intros j' m' w' Hx E.
    apply to_process_in in Hx as (H1 & H2 & H3 & H4 & H5 & H6 & H7 & H8).
    assert (j' = j) as -> by (by apply (uniq_eq d)).
    assert (m' = m) as ->. { destruct HWU as [_ HM]. apply elem_of_list_lookup in H3 as [a Ha]. apply elem_of_list_lookup in Hm as [b Hb].
      assert (a = b) as ->; [|congruence]. apply (NoDup_lookup _ a b (j_mld j) HM); rewrite list_lookup_fmap, ?Ha, ?Hb; cbn; congruence. }
    assert (w' = w) as ->. { destruct HWU as [HW _]. apply elem_of_list_lookup in H5 as [a Ha]. apply elem_of_list_lookup in Hw as [b Hb].
      assert (a = b) as ->; [|congruence]. apply (NoDup_lookup _ a b id HW); rewrite list_lookup_fmap, ?Ha, ?Hb; cbn; congruence. }
    done. }
  destruct (decide (id ∈ (fun x => j_id x.1.1) <$> to_process env d)) as [Hin|Hnin].
  - apply elem_of_list_fmap in Hin as ([[j' m'] w'] & Eid & Hin). cbn [fst] in Eid. rewrite (Honly j' m' w' Hin) in Hin by done. clear Eid j' m' w' Honly.
    pose proof (to_process_nodup env d HU HWU) as HN. apply elem_of_list_split in Hin as (l1 & l2 & El). rewrite El in *.
    rewrite fmap_app in HN. apply NoDup_app in HN as (N1 & N2 & N3). cbn [fmap list_fmap fst] in N2, N3. apply NoDup_cons in N3 as [N3 N4].
    apply process_list_app in HP as (d1 & HP1 & HP2). cbn [process_list] in HP2. apply rbind_Ok in HP2 as (d2 & HP2 & HP3).
    assert (R1 : wrows id d1 = wrows id d).
    { apply (process_list_other env now l1); [|done]. intros x Hx E. apply (N2 id); [|left]. apply elem_of_list_fmap. eauto. }
    assert (R3 : wrows id d' = wrows id d2).
    { apply (process_list_other env now l2); [|done]. intros x Hx E. apply N3. apply elem_of_list_fmap. eauto. }
    unfold process_one in HP2. apply rbind_Ok in HP2 as (g & Hg & HP2). assert (Hlogs : logs d1 = logs d) by (unfold wrows in R1; congruence).
    assert (Hsusp : suspended_sum now id d1 = suspended_sum now id d) by (unfold suspended_sum; by rewrite Hlogs).
    destruct g as [fit|]; injection HP2 as <-; [|exists 0; apply Hsame; congruence].
    exists fit. unfold wrows in R1, R3. injection R1 as R1w R1m _. injection R3 as R3w R3m _.
    unfold change_walltime, update_request in R3w, R3m. cbn [wtcs mlds with_wtcs with_mlds add_event with_events] in R3w, R3m.
    rewrite filter_upd_w in R3w by done. rewrite filter_upd_m in R3m by done. rewrite R1w in R3w. rewrite R1m in R3m. split; [split|right].
    + assert (w ∈ filter (fun w => w_job w = id) (wtcs d)) as Hin by (by apply elem_of_list_filter).
      match type of R3w with _ = upd _ ?f _ => assert (f w ∈ filter (fun w => w_job w = id) (wtcs d')) as H; [rewrite R3w; apply upd_elem; exists w; split; [done|]; by rewrite decide_True|] end.
      apply elem_of_list_filter in H as [_ H]. eexists. split; [exact H|]. cbn. done.
    + assert (m ∈ filter (fun m => m_job m = id) (mlds d)) as Hin by (by apply elem_of_list_filter).
      match type of R3m with _ = upd _ ?f _ => assert (f m ∈ filter (fun m => m_job m = id) (mlds d')) as H; [rewrite R3m; apply upd_elem; exists m; split; [done|]; by rewrite decide_True|] end.
      apply elem_of_list_filter in H as [_ H]. eexists. split; [exact H|]. cbn. done.
    + assert (w_pending w <> 0) as Hp0. { assert ((j, m, w) ∈ to_process env d) as Hx by (rewrite El; set_solver). by apply to_process_in in Hx as (_ & _ & _ & _ & _ & _ & ? & _). }
      split; [done|]. exists d1. split; [|split; [done|done]]. apply (process_list_jobs _ _ _ _ _ HP1).
  - exists 0. apply Hsame. apply (process_list_other env now (to_process env d)); [|done]. intros x Hx E. apply Hnin. apply elem_of_list_fmap. eauto.
Qed.

(** ** C34. *)
Definition balanced (now : Z) (j : job) (m : mld) (w : wtc) (susp fit : Z) (d' : db) : Prop :=
  moved j m w fit d' /\
  (0 < w_pending w -> 0 <= fit <= w_pending w) /\
  (w_pending w = 0 -> fit = 0) /\
  (w_pending w < 0 -> now <= j_start j + m_wall m + susp -> w_pending w <= fit <= 0 /\ now <= j_start j + (m_wall m + fit) + susp).
Theorem C34_books_partial env now d d' j m w :
  uniq d -> wtc_uniq d -> process env now d = Ok d' -> sane env j m ->
  j ∈ jobs d -> w ∈ wtcs d -> w_job w = j_id j -> m ∈ mlds d -> m_id m = j_mld j -> m_job m = j_id j ->
  exists fit, balanced now j m w (suspended_sum now (j_id j) d) fit d'.
Proof.
  intros HU HWU HP Hsane Hj Hw Hwj Hm Hmid Hmj. destruct (process_at _ _ _ _ _ _ _ HU HWU HP Hj Hw Hwj Hm Hmid Hmj) as (fit & Hmov & Ht).
  exists fit. split; [done|]. destruct Ht as [->|(Hp0 & d1 & _ & Hlogs & Hg)]; [repeat split; lia|]. split; [|split].
  - intros Hp. destruct (grant_pos _ _ _ _ _ _ _ Hp Hsane Hg). lia.
  - done.
  - intros Hp. replace (suspended_sum now (j_id j) d) with (suspended_sum now (j_id j) d1) by (unfold suspended_sum; by rewrite Hlogs). exact (grant_neg _ _ _ _ _ _ _ Hp Hg).
Qed.
(** Refuted for a job past its end: a pending reduction of 50 s becomes one of 150 s and the
    walltime grows by 100 s. *)
Definition wenv0 : wenv := mkWenv (fun _ => [1; 2]) [] (fun _ => []) (fun _ => "") 60 (CPlain (CInt 0)) (CPlain (CInt 0)).
Definition wjob (id start : Z) := mkJob id "u" "Running" "PASSIVE" "default" start 0 "NO" id "None" [].
Definition wcf (l : Z) : rconf := mkRconf (Some "YES"%string) (CPlain (CInt l)) 0 UAll UAll.
Definition wdb : db := mkDb [wjob 1 1000] [] [] [] [mkMld 1 1 7200] [].
Definition books (d : db) : list (Z * Z) * list Z := ((fun w => (w_pending w, w_granted w)) <$> wtcs d, m_wall <$> mlds d).
Definition ask (cf : rconf) (now : Z) (s : string) (d : db) : db := snd (from_ok (9, d) (request cf now 1 "u" s false false d)).
Theorem C34_overdue_refuted :
  let d := ask (wcf 7200) 8100 "-0:0:50" wdb in
  books d = ([(-50, 0)], [7200]) /\ books (from_ok d (process wenv0 8300 d)) = ([(-150, 100)], [7300]).
Proof. vm_compute. done. Qed.
Example C34_case :
  let d := ask (wcf 7200) 8100 "+1" wdb in
  uniq d /\ wtc_uniq d /\ books d = ([(3600, 0)], [7200]) /\ books (from_ok d (process wenv0 8100 d)) = ([(0, 3600)], [10800]).
Proof. cbv zeta. unfold uniq, wtc_uniq. split; [by_dec|]. split; [split; by_dec|]. vm_compute. done. Qed.

(** ** C66. What is asked is what is recorded *)
Definition pending_of (id : Z) (d : db) : list Z := w_pending <$> filter (fun w => w_job w = id) (wtcs d).
Theorem C66_recorded_partial cf now id user s force delay d d' j m c :
  uniq d -> wtc_uniq d -> request cf now id user s force delay d = Ok (0, d') ->
  j ∈ jobs d -> j_id j = id -> m ∈ mlds d -> m_id m = j_mld j -> parse_change (m_wall m) s = Some c ->
  let remaining := j_start j + m_wall m + suspended_sum now id d - now in
  0 <= remaining -> pending_of id d' = [Z.max c (- remaining)].
Proof.
  intros HU HWU HR Hj Hid Hm Hmid Hc remaining Hrem. unfold request in HR. destruct (negb (bool_decide (enabled cf = _))); [done|].
  subst id. rewrite (get_job_of d j HU Hj) in HR. destruct (_ && _) in HR; [done|]. destruct (negb _) in HR; [done|].
  assert (filter (fun m => m_id m = j_mld j) (mlds d) = [m]) as Ef.
  { pose proof (at_most_one m_id (fun m => m_id m = j_mld j) (mlds d) (proj2 HWU) ltac:(intros; congruence)) as L1.
    assert (m ∈ filter (fun m => m_id m = j_mld j) (mlds d)) as Hin by (by apply elem_of_list_filter). destruct (filter _ (mlds d)) as [|x [|]]; cbn [length] in L1; [by apply elem_of_nil in Hin| |lia]. by apply elem_of_list_singleton in Hin as ->. }
  rewrite Ef in HR. destruct (get_conf _ _ _); [|done]. rewrite Hc in HR.
  destruct (bool_decide (user = ""%string)); [done|]. destruct (force && _) in HR; [done|]. destruct (delay && _) in HR; [done|]. destruct (_ <? _) in HR; [done|]. destruct (_ && _) in HR; [done|].
  fold remaining in HR. cbv zeta in HR. clearbody remaining.
  assert ((if remaining <? - c then - remaining else c) = Z.max c (- remaining)) as Hcc by (clear HR; destruct (remaining <? - c) eqn:E; lia). rewrite Hcc in HR.
  set (c' := Z.max c (- remaining)) in *. clearbody c'.
  pose proof (at_most_one w_job (fun w => w_job w = j_id j) (wtcs d) (proj1 HWU) ltac:(intros; congruence)) as L2.
  destruct (filter _ (wtcs d)) as [|w [|]] eqn:Ew in HR; cbn [length] in L2; rewrite Ew in L2; cbn [length] in L2; [| |lia].
  - destruct (_ && _ && _) in HR; [done|]. injection HR as <-. unfold pending_of. cbn [wtcs with_wtcs]. rewrite filter_app, Ew. by rewrite filter_cons_True.
  - destruct (_ && _ && _) in HR; [done|]. injection HR as <-. unfold pending_of, update_request. cbn [wtcs with_wtcs]. rewrite filter_upd_w by done. rewrite Ew.
    assert (w_job w = j_id j). { assert (w ∈ filter (fun w => w_job w = j_id j) (wtcs d)) as H by (rewrite Ew; left). by apply elem_of_list_filter in H as [? _]. }
    unfold upd. cbn [fmap list_fmap]. by rewrite decide_True.
Qed.
(** Refuted for a job past its end: 10 s asked, 100 s recorded. *)
Theorem C66_overdue_refuted : pending_of 1 (ask (wcf 7200) 8300 "+0:0:10" wdb) = [100].
Proof. vm_compute. done. Qed.
Example C66_case : pending_of 1 (ask (wcf 7200) 8100 "+0:0:10" wdb) = [10] /\ pending_of 1 (ask (wcf 7200) 8100 "-1" wdb) = [-100] /\ pending_of 1 (ask (wcf 7200) 8100 "3" wdb) = [3600].
Proof. vm_compute. done. Qed.

(** ** C35. *)
(** Refuted: the limit is 3600 s.  Once 3600 s are granted a request for more is refused, but a
    request for +0 erases the amount granted and the next one is accepted: 7200 s in all. *)
Theorem C35_twice_refuted :
  let p := fun t d => from_ok d (process wenv0 t d) in
  let d1 := p 8105 (ask (wcf 3600) 8100 "+1" wdb) in
  let d2 := p 8130 (ask (wcf 3600) 8120 "+1" (ask (wcf 3600) 8110 "+0" d1)) in
  books wdb = ([], [7200]) /\ books d1 = ([(0, 3600)], [10800]) /\ ask (wcf 3600) 8110 "+1" d1 = d1 /\ books d2 = ([(0, 3600)], [14400]).
Proof. vm_compute. done. Qed.
(** Refuted: a pending reduction makes the walltime of a late job follow the clock, without limit. *)
Theorem C35_late_refuted n : 0 < n ->
  let d := ask (wcf 0) 8150 "-0:0:50" wdb in
  books d = ([(-50, 0)], [7200]) /\ exists d', process wenv0 (8200 + n) d = Ok d' /\ m_wall <$> mlds d' = [7200 + n].
Proof.
  intros Hn. cbv zeta. set (d := ask _ _ _ _). assert (d = mkDb [wjob 1 1000] [] [] [] [mkMld 1 1 7200] [mkWtc 1 (-50) "NO" "NO" 0 0 0]) as -> by (vm_compute; done).
  split; [done|]. unfold process.
  replace (to_process wenv0 _) with [(wjob 1 1000, mkMld 1 1 7200, mkWtc 1 (-50) "NO" "NO" 0 0 0)] by (vm_compute; done).
  cbn [process_list process_one].
  match goal with |- context [grant wenv0 ?t ?D ?J ?M ?W] => assert (grant wenv0 t D J M W = Ok (Some n)) as -> end.
  { unfold grant. change (0 <? w_pending (mkWtc 1 (-50) "NO" "NO" 0 0 0)) with false. change (w_pending (mkWtc 1 (-50) "NO" "NO" 0 0 0) <? 0) with true. cbv iota zeta.
    match goal with |- context [suspended_sum ?a ?b ?c] => change (suspended_sum a b c) with 0 end. change (j_start (wjob 1 1000)) with 1000. cbn [w_pending m_wall].
    replace (1000 + 7200 + 0 - (8200 + n)) with (- n) by lia. replace (- n <? - -50) with true by lia. do 2 f_equal. lia. }
  cbn [rbind]. eexists. split; [done|]. cbn. done.
Qed.
(** Partial: what one accepted extension gives, over any number of rounds, whatever else happens to
    the jobs meanwhile. *)
Inductive rounds (id mid : Z) : db -> db -> Prop :=
| r_refl d : rounds id mid d d
| r_process env now d d1 d2 : (forall j, j ∈ jobs d -> j_id j = id -> 0 <= security env < j_start j) ->
    process env now d = Ok d1 -> rounds id mid d1 d2 -> rounds id mid d d2
| r_other d d1 d2 : wtcs d1 = wtcs d -> mlds d1 = mlds d -> uniq d1 -> (exists j, j ∈ jobs d1 /\ j_id j = id /\ j_mld j = mid) ->
    rounds id mid d1 d2 -> rounds id mid d d2.
Lemma process_one_uniq env now x d d' : wtc_uniq d -> process_one env now x d = Ok d' -> wtc_uniq d'.
Proof.
  destruct x as [[j m] w]. unfold process_one. intros [H1 H2] H. apply rbind_Ok in H as (g & _ & H). destruct g as [fit|]; injection H as <-; [|done].
  unfold wtc_uniq, change_walltime, update_request, upd. cbn [wtcs mlds with_wtcs with_mlds add_event with_events]. rewrite <- !list_fmap_compose.
  split; [rewrite (list_fmap_ext _ w_job (wtcs d)); [done|]|rewrite (list_fmap_ext _ m_id (mlds d)); [done|]]; intros i x _; cbn [compose]; destruct (decide _); done.
Qed.
Lemma process_list_uniq env now l d d' : wtc_uniq d -> process_list env now l d = Ok d' -> wtc_uniq d'.
Proof. revert d. induction l as [|x l IH]; intros d HW H; [by injection H as <-|]. cbn [process_list] in H. apply rbind_Ok in H as (d1 & H1 & H2). apply (IH d1); [|done]. by apply process_one_uniq in H1. Qed.
Lemma rounds_bound id mid d d' : rounds id mid d d' -> forall j m w, uniq d -> wtc_uniq d -> j ∈ jobs d -> j_id j = id -> j_mld j = mid ->
  w ∈ wtcs d -> w_job w = id -> m ∈ mlds d -> m_id m = mid -> m_job m = id -> 0 <= w_pending w -> 0 <= m_wall m ->
  exists m', m' ∈ mlds d' /\ m_id m' = mid /\ m_wall m <= m_wall m' <= m_wall m + w_pending w.
Proof.
  induction 1 as [d|env now d d1 d2 Hs HP HR IH|d d1 d2 Hw1 Hm1 HU1 (j1 & Hj1 & Hid1 & Hmld1) HR IH]; intros j m w HU HWU Hj Hid Hmld Hw Hwj Hm Hmid Hmj Hp Hwall.
  - exists m. repeat split; try done; lia.
  - destruct (C34_books_partial env now d d1 j m w HU HWU HP) as (fit & ((w' & Hw' & Hwj' & Hwp' & _) & (m' & Hm' & Hmid' & Hmj' & Hmw')) & Hpos & Hzero & _); [split; [by apply Hs|done]|congruence..|].
    assert (0 <= fit <= w_pending w) as Hfit. { destruct (decide (w_pending w = 0)) as [E|E]; [rewrite (Hzero E); lia|]. apply Hpos. lia. }
    destruct (IH j m' w') as (m2 & ? & ? & ?); try congruence; try lia.
    + unfold uniq. unfold process in HP. by rewrite (process_list_jobs _ _ _ _ _ HP).
    + by apply process_list_uniq in HP.
    + unfold process in HP. by rewrite (process_list_jobs _ _ _ _ _ HP).
    + exists m2. repeat split; try done; lia.
  - apply (IH j1 m w); try done; [|by rewrite Hw1|by rewrite Hm1]. unfold wtc_uniq. by rewrite Hw1, Hm1.
Qed.
Definition granted_before (id : Z) (d : db) : Z := match filter (fun w => w_job w = id) (wtcs d) with w :: _ => w_granted w | [] => 0 end.
Theorem C35_one_request_partial cf now id user s force delay d d0 d' j m maxi :
  uniq d -> wtc_uniq d -> j ∈ jobs d -> j_id j = id -> m ∈ mlds d -> m_id m = j_mld j -> m_job m = id -> 0 <= m_wall m ->
  request cf now id user s force delay d = Ok (0, d0) -> user ∉ ["root"; "oar"]%string ->
  get_conf (max_increase cf) (j_queue j) (m_wall m) = Some maxi -> maxi <> -1 ->
  (forall c, c ∈ pending_of id d0 -> 0 <= c) ->
  rounds id (j_mld j) d0 d' ->
  exists m', m' ∈ mlds d' /\ m_id m' = m_id m /\ m_wall m <= m_wall m' <= m_wall m + maxi - granted_before id d.
Proof.
  intros HU HWU Hj Hid Hm Hmid Hmj Hwall HR Huser Hmax Hmax1 Hpos Hrounds.
  assert (Hd0 : uniq d0 /\ wtc_uniq d0 /\ jobs d0 = jobs d /\ mlds d0 = mlds d /\ exists w, w ∈ wtcs d0 /\ w_job w = id /\ w_pending w <= maxi - granted_before id d).
  { unfold request in HR. destruct (negb (bool_decide (enabled cf = _))); [done|].
    subst id. rewrite (get_job_of d j HU Hj) in HR. destruct (_ && _) in HR; [done|]. destruct (negb _) in HR; [done|].
    assert (filter (fun m => m_id m = j_mld j) (mlds d) = [m]) as Ef.
    { pose proof (at_most_one m_id (fun m => m_id m = j_mld j) (mlds d) (proj2 HWU) ltac:(intros; congruence)) as L1.
      assert (m ∈ filter (fun m => m_id m = j_mld j) (mlds d)) as Hin by (by apply elem_of_list_filter). destruct (filter _ (mlds d)) as [|x [|]]; cbn [length] in L1; [by apply elem_of_nil in Hin| |lia]. by apply elem_of_list_singleton in Hin as ->. }
    rewrite Ef in HR. rewrite Hmax in HR. destruct (parse_change _ _) as [c|]; [|done].
    destruct (bool_decide (user = ""%string)); [done|]. destruct (force && _) in HR; [done|]. destruct (delay && _) in HR; [done|]. destruct (_ <? _) in HR; [done|]. destruct (_ && _) in HR; [done|].
    cbv zeta in HR. rewrite (bool_decide_eq_false_2 _ Huser) in HR. cbn [negb] in HR. rewrite !andb_true_r in HR. replace (maxi =? -1) with false in HR by lia. cbn [negb andb] in HR.
    match type of HR with context [if ?a <? - c then ?b else c] => set (c' := if a <? - c then b else c) in * end. clearbody c'.
    pose proof (at_most_one w_job (fun w => w_job w = j_id j) (wtcs d) (proj1 HWU) ltac:(intros; congruence)) as L2.
    unfold granted_before. destruct (filter (fun w => w_job w = j_id j) (wtcs d)) as [|w [|]] eqn:Ew; cbn [length] in L2; [| |lia].
    - destruct (_ <? _) eqn:Eo in HR; [done|]. injection HR as <-. split; [done|]. split.
      { destruct HWU as [H1 H2]. split; [|done]. cbn [wtcs with_wtcs]. rewrite fmap_app. apply NoDup_app. split; [done|]. split; [|apply NoDup_singleton].
        intros x Hx Hx'. cbn in Hx'. apply elem_of_list_singleton in Hx' as ->. apply elem_of_list_fmap in Hx as (y & Hy & Hyin).
        assert (y ∈ filter (fun w => w_job w = j_id j) (wtcs d)) as Hin by (by apply elem_of_list_filter). rewrite Ew in Hin. by apply elem_of_nil in Hin. }
      split; [done|]. split; [done|]. eexists. split; [cbn [wtcs with_wtcs]; apply elem_of_app; right; left|]. cbn. split; [done|]. lia.
    - destruct (_ <? _) eqn:Eo in HR; [done|]. injection HR as <-. split; [done|]. split.
      { destruct HWU as [H1 H2]. split; [|done]. unfold update_request, upd. cbn [wtcs with_wtcs]. rewrite <- list_fmap_compose.
        rewrite (list_fmap_ext _ w_job (wtcs d)); [done|]. intros i x _. cbn [compose]. destruct (decide _); done. }
      split; [done|]. split; [done|].
      assert (w ∈ filter (fun w => w_job w = j_id j) (wtcs d)) as H by (rewrite Ew; left). apply elem_of_list_filter in H as [H1 H2].
      eexists. split; [unfold update_request; cbn [wtcs with_wtcs]; apply upd_elem; exists w; split; [done|]; by rewrite decide_True|]. cbn. split; [done|]. lia. }
  destruct Hd0 as (HU0 & HW0 & Hj0 & Hm0 & w & Hw & Hwj & Hwp).
  assert (0 <= w_pending w). { apply Hpos. apply elem_of_list_fmap. exists w. split; [done|]. by apply elem_of_list_filter. }
  destruct (rounds_bound _ _ _ _ Hrounds j m w) as (m' & ? & ? & ?); try done; try (by rewrite Hj0); try (by rewrite Hm0).
  exists m'. split; [done|]. split; [congruence|]. lia.
Qed.
Example C35_case : let d0 := ask (wcf 7200) 8100 "+1" wdb in
  request (wcf 7200) 8100 1 "u" "+1" false false wdb = Ok (0, d0) /\ pending_of 1 d0 = [3600] /\ granted_before 1 wdb = 0 /\
  exists d', rounds 1 1 d0 d' /\ (m_wall <$> mlds d') = [10800].
Proof.
  cbv zeta. split; [vm_compute; done|]. split; [vm_compute; done|]. split; [vm_compute; done|].
  exists (from_ok wdb (process wenv0 8100 (ask (wcf 7200) 8100 "+1" wdb))). split; [|vm_compute; done].
  eapply (r_process _ _ wenv0 8100); [|by vm_compute|apply r_refl]. intros j Hj _. replace (jobs _) with [wjob 1 1000] in Hj by (vm_compute; done). apply elem_of_list_singleton in Hj as ->. done.
Qed.

(** ** C64. An accepted request is treated by the scheduler *)
(** Refuted for every configuration: where a request is accepted, the meta-scheduler skips the
    treatment; where it does not skip it, it stops on an exception and requests are refused. *)
Theorem C64_never_processed_refuted cf now id user s force delay d d' :
  request cf now id user s force delay d = Ok (0, d') -> meta_process cf d' = Ok d'.
Proof.
  unfold request, meta_process. destruct (bool_decide (enabled cf = Some "YES"%string)) eqn:E; [|done]. apply bool_decide_eq_true in E. by rewrite E.
Qed.
Theorem C64_enabled_stops_refuted cf now id user s force delay d :
  enabled cf = Some "yes"%string -> request cf now id user s force delay d = Ok (5, d) /\ meta_process cf d = Err EType.
Proof. intros E. unfold request, meta_process. by rewrite E. Qed.
Example C64_case : exists d, request (wcf 7200) 8100 1 "u" "+1" false false wdb = Ok (0, d) /\ books d = ([(3600, 0)], [7200]) /\ meta_process (wcf 7200) d = Ok d.
Proof. exists (ask (wcf 7200) 8100 "+1" wdb). vm_compute. done. Qed.

(** ** C65. An extension does not run into what is planned next *)
Lemma grant_fits env now d j m w fit : 0 < w_pending w -> sane env j m -> grant env now d j m w = Ok (Some fit) ->
  let old_end := j_start j + m_wall m + suspended_sum now (j_id j) d in
  (exists excl, excluded (types env (j_id j)) (j_user j) = Ok excl /\
   forall p, p ∈ preds env -> old_end < p_start p -> excl p = false -> p_res p ∈ rids env (m_id m) -> (w_delay w = "YES"%string -> p_reservation p = true) ->
     old_end + fit + security env <= p_start p) /\
  (forall v, assoc "inner" (types env (j_id j)) = Some v -> exists e, container_end d v = Ok e /\ old_end + fit <= e).
Proof.
  intros Hp (Hs & Hw) Hg old_end. pose proof (grant_pos _ _ _ _ _ _ _ Hp (conj Hs Hw) Hg) as Hfit. revert Hg. unfold grant. replace (0 <? w_pending w) with true by lia.
  destruct (get_conf (apply_conf env) _ _) as [ap|]; [|done]. destruct (get_conf (incr_conf env) _ _) as [inc|]; [|done].
  destruct (negb _ && _ && _); [done|].
  set (fit0 := if negb (bool_decide (w_force w = "YES"%string)) && (0 <? inc) && (inc <? w_pending w) then inc else w_pending w).
  assert (Hf0 : 0 < fit0 <= w_pending w). { unfold fit0. destruct (negb _); cbn [andb]; [|lia]. destruct (0 <? inc) eqn:E1; cbn [andb]; [|lia]. destruct (inc <? w_pending w) eqn:E2; lia. }
  clearbody fit0. pose proof (suspended_sum_nonneg now (j_id j) d) as Hsu. fold old_end. intros H. apply rbind_Ok in H as (to & Hto & H). apply rbind_Ok in H as (excl & Hex & H).
  destruct (_ <=? 0) eqn:E in H; [done|]. injection H as <-. apply Z.leb_gt in E.
  assert (Hto0 : 0 < to).
  { destruct (decide (0 < to)) as [?|Hneg]; [done|]. exfalso.
    assert (possible_end env old_end to (rids env (m_id m)) (bool_decide (w_delay w = "YES"%string)) excl <= 0) as Hle; [|lia].
    unfold possible_end. match goal with |- fold_left _ ?l _ <= 0 => destruct l as [|s l'] eqn:El end; [cbn [fold_left]; lia|].
    exfalso. match type of El with ?l = _ => assert (s ∈ l) as Hin by (rewrite El; left) end.
    apply elem_of_list_fmap in Hin as (p & -> & Hp'). apply elem_of_list_filter in Hp' as [(_ & ? & _) _]. lia. }
  destruct (possible_end_le env old_end to (rids env (m_id m)) (bool_decide (w_delay w = "YES"%string)) excl Hto0) as [Hle Hall]; [intros; lia|]. split.
  - exists excl. split; [done|]. intros p Hpin Hafter Hexcl Hres Hdel. specialize (Hall p Hpin Hafter Hexcl Hres). case_bool_decide; [|lia]. specialize (Hall (Hdel ltac:(done))). lia.
  - intros v Hv. rewrite Hv in Hto. apply rbind_Ok in Hto as (e & He & Hto). assert (to <= e) by (injection Hto as <-; destruct (e <? _) eqn:Ee; lia). exists e. split; [done|]. lia.
Qed.
(** Of the whole treatment: if the walltime of a job has grown because an extension was pending,
    its new end is at least the security time before every job planned after its old end on one of
    its resources, the tolerated ones (best-effort, the allowed placeholder, compatible timesharing)
    and with "delay next jobs" those that are not advance reservations excepted. *)
Theorem C65_no_collision env now d d' j m w :
  uniq d -> wtc_uniq d -> process env now d = Ok d' -> sane env j m ->
  j ∈ jobs d -> w ∈ wtcs d -> w_job w = j_id j -> m ∈ mlds d -> m_id m = j_mld j -> m_job m = j_id j -> 0 < w_pending w ->
  exists m', m' ∈ mlds d' /\ m_id m' = m_id m /\
  (m_wall m < m_wall m' ->
   exists excl, excluded (types env (j_id j)) (j_user j) = Ok excl /\
   let susp := suspended_sum now (j_id j) d in
   forall p, p ∈ preds env -> j_start j + m_wall m + susp < p_start p -> excl p = false -> p_res p ∈ rids env (m_id m) -> (w_delay w = "YES"%string -> p_reservation p = true) ->
     j_start j + m_wall m' + susp + security env <= p_start p).
Proof.
  intros HU HWU HP Hsane Hj Hw Hwj Hm Hmid Hmj Hpos. destruct (process_at _ _ _ _ _ _ _ HU HWU HP Hj Hw Hwj Hm Hmid Hmj) as (fit & (_ & m' & Hm' & Hid' & _ & Hwl) & Ht).
  exists m'. split; [done|]. split; [done|]. intros Hgrow. destruct Ht as [->|(_ & d1 & _ & Hlogs & Hg)]; [lia|].
  destruct (grant_fits _ _ _ _ _ _ _ Hpos Hsane Hg) as [(excl & Hex & Hall) _]. exists excl. split; [done|]. intros susp p H1 H2 H3 H4 H5.
  assert (suspended_sum now (j_id j) d1 = susp) as Hsu by (unfold susp, suspended_sum; by rewrite Hlogs). rewrite Hsu in Hall. specialize (Hall p H1 H2 H3 H4 H5). lia.
Qed.
(** Of one request: an inner job never outlives its container as it is then. *)
Theorem C65_inner env now d d' j m w v :
  process_one env now (j, m, w) d = Ok d' -> sane env j m -> 0 < w_pending w -> assoc "inner" (types env (j_id j)) = Some v -> m ∈ mlds d -> m_job m = j_id j ->
  d' = d \/ exists m' cj cm, m' ∈ mlds d' /\ m_id m' = m_id m /\
    cj ∈ jobs d /\ int_of v = Some (j_id cj) /\ j_state cj = "Running"%string /\ cm ∈ mlds d /\ m_id cm = j_mld cj /\
    j_start j + m_wall m' + suspended_sum now (j_id j) d <= j_start cj + m_wall cm.
Proof.
  intros H Hsane Hpos Hv Hm Hmj. unfold process_one in H. apply rbind_Ok in H as (g & Hg & H). destruct g as [fit|]; injection H as <-; [|by left]. right.
  destruct (grant_fits _ _ _ _ _ _ _ Hpos Hsane Hg) as [_ Hin]. destruct (Hin v Hv) as (e & He & Hle). unfold container_end in He.
  destruct (int_of v) as [cid|]; [|done]. match type of He with context [match ?x with _ => _ end] => destruct x as [|e' [|]] eqn:El end; [done| |done]. injection He as ->.
  match type of El with ?l = _ => assert (e ∈ l) as Hel by (rewrite El; left) end. apply elem_of_list_bind in Hel as (cj & Hel & Hcj). apply elem_of_list_filter in Hcj as [[Hc1 Hc2] Hc3].
  apply elem_of_list_bind in Hel as (cm & Hel & Hcm). apply elem_of_list_filter in Hcm as [Hc4 Hc5]. apply elem_of_list_singleton in Hel as ->.
  eexists _, cj, cm. split; [unfold change_walltime, update_request; cbn [mlds with_mlds add_event with_events with_wtcs]; apply upd_elem; exists m; split; [done|]; by rewrite decide_True|].
  cbn [m_id m_wall]. repeat split; try done; [by rewrite Hc1|lia].
Qed.
Example C65_inner_case :
  let d := mkDb [wjob 1 1000; wjob 9 500] [] [] [] [mkMld 1 1 7200; mkMld 9 9 8000] [mkWtc 1 3600 "NO" "NO" 0 0 0] in
  books (from_ok d (process (mkWenv (fun _ => [1; 2]) [] (fun id => if id =? 1 then [("inner", "9")]%string else []) (fun _ => "") 60 (CPlain (CInt 0)) (CPlain (CInt 0))) 8100 d)) = ([(3300, 300)], [7500; 8000]).
Proof. vm_compute. done. Qed.
Definition c65_env (t : list (string * string)) : wenv :=
  mkWenv (fun _ => [1; 2]) [mkPred 10000 2 false ["x"%string] "v" "n"; mkPred 9000 2 false ["besteffort"%string] "v" "n"; mkPred 9500 7 false [] "v" "n"] (fun id => if id =? 1 then t else []) (fun _ => "") 60 (CPlain (CInt 0)) (CPlain (CInt 0)).
Example C65_case : let d := ask (wcf 7200) 8100 "+1" wdb in books (from_ok d (process (c65_env []) 8100 d)) = ([(1861, 1739)], [8939]).
Proof. vm_compute. done. Qed.

(** ** C67. One request never blocks the others *)
Theorem C67_all_treated_partial env now d :
  (forall j m w, (j, m, w) ∈ to_process env d ->
     conf_value (apply_conf env) (j_queue j) <> None /\ conf_value (incr_conf env) (j_queue j) <> None /\
     assoc "inner" (types env (j_id j)) = None /\ (forall v, assoc "timesharing" (types env (j_id j)) = Some v -> v = "*,*"%string)) ->
  exists d', process env now d = Ok d'.
Proof.
  unfold process. generalize (to_process env d). intros l. revert d. induction l as [|[[j m] w] l IH]; intros d H; [by eexists|]. cbn [process_list].
  destruct (H j m w) as (Ha & Hi & Hin & Ht); [left|].
  assert (exists g, grant env now d j m w = Ok g) as (g & Hg).
  { unfold grant. destruct (0 <? w_pending w); [|destruct (w_pending w <? 0); by eexists]. unfold get_conf.
    destruct (conf_value (apply_conf env) _); [|done]. destruct (conf_value (incr_conf env) _); [|done]. cbn [fmap option_fmap option_map].
    destruct (negb _ && _ && _); [by eexists|]. rewrite Hin. cbn [rbind]. unfold excluded. destruct (assoc "allowed" _); [by eexists|].
    destruct (assoc "timesharing" _) as [v|]; [|by eexists]. rewrite (Ht v) by done. rewrite bool_decide_eq_false_2 by by_dec. rewrite bool_decide_eq_false_2 by by_dec. by eexists. }
  unfold process_one. rewrite Hg. cbn [rbind]. destruct g as [fit|]; apply IH; intros j0 m0 w0 H0; apply (H j0 m0 w0); by right.
Qed.
(** Refuted: a job of type timesharing=user,* or an inner job whose container is over, when it is
    granted an extension, stops the treatment: the request of the next job is never looked at. *)
Definition two_db : db := mkDb [wjob 1 1000; wjob 2 1000] [] [] [] [mkMld 1 1 7200; mkMld 2 2 7200] [mkWtc 1 60 "NO" "NO" 0 0 0; mkWtc 2 60 "NO" "NO" 0 0 0].
Theorem C67_blocked_refuted now :
  process (c65_env [("timesharing", "user,*")]%string) now two_db = Err EName /\ process (c65_env [("inner", "9")]%string) now two_db = Err EKey.
Proof. split; reflexivity. Qed.
Example C67_case : books (from_ok wdb (process (c65_env []) 8100 two_db)) = ([(0, 60); (0, 60)], [7260; 7260]) /\ books (from_ok wdb (process (c65_env [("timesharing", "*,*")]%string) 8100 two_db)) = ([(0, 60); (0, 60)], [7260; 7260]).
Proof. vm_compute. done. Qed.
Print Assumptions C33_walltime_only_owner.
Print Assumptions C33_walltime_refused_no_effect.
Print Assumptions C33_force_allowed.
Print Assumptions C34_books_partial.
Print Assumptions C34_overdue_refuted.
Print Assumptions C66_recorded_partial.
Print Assumptions C66_overdue_refuted.
Print Assumptions C35_twice_refuted.
Print Assumptions C35_late_refuted.
Print Assumptions C35_one_request_partial.
Print Assumptions C64_never_processed_refuted.
Print Assumptions C64_enabled_stops_refuted.
Print Assumptions C65_no_collision.
Print Assumptions C65_inner.
Print Assumptions C67_all_treated_partial.
Print Assumptions C67_blocked_refuted.
