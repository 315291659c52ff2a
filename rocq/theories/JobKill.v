(** Requests on jobs and deletion: lemmas. *)
From Verif Require Import Base JobModel JobSpec JobProofs JobLife.

Lemma frag_state_app id l d : frag_state id (with_frags (fun x => x ++ l) d) = match frag_state id d with Some s => Some s | None => f_state <$> head (filter (fun f => f_job f = id) l) end.
Proof. unfold frag_state. cbn [frags with_frags]. rewrite filter_app. destruct (filter _ (frags d)); done. Qed.
Lemma filter_upd_frag id i s l : filter (fun f => f_job f = i) (upd (fun f => f_job f = id) (fun f => mkFrag (f_job f) (f_date f) s) l)
  = upd (fun f => f_job f = id) (fun f => mkFrag (f_job f) (f_date f) s) (filter (fun f => f_job f = i) l).
Proof.
  unfold upd. induction l as [|f l IH]; [done|]. cbn [fmap list_fmap]. destruct (decide (f_job f = i)) as [E|E].
  - rewrite (filter_cons_True _ f) by done. cbn [fmap list_fmap]. rewrite filter_cons_True by (destruct (decide _); done). by rewrite IH.
  - rewrite (filter_cons_False _ f) by done. rewrite filter_cons_False by (destruct (decide _); done). done.
Qed.
Lemma frag_state_set_same id s d : is_Some (frag_state id d) -> frag_state id (set_frag s id d) = Some s.
Proof.
  unfold frag_state, set_frag. cbn [frags with_frags]. rewrite filter_upd_frag. destruct (filter _ (frags d)) as [|f l] eqn:E; [intros [? [=]]|]. intros _.
  assert (f ∈ filter (fun f => f_job f = id) (frags d)) as Hf by (rewrite E; left). apply elem_of_list_filter in Hf as [Hf _].
  unfold upd. cbn [fmap list_fmap head option_fmap option_map]. rewrite decide_True by done. done.
Qed.
Lemma frag_state_set_none id s d : frag_state id d = None -> frag_state id (set_frag s id d) = None.
Proof. unfold frag_state, set_frag. cbn [frags with_frags]. rewrite filter_upd_frag. destruct (filter _ (frags d)); done. Qed.
Lemma frag_state_set_other id i s d : i <> id -> frag_state i (set_frag s id d) = frag_state i d.
Proof.
  intros Hi. unfold frag_state, set_frag. cbn [frags with_frags]. rewrite filter_upd_frag. destruct (filter _ (frags d)) as [|f l] eqn:E; [done|].
  assert (f ∈ filter (fun f => f_job f = i) (frags d)) as Hf by (rewrite E; left). apply elem_of_list_filter in Hf as [Hf _].
  unfold upd. cbn [fmap list_fmap head option_fmap option_map]. rewrite decide_False by congruence. done.
Qed.
Lemma frag_state_frags id d d' : frags d' = frags d -> frag_state id d' = frag_state id d.
Proof. unfold frag_state. by intros ->. Qed.
Lemma fold_events_frags id evs d : frags (fold_left (fun d e => add_event e id d) evs d) = frags d.
Proof. revert d. induction evs as [|e evs IH]; intros d; [done|]. cbn [fold_left]. rewrite IH. done. Qed.
Lemma fold_events_jobs id evs d : jobs (fold_left (fun d e => add_event e id d) evs d) = jobs d.
Proof. revert d. induction evs as [|e evs IH]; intros d; [done|]. cbn [fold_left]. rewrite IH. done. Qed.
Lemma fold_events_events id evs d : events (fold_left (fun d e => add_event e id d) evs d) = events d ++ ((fun t => mkEv t id "YES") <$> evs).
Proof. revert d. induction evs as [|e evs IH]; intros d; [by rewrite app_nil_r|]. cbn [fold_left]. rewrite IH. cbn [events add_event with_events fmap list_fmap]. by rewrite <- app_assoc. Qed.

(** ** Rows are unique *)
Lemma rows_set s id d : one_row d -> one_row (set_frag s id d).
Proof. unfold one_row. by rewrite set_frag_ids. Qed.
Lemma rows_same d d' : frags d' = frags d -> one_row d -> one_row d'.
Proof. unfold one_row. by intros ->. Qed.
Lemma row_filter d id f : one_row d -> f ∈ frags d -> f_job f = id -> filter (fun f => f_job f = id) (frags d) = [f].
Proof.
  intros HN Hf Hid. unfold one_row in HN. revert HN Hf. induction (frags d) as [|x l IH]; intros HN Hf; [by apply elem_of_nil in Hf|].
  cbn [fmap list_fmap] in HN. apply NoDup_cons in HN as [H1 H2]. apply elem_of_cons in Hf as [->|Hf].
  - rewrite filter_cons_True by done. f_equal. destruct (filter _ l) as [|y l'] eqn:E; [done|]. exfalso.
    assert (y ∈ filter (fun f => f_job f = id) l) as Hy by (rewrite E; left). apply elem_of_list_filter in Hy as [Hy1 Hy2].
    apply H1. apply elem_of_list_fmap. exists y. split; [congruence|done].
  - rewrite filter_cons_False; [by apply IH|]. intros E. apply H1. apply elem_of_list_fmap. exists f. split; [congruence|done].
Qed.
Lemma frag_state_row d id s : one_row d -> frag_state id d = Some s <-> exists f, f ∈ frags d /\ f_job f = id /\ f_state f = s.
Proof.
  intros HN. unfold frag_state. split.
  - destruct (filter _ (frags d)) as [|f l] eqn:E; [done|]. cbn. intros [= <-]. assert (f ∈ filter (fun f => f_job f = id) (frags d)) as Hf by (rewrite E; left).
    apply elem_of_list_filter in Hf as [? ?]. eauto.
  - intros (f & Hf & Hid & <-). by rewrite (row_filter d id f).
Qed.
Lemma frag_row_none d id : frag_state id d = None <-> filter (fun f => f_job f = id) (frags d) = [].
Proof. unfold frag_state. destruct (filter _ (frags d)); done. Qed.

(** ** The jobs whose row is in a given state, once each *)
Lemma jobs_in_frag_in s d j : j ∈ jobs_in_frag s d <-> j ∈ jobs d /\ exists f, f ∈ frags d /\ f_state f = s /\ f_job f = j_id j.
Proof.
  unfold jobs_in_frag. rewrite elem_of_list_bind. split.
  - intros (x & Hx & Hin). apply elem_of_list_bind in Hx as (f & Hf & Hfin). apply elem_of_list_singleton in Hf as ->.
    apply elem_of_list_filter in Hfin as [[? ?] ?]. eauto.
  - intros (Hj & f & Hf & H1 & H2). exists j. split; [|done]. apply elem_of_list_bind. exists f. split; [by left|]. by apply elem_of_list_filter.
Qed.
Lemma jobs_in_frag_nodup s d : uniq d -> one_row d -> NoDup (j_id <$> jobs_in_frag s d).
Proof.
  intros HU HR. unfold jobs_in_frag. unfold uniq in HU. revert HU. induction (jobs d) as [|j l IH]; intros HU; [apply NoDup_nil_2|].
  cbn [fmap list_fmap] in HU. apply NoDup_cons in HU as [H1 H2]. cbn [mbind list_bind]. rewrite fmap_app. apply NoDup_app. split; [|split].
  - assert (length (filter (fun f => f_state f = s /\ f_job f = j_id j) (frags d)) <= 1)%nat as Hlen.
    { destruct (filter _ (frags d)) as [|f [|f' l']] eqn:E; cbn; try lia. exfalso.
      assert (f ∈ filter (fun f => f_state f = s /\ f_job f = j_id j) (frags d)) as Hf by (rewrite E; left).
      apply elem_of_list_filter in Hf as [[_ Hf1] Hf2]. pose proof (row_filter d (j_id j) f HR Hf2 Hf1) as Hone.
      assert (length (filter (fun f => f_state f = s /\ f_job f = j_id j) (frags d)) <= length (filter (fun f => f_job f = j_id j) (frags d)))%nat as Hle.
      { clear. induction (frags d) as [|x xs IH]; [done|]. rewrite !filter_cons. destruct (decide (f_job x = j_id j)); destruct (decide _); cbn; try lia; tauto. }
      rewrite E, Hone in Hle. cbn in Hle. lia. }
    destruct (filter _ (frags d)) as [|f [|f' l']]; cbn in *; [apply NoDup_nil_2|apply NoDup_singleton|lia].
  - intros x Hx Hx'. apply elem_of_list_fmap in Hx as (a & -> & Ha). apply elem_of_list_fmap in Hx' as (b & Hab & Hb).
    apply elem_of_list_bind in Ha as (f & Ha & _). apply elem_of_list_singleton in Ha as ->.
    apply elem_of_list_bind in Hb as (y & Hy & Hyl). apply elem_of_list_bind in Hy as (f' & Hy & _). apply elem_of_list_singleton in Hy as ->.
    apply H1. apply elem_of_list_fmap. eauto.
  - by apply IH.
Qed.

(** ** Folds over jobs, each touching the row of its own job only *)
Section fold.
  Context {X : Type} (obs : db -> X) (g : db -> job -> db) (id : Z).
  Hypothesis Hother : forall d j, j_id j <> id -> obs (g d j) = obs d.
  Lemma fold_obs_other l d : (forall j, j ∈ l -> j_id j <> id) -> obs (fold_left g l d) = obs d.
  Proof using Hother. clear -Hother. revert d. induction l as [|j l IH]; intros d Hl; [done|]. cbn [fold_left]. rewrite IH by (intros; apply Hl; by right). apply Hother, Hl. left. Qed.
  Lemma fold_obs_at l j d : NoDup (j_id <$> l) -> j ∈ l -> j_id j = id -> exists d1, obs d1 = obs d /\ obs (fold_left g l d) = obs (g d1 j).
  Proof using Hother.
    intros HN Hj Hid. apply elem_of_list_split in Hj as (l1 & l2 & ->). rewrite fold_left_app. cbn [fold_left].
    rewrite fmap_app in HN. apply NoDup_app in HN as (H1 & H2 & H3). cbn [fmap list_fmap] in *. apply NoDup_cons in H3 as [H3 H4].
    exists (fold_left g l1 d). split.
    - apply fold_obs_other. intros x Hx E. apply (H2 (j_id j)); [|left]. apply elem_of_list_fmap. exists x. split; [congruence|done].
    - apply fold_obs_other. intros x Hx E. apply H3. apply elem_of_list_fmap. exists x. split; [congruence|done].
  Qed.
End fold.

(** ** The rows of one job *)
Definition view (id : Z) (d : db) : list job * list frag := (filter (fun j => j_id j = id) (jobs d), filter (fun f => f_job f = id) (frags d)).
Lemma filter_upd_job (P : job -> Prop) `{!forall x, Decision (P x)} (f : job -> job) id l : (forall j, j_id (f j) = j_id j) ->
  filter (fun j => j_id j = id) (upd P f l) = upd P f (filter (fun j => j_id j = id) l).
Proof.
  intros Hf. unfold upd. induction l as [|j l IH]; [done|]. cbn [fmap list_fmap]. destruct (decide (j_id j = id)) as [E|E].
  - rewrite (filter_cons_True _ j) by done. cbn [fmap list_fmap]. rewrite filter_cons_True by (destruct (decide _); [by rewrite Hf|done]). by rewrite IH.
  - rewrite (filter_cons_False _ j) by done. rewrite filter_cons_False by (destruct (decide _); [by rewrite Hf|done]). done.
Qed.
Lemma upd_none_id (P : job -> Prop) `{!forall x, Decision (P x)} f id i l : (forall j, P j -> j_id j = i) -> i <> id ->
  upd P f (filter (fun j => j_id j = id) l) = filter (fun j => j_id j = id) l.
Proof. intros HP Hi. apply upd_none. intros x Hx Px. apply elem_of_list_filter in Hx as [Hx _]. apply HP in Px. congruence. Qed.
Lemma view_with_jobs_other (P : job -> Prop) `{!forall x, Decision (P x)} f id i d : (forall j, j_id (f j) = j_id j) -> (forall j, P j -> j_id j = i) -> i <> id ->
  view id (with_jobs (upd P f) d) = view id d.
Proof. intros Hf HP Hi. unfold view. cbn [jobs frags with_jobs]. rewrite filter_upd_job by done. by rewrite (upd_none_id P f id i). Qed.
Lemma view_set_state_other date i s id d : i <> id -> view id (set_job_state date i s d) = view id d.
Proof.
  intros Hi. assert (view id (with_jobs (upd (accepts i s) (with_state s)) d) = view id d) as H1.
  { apply (view_with_jobs_other _ _ id i); try done. by intros j [? _]. }
  unfold set_job_state. case_bool_decide; [|done]. destruct (is_final s); [|exact H1].
  etrans; [apply (view_with_jobs_other _ _ id i); try done; by intros j [? _]|exact H1].
Qed.
Lemma filter_accepts_view id s d j : filter (fun j => j_id j = id) (jobs d) = [j] ->
  filter (accepts id s) (jobs d) = if decide (accepts id s j) then [j] else [].
Proof.
  intros E. assert (filter (accepts id s) (jobs d) = filter (accepts id s) (filter (fun j => j_id j = id) (jobs d))) as ->.
  { clear. induction (jobs d) as [|x l IH]; [done|]. rewrite !filter_cons. destruct (decide (j_id x = id)) as [H1|H1].
    - rewrite filter_cons. destruct (decide (accepts id s x)); [by f_equal|done].
    - destruct (decide (accepts id s x)) as [[? _]|]; [done|done]. }
  rewrite E. rewrite filter_cons. by destruct (decide _).
Qed.
Lemma view_set_state date id s d j fs : view id d = ([j], fs) ->
  view id (set_job_state date id s d) = ([if decide (accepts id s j) then final_stop s (with_state s j) else j], fs).
Proof.
  unfold view. intros [= Hj Hf]. rewrite set_state_frags, Hf. f_equal.
  assert (j ∈ filter (fun j => j_id j = id) (jobs d)) as Hin by (rewrite Hj; left). apply elem_of_list_filter in Hin as [Hid _].
  unfold set_job_state. rewrite (filter_accepts_view id s d j Hj).
  destruct (decide (accepts id s j)) as [Ha|Ha].
  - cbn [length]. rewrite bool_decide_eq_true_2 by done. unfold final_stop. destruct (is_final s); cbn [jobs with_jobs with_logs].
    + rewrite !filter_upd_job by done. rewrite Hj. unfold upd. cbn [fmap list_fmap]. rewrite (decide_True (P := accepts id s j)) by done.
      cbn [j_id j_stop j_start with_state]. destruct (j_stop j <? j_start j) eqn:E; [rewrite decide_True by (split; [done|lia])|rewrite decide_False by lia]; done.
    + rewrite filter_upd_job by done. rewrite Hj. unfold upd. cbn [fmap list_fmap]. by rewrite decide_True.
  - cbn [length]. rewrite bool_decide_eq_false_2 by done. cbn [jobs with_jobs]. rewrite filter_upd_job by done. rewrite Hj. unfold upd. cbn [fmap list_fmap]. by rewrite decide_False.
Qed.
Lemma view_set_frag_other s i id d : i <> id -> view id (set_frag s i d) = view id d.
Proof.
  intros Hi. unfold view, set_frag. cbn [jobs frags with_frags]. rewrite filter_upd_frag. f_equal. apply upd_none. intros f Hf ?.
  apply elem_of_list_filter in Hf as [? _]. congruence.
Qed.
Lemma view_set_frag s id d js f : view id d = (js, [f]) -> view id (set_frag s id d) = (js, [mkFrag id (f_date f) s]).
Proof.
  unfold view, set_frag. cbn [jobs frags with_frags]. intros [= Hj Hf]. rewrite filter_upd_frag, Hf, Hj.
  assert (f ∈ filter (fun f => f_job f = id) (frags d)) as Hin by (rewrite Hf; left). apply elem_of_list_filter in Hin as [Hid _].
  unfold upd. cbn [fmap list_fmap]. rewrite decide_True by done. by rewrite Hid.
Qed.
Lemma view_finish_other date j id d : j_id j <> id -> view id (set_finish_date date j d) = view id d.
Proof. intros Hi. by apply (view_with_jobs_other _ _ id (j_id j)). Qed.
Lemma view_finish date jj id d j fs : j_id jj = id -> view id d = ([j], fs) -> view id (set_finish_date date jj d) = ([with_stop (if date <? j_start jj then j_start jj else date) j], fs).
Proof.
  intros Hid. unfold view, set_finish_date. cbn [jobs frags with_jobs]. intros [= Hj Hf]. rewrite filter_upd_job by done. rewrite Hj, Hf.
  assert (j ∈ filter (fun j => j_id j = id) (jobs d)) as Hin by (rewrite Hj; left). apply elem_of_list_filter in Hin as [Hid' _].
  unfold upd. cbn [fmap list_fmap]. rewrite decide_True by congruence. done.
Qed.
Lemma view_running_other date i id d : i <> id -> view id (set_running_date date i d) = view id d.
Proof. intros Hi. by apply (view_with_jobs_other _ _ id i). Qed.
Lemma view_running date id d j fs : view id d = ([j], fs) -> view id (set_running_date date id d) = ([with_start date j], fs).
Proof.
  unfold view, set_running_date. cbn [jobs frags with_jobs]. intros [= Hj Hf]. rewrite filter_upd_job by done. rewrite Hj, Hf.
  assert (j ∈ filter (fun j => j_id j = id) (jobs d)) as Hin by (rewrite Hj; left). apply elem_of_list_filter in Hin as [Hid' _].
  unfold upd. cbn [fmap list_fmap]. rewrite decide_True by congruence. done.
Qed.
Lemma view_events id i evs d : view id (fold_left (fun d e => add_event e i d) evs d) = view id d.
Proof. unfold view. by rewrite fold_events_jobs, fold_events_frags. Qed.
Lemma view_uniq d j fs : uniq d -> j ∈ jobs d -> fs = filter (fun f => f_job f = j_id j) (frags d) -> view (j_id j) d = ([j], fs).
Proof. intros HU Hj ->. unfold view. f_equal. apply filter_le_one; try done. intros; congruence. Qed.

(** *** Leon and Sarko on the rows of one job *)
Notation ended := ["Terminated"; "Error"; "Finishing"]%string.
Lemma view_leon_kill_other date evs id d j : j_id j <> id -> view id (leon_kill date evs d j) = view id d.
Proof.
  intros Hi. unfold leon_kill. rewrite view_set_frag_other by done. destruct (_ || _); [by apply view_set_state_other|].
  case_bool_decide; [done|]. case_bool_decide; rewrite ?view_events; [|done]. rewrite view_set_state_other by done. by apply view_finish_other.
Qed.
(** What the kill of a job does to its record. *)
Definition killed (date : Z) (j : job) : job :=
  if bool_decide (j_state j = "Waiting"%string) || bool_decide (j_state j = "Hold"%string) then final_stop "Error" (with_state "Error" j)
  else if bool_decide ("noop"%string ∈ j_types j) then
    let j' := with_stop (if date <? j_start j then j_start j else date) j in
    if decide (accepts (j_id j) "Terminated" j') then final_stop "Terminated" (with_state "Terminated" j') else j'
  else j.
Lemma view_leon_kill date evs id d j f : j_id j = id -> j_state j ∉ ended -> view id d = ([j], [f]) ->
  view id (leon_kill date evs d j) = ([killed date j], [mkFrag id (f_date f) "TIMER_ARMED"]).
Proof.
  intros Hid Hne Hv. unfold leon_kill, killed. rewrite Hid.
  apply view_set_frag.
  destruct (bool_decide (j_state j = "Waiting"%string) || bool_decide (j_state j = "Hold"%string)) eqn:E.
  - erewrite view_set_state by exact Hv. rewrite decide_True; [done|]. split; [done|].
    apply orb_true_iff in E as [E%bool_decide_eq_true|E%bool_decide_eq_true]; rewrite E; split; by_dec.
  - rewrite (bool_decide_eq_false_2 (j_state j ∈ ended)) by done. destruct (bool_decide ("noop"%string ∈ j_types j)); rewrite view_events; [|done].
    erewrite view_set_state by (apply view_finish; [done|exact Hv]). done.
Qed.
Lemma view_exterminate_other date id d j : j_id j <> id -> view id (leon_exterminate date d j) = view id d.
Proof.
  intros Hi. unfold leon_exterminate. rewrite view_finish_other by (destruct (_ =? _); done).
  destruct (_ =? _); [rewrite view_running_other by done|]; by apply view_set_state_other.
Qed.
Lemma view_exterminate date id d j f : j_id j = id -> view id d = ([j], [f]) ->
  exists j', view id (leon_exterminate date d j) = ([j'], [f]) /\ j_id j' = id /\ j_state j' = if decide (accepts id "Finishing" j) then "Finishing"%string else j_state j.
Proof.
  intros Hid Hv. unfold leon_exterminate. rewrite Hid. pose proof (view_set_state date id "Finishing" d j [f] Hv) as H1.
  set (j1 := if decide (accepts id "Finishing" j) then final_stop "Finishing" (with_state "Finishing" j) else j) in *.
  assert (j_id j1 = id) as Hj1 by (unfold j1; destruct (decide _); rewrite ?final_stop_id; done).
  assert (j_state j1 = if decide (accepts id "Finishing" j) then "Finishing"%string else j_state j) as Hs1 by (unfold j1; destruct (decide _); rewrite ?final_stop_state; done).
  destruct (j_start j =? 0).
  - eexists. split; [eapply view_finish; [exact Hid|]; apply view_running; exact H1|]. cbn. done.
  - eexists. split; [eapply view_finish; [exact Hid|]; exact H1|]. cbn. done.
Qed.
Lemma view_sarko_timer_other soft hard date id d j : j_id j <> id -> view id (sarko_timer soft hard date d j) = view id d.
Proof.
  intros Hi. unfold sarko_timer. case_bool_decide; [by apply view_set_frag_other|]. destruct (filter _ _); [done|].
  destruct (_ && _); [by apply view_set_frag_other|]. destruct (_ <? _); [by apply view_set_frag_other|done].
Qed.
Definition timer_next (soft hard date : Z) (j : job) (f : frag) : string :=
  (if bool_decide (j_state j ∈ ended) then "FRAGGED"
   else if (f_date f + soft <? date)%Z && (date <=? f_date f + hard_delay soft hard)%Z then "LEON"
   else if (f_date f + hard_delay soft hard <? date)%Z then "LEON_EXTERMINATE" else f_state f)%string.
Lemma view_sarko_timer soft hard date id d j f : j_id j = id -> f_job f = id -> view id d = ([j], [f]) ->
  view id (sarko_timer soft hard date d j) = ([j], [mkFrag id (f_date f) (timer_next soft hard date j f)]).
Proof.
  intros Hid Hfid Hv. unfold sarko_timer, timer_next. rewrite Hid. case_bool_decide; [by apply view_set_frag|].
  assert (filter (fun f => f_job f = id) (frags d) = [f]) as -> by (unfold view in Hv; congruence).
  destruct (_ && _); [by apply view_set_frag|]. destruct (_ <? _); [by apply view_set_frag|]. rewrite Hv. destruct f; cbn in *. by rewrite Hfid.
Qed.

Lemma in_kill d j : j ∈ jobs_to_kill d <-> j ∈ jobs_in_frag "LEON" d /\ j_state j ∉ ended.
Proof.
  unfold jobs_to_kill. rewrite elem_of_list_filter. assert (j_state j ∉ ["Error"; "Terminated"; "Finishing"]%string <-> j_state j ∉ ended) as -> by set_solver. tauto.
Qed.
Lemma in_frag_view s d j : uniq d -> one_row d -> (exists f, view (j_id j) d = ([j], [f]) /\ f_job f = j_id j /\ f_state f = s) -> j ∈ jobs_in_frag s d.
Proof.
  intros HU HR (f & Hv & Hf & Hs). apply jobs_in_frag_in. unfold view in Hv. injection Hv as Hj Hfs.
  assert (j ∈ filter (fun x => j_id x = j_id j) (jobs d)) as H1 by (rewrite Hj; left). apply elem_of_list_filter in H1 as [_ H1].
  assert (f ∈ filter (fun x => f_job x = j_id j) (frags d)) as H2 by (rewrite Hfs; left). apply elem_of_list_filter in H2 as [_ H2]. eauto.
Qed.
Lemma in_frag_inv s d i id j f : uniq d -> one_row d -> view id d = ([j], [f]) -> i ∈ jobs_in_frag s d -> j_id i = id -> i = j /\ f_state f = s.
Proof.
  intros HU HR Hv Hi Hid. apply jobs_in_frag_in in Hi as (Hi & g & Hg & Hgs & Hgj). unfold view in Hv. injection Hv as Hj Hfs.
  assert (i ∈ filter (fun x => j_id x = id) (jobs d)) as H1 by (by apply elem_of_list_filter). rewrite Hj in H1. apply elem_of_list_singleton in H1 as ->.
  assert (g ∈ filter (fun x => f_job x = id) (frags d)) as H2 by (apply elem_of_list_filter; split; [congruence|done]). rewrite Hfs in H2. apply elem_of_list_singleton in H2 as ->. done.
Qed.
Lemma kill_nodup d : uniq d -> one_row d -> NoDup (j_id <$> jobs_to_kill d).
Proof.
  intros HU HR. pose proof (jobs_in_frag_nodup "LEON" d HU HR) as HN. unfold jobs_to_kill. revert HN. induction (jobs_in_frag "LEON" d) as [|x l IH]; intros HN; [apply NoDup_nil_2|].
  cbn [fmap list_fmap] in HN. apply NoDup_cons in HN as [H1 H2]. rewrite filter_cons. destruct (decide _); [|by apply IH]. cbn [fmap list_fmap]. apply NoDup_cons. split; [|by apply IH].
  intros Hx. apply H1. apply elem_of_list_fmap in Hx as (y & Hy & Hin). apply elem_of_list_filter in Hin as [_ Hin]. apply elem_of_list_fmap. eauto.
Qed.

(** A run of Sarko, on the rows of one job. *)
Lemma view_sarko soft hard date id d j f : uniq d -> one_row d -> view id d = ([j], [f]) ->
  view id (sarko_timers soft hard date d) =
    ([j], [if bool_decide (f_state f = "TIMER_ARMED"%string) then mkFrag id (f_date f) (timer_next soft hard date j f) else f]).
Proof.
  intros HU HR Hv. unfold sarko_timers.
  assert (j ∈ filter (fun j => j_id j = id) (jobs d)) as Hin by (unfold view in Hv; injection Hv as -> _; left). apply elem_of_list_filter in Hin as [Hid Hin].
  assert (f ∈ filter (fun x => f_job x = id) (frags d)) as Hf by (unfold view in Hv; injection Hv as _ ->; left). apply elem_of_list_filter in Hf as [Hfid Hf].
  case_bool_decide as Hs.
  - assert (j ∈ jobs_in_frag "TIMER_ARMED" d) as Hjf by (apply in_frag_view; try done; exists f; by rewrite Hid).
    destruct (fold_obs_at (view id) (sarko_timer soft hard date) id (fun d j H => view_sarko_timer_other soft hard date id d j H) _ j d (jobs_in_frag_nodup _ d HU HR) Hjf Hid) as (d1 & H1 & H2).
    rewrite H2. apply view_sarko_timer; [done|done|congruence].
  - rewrite (fold_obs_other (view id) (sarko_timer soft hard date) id); [done| |].
    + intros. by apply view_sarko_timer_other.
    + intros i Hi Hii. destruct (in_frag_inv _ d i id j f HU HR Hv Hi Hii) as [_ ?]. done.
Qed.
Lemma fold_keeps_uniq date (g : db -> job -> db) l d : (forall d j, elems date d (g d j)) -> uniq d -> uniq (fold_left g l d).
Proof. intros Hg HU. by apply (elems_uniq date d), HU; apply fold_elems. Qed.
Lemma rows_kill date evs d j : one_row d -> one_row (leon_kill date evs d j).
Proof.
  intros HR. unfold leon_kill. apply rows_set. destruct (_ || _); [by apply (rows_same d); [apply set_state_frags|]|].
  case_bool_decide; [done|]. case_bool_decide; apply (rows_same d); try done; rewrite fold_events_frags; [|done]. by rewrite set_state_frags.
Qed.
Lemma rows_exterminate date d j : one_row d -> one_row (leon_exterminate date d j).
Proof.
  apply rows_same. unfold leon_exterminate, set_finish_date. cbn [frags with_jobs]. destruct (_ =? _); cbn [frags with_jobs set_running_date]; by rewrite set_state_frags.
Qed.
Lemma fold_rows (g : db -> job -> db) l d : (forall d j, one_row d -> one_row (g d j)) -> one_row d -> one_row (fold_left g l d).
Proof. intros Hg. revert d. induction l as [|x l IH]; intros d HR; [done|]. cbn [fold_left]. by apply IH, Hg. Qed.
Lemma rows_sarko soft hard date d : one_row d -> one_row (sarko_timers soft hard date d).
Proof.
  apply fold_rows. intros d0 j HR. unfold sarko_timer. case_bool_decide; [by apply rows_set|]. destruct (filter _ _); [done|].
  destruct (_ && _); [by apply rows_set|]. destruct (_ <? _); [by apply rows_set|done].
Qed.
Lemma rows_leon date evs d : one_row d -> one_row (leon date evs d).
Proof. intros HR. unfold leon. apply fold_rows; [apply rows_exterminate|]. apply fold_rows; [apply rows_kill|done]. Qed.
Lemma uniq_sarko soft hard date d : uniq d -> uniq (sarko_timers soft hard date d).
Proof. exact (step_uniq date (ASarkoTimers soft hard) d). Qed.
Lemma uniq_leon date evs d : uniq d -> uniq (leon date evs d).
Proof. exact (step_uniq date (ALeon evs) d). Qed.

(** A run of Leon, on the rows of one job. *)
Lemma view_leon date evs id d j f : uniq d -> one_row d -> view id d = ([j], [f]) ->
  exists j', j_id j' = id /\
  if bool_decide (f_state f = "LEON"%string) && negb (bool_decide (j_state j ∈ ended)) then view id (leon date evs d) = ([j'], [mkFrag id (f_date f) "TIMER_ARMED"]) /\ j' = killed date j
  else if bool_decide (f_state f = "LEON_EXTERMINATE"%string) then view id (leon date evs d) = ([j'], [f]) /\ j_state j' = if decide (accepts id "Finishing" j) then "Finishing"%string else j_state j
  else view id (leon date evs d) = ([j'], [f]) /\ j' = j.
Proof.
  intros HU HR Hv.
  assert (j ∈ filter (fun j => j_id j = id) (jobs d)) as Hin by (unfold view in Hv; injection Hv as -> _; left). apply elem_of_list_filter in Hin as [Hid Hin].
  assert (f ∈ filter (fun x => f_job x = id) (frags d)) as Hf by (unfold view in Hv; injection Hv as _ ->; left). apply elem_of_list_filter in Hf as [Hfid Hf].
  unfold leon. set (d1 := fold_left (leon_kill date evs) (jobs_to_kill d) d).
  assert (HU1 : uniq d1) by (apply (fold_keeps_uniq date); [intros; apply leon_kill_elems|done]).
  assert (HR1 : one_row d1) by (apply fold_rows; [apply rows_kill|done]).
  assert (Hsecond : forall j1 f1, view id d1 = ([j1], [f1]) -> f_state f1 <> "LEON_EXTERMINATE"%string ->
     view id (fold_left (leon_exterminate date) (jobs_in_frag "LEON_EXTERMINATE" d1) d1) = ([j1], [f1])).
  { intros j1 f1 Hv1 Hs1. rewrite (fold_obs_other (view id) (leon_exterminate date) id); [done| |].
    - intros. by apply view_exterminate_other.
    - intros i Hi Hii. destruct (in_frag_inv _ d1 i id j1 f1 HU1 HR1 Hv1 Hi Hii) as [_ ?]. done. }
  destruct (bool_decide (f_state f = "LEON"%string) && negb (bool_decide (j_state j ∈ ended))) eqn:E.
  - apply andb_true_iff in E as [E1%bool_decide_eq_true E2%negb_true_iff]. apply bool_decide_eq_false in E2.
    exists (killed date j). split.
    { unfold killed. destruct (_ || _); [by rewrite final_stop_id|]. case_bool_decide; [|done]. destruct (decide _); [by rewrite final_stop_id|done]. }
    split; [|done]. apply Hsecond; [|done].
    assert (j ∈ jobs_to_kill d) as Hjk by (apply in_kill; split; [apply in_frag_view; try done; exists f; by rewrite Hid|done]).
    destruct (fold_obs_at (view id) (leon_kill date evs) id (fun d j H => view_leon_kill_other date evs id d j H) _ j d (kill_nodup d HU HR) Hjk Hid) as (d0 & H1 & H2).
    unfold d1. rewrite H2. apply view_leon_kill; [done|done|congruence].
  - assert (Hv1 : view id d1 = ([j], [f])).
    { unfold d1. rewrite (fold_obs_other (view id) (leon_kill date evs) id); [done| |].
      - intros. by apply view_leon_kill_other.
      - intros i Hi Hii. apply in_kill in Hi as [Hi Hni]. destruct (in_frag_inv _ d i id j f HU HR Hv Hi Hii) as [-> Hs].
        rewrite bool_decide_eq_true_2, bool_decide_eq_false_2 in E by done. done. }
    destruct (decide (f_state f = "LEON_EXTERMINATE"%string)) as [Hx|Hx]; [rewrite (bool_decide_eq_true_2 _ Hx)|rewrite (bool_decide_eq_false_2 _ Hx)].
    + assert (j ∈ jobs_in_frag "LEON_EXTERMINATE" d1) as Hjk by (apply in_frag_view; try done; exists f; by rewrite Hid).
      destruct (fold_obs_at (view id) (leon_exterminate date) id (fun d j H => view_exterminate_other date id d j H) _ j d1 (jobs_in_frag_nodup _ d1 HU1 HR1) Hjk Hid) as (d0 & H1 & H2).
      rewrite Hv1 in H1. destruct (view_exterminate date id d0 j f Hid H1) as (j' & H3 & H4 & H5). exists j'. rewrite H2. done.
    + exists j. split; [done|]. split; [|done]. by apply Hsecond.
Qed.
Lemma view_leon_job evs id i d j f : view id d = ([j], [f]) ->
  view id (leon_job evs i d) = ([j], [if bool_decide (i = id) && bool_decide (f_state f = "LEON_EXTERMINATE"%string) then mkFrag id (f_date f) "TIMER_ARMED" else f]).
Proof.
  intros Hv. unfold leon_job. destruct (decide (i = id)) as [->|Hi].
  - assert (filter (fun f => f_job f = id) (frags d) = [f]) as -> by (unfold view in Hv; congruence).
    rewrite (bool_decide_eq_true_2 (id = id)) by done. cbn [andb]. destruct (bool_decide (f_state f = "LEON_EXTERMINATE"%string)); [|done]. rewrite view_events. by apply view_set_frag.
  - rewrite (bool_decide_eq_false_2 (i = id)) by done. cbn [andb]. destruct (filter _ _) as [|g [|]]; [done| |done]. case_bool_decide; [|done].
    rewrite view_events. by rewrite view_set_frag_other.
Qed.
Lemma rows_leon_job evs i d : one_row d -> one_row (leon_job evs i d).
Proof.
  intros HR. unfold leon_job. destruct (filter _ _) as [|g [|]]; [done| |done]. case_bool_decide; [|done].
  apply (rows_same (set_frag "TIMER_ARMED" i d)); [by rewrite fold_events_frags|by apply rows_set].
Qed.
