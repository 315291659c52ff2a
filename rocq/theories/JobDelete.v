(** Requests on jobs and their deletion: C33, C36, C37, C38, C63. *)
From Verif Require Import Base JobModel JobSpec JobProofs JobLife JobProps JobKill.

(** ** C33. A request succeeds only for the owner or an administrator; a refused one changes
    nothing. *)
Inductive request := RDelete | RCheckpoint (signal : option string) | RHold (running : bool) | RResume.
Definition perform (date : Z) (allowed : bool) (u : string) (id : Z) (r : request) (d : db) : Z * db :=
  match r with
  | RDelete => frag_job date u id d
  | RCheckpoint s => ask_checkpoint s u id d
  | RHold running => hold_job allowed running u id d
  | RResume => resume_job allowed u id d
  end.
Lemma owner_or_admin u v : bool_decide (u = v) || admin u = true -> u = v \/ u = "oar"%string \/ u = "root"%string.
Proof.
  unfold admin. intros H. apply orb_true_iff in H as [H|H]; [left; by apply bool_decide_eq_true in H|].
  apply orb_true_iff in H as [H|H]; apply bool_decide_eq_true in H; tauto.
Qed.
Theorem C33_only_owner date allowed u id r d :
  (perform date allowed u id r d).1 = 0 ->
  exists j, j ∈ jobs d /\ j_id j = id /\ (u = j_user j \/ u = "oar"%string \/ u = "root"%string).
Proof.
  destruct r as [|s|running|]; cbn [perform]; unfold frag_job, ask_checkpoint, hold_job, resume_job;
    (destruct (get_job d id) as [j|] eqn:E; [|done]); apply get_job_in in E as [Hj Hid]; intros H; exists j; (split; [done|]); (split; [done|]); apply owner_or_admin;
    destruct (bool_decide (u = j_user j) || admin u); try done; exfalso; revert H; repeat case_match; done.
Qed.
Theorem C33_refused_no_effect date allowed u id r d :
  (perform date allowed u id r d).1 <> 0 -> (perform date allowed u id r d).2 = d.
Proof.
  destruct r as [|s|running|]; cbn [perform]; unfold frag_job, ask_checkpoint, hold_job, resume_job; repeat case_match; cbn; done.
Qed.
(** A stranger is always refused: nothing changes. *)
Theorem C33_stranger date allowed u id r d : u <> "oar"%string -> u <> "root"%string -> (forall j, j ∈ jobs d -> j_id j = id -> j_user j <> u) ->
  (perform date allowed u id r d).1 <> 0 /\ (perform date allowed u id r d).2 = d.
Proof.
  intros H1 H2 H3. assert ((perform date allowed u id r d).1 <> 0) as Hc.
  { intros H. apply C33_only_owner in H as (j & Hj & Hid & [Hu|[Hu|Hu]]); [|done|done]. by apply (H3 j Hj Hid). }
  split; [done|]. by apply C33_refused_no_effect.
Qed.
(** The owner can delete a job that is not being deleted, whatever its state. *)
Theorem C33_owner_deletes date allowed u d j : uniq d -> j ∈ jobs d -> u = j_user j -> frag_state (j_id j) d = None ->
  (perform date allowed u (j_id j) RDelete d).1 = 0 /\ frag_state (j_id j) (perform date allowed u (j_id j) RDelete d).2 = Some "LEON"%string.
Proof.
  intros HU Hj -> Hno. cbn [perform]. unfold frag_job. rewrite (get_job_of d j HU Hj). rewrite (bool_decide_eq_true_2 (j_user j = j_user j)) by done. cbn [orb].
  rewrite (proj1 (frag_row_none _ _) Hno). split; [done|]. cbn [snd]. rewrite (frag_state_frags (j_id j) (with_frags (fun l => l ++ [mkFrag (j_id j) date "LEON"]) d)) by done.
  rewrite frag_state_app, Hno. by rewrite filter_cons_True.
Qed.
Example C33_case : let d := run [(5, ASubmit false (jb 1 ""))] empty_db in
  (perform 9 true "u" 1 RDelete d).1 = 0 /\ (perform 9 true "v" 1 RDelete d).1 = -1 /\ (perform 9 true "v" 1 (RHold false) d).1 = -2 /\ (perform 9 true "u" 1 (RHold false) d).1 = 0 /\
  (perform 9 true "root" 1 RDelete d).1 = 0.
Proof. vm_compute. done. Qed.

(** ** C36. *)
Definition row_ext (d d' : db) : Prop :=
  frags d' = frags d \/ exists i t, filter (fun f => f_job f = i) (frags d) = [] /\ frags d' = frags d ++ [mkFrag i t "LEON"].
Lemma frag_job_ext date u id d : row_ext d (snd (frag_job date u id d)).
Proof.
  unfold frag_job. destruct (get_job d id); [|by left]. destruct (_ || _); [|by left]. destruct (filter _ _) eqn:E; [|by left].
  right. exists id, date. done.
Qed.
Lemma frag_job_rows date u id d : frags (snd (frag_job date u id d)) = frags d \/ frags (snd (frag_job date u id d)) = frags d ++ [mkFrag id date "LEON"].
Proof. unfold frag_job. destruct (get_job d id); [|by left]. destruct (_ || _); [|by left]. destruct (filter _ _) eqn:E; [by right|by left]. Qed.
Lemma frag_job_jobs date u id d : jobs (snd (frag_job date u id d)) = jobs d.
Proof. unfold frag_job. repeat case_match; done. Qed.
Lemma frag_job_mlds date u id d : mlds (snd (frag_job date u id d)) = mlds d.
Proof. unfold frag_job. repeat case_match; done. Qed.
Lemma frag_job_logs date u id d : logs (snd (frag_job date u id d)) = logs d.
Proof. unfold frag_job. repeat case_match; done. Qed.
Lemma suspended_sum_logs now id d d' : logs d' = logs d -> suspended_sum now id d' = suspended_sum now id d.
Proof. unfold suspended_sum. by intros ->. Qed.

(** What makes Sarko kill: the job is late against its limit. *)
Definition late (date : Z) (d : db) (j : job) : Prop :=
  exists m, filter (fun m => m_id m = j_mld j) (mlds d) = [m] /\
  (if bool_decide (j_suspended j = "YES"%string) then j_start j + suspended_sum date (j_id j) d < date else j_start j + m_wall m < date).
Lemma sarko_walltimes_new date u l d d' : sarko_walltimes date u l d = Ok d' ->
  mlds d' = mlds d /\ logs d' = logs d /\ jobs d' = jobs d /\
  forall f, f ∈ frags d' -> f ∈ frags d \/ exists j, j ∈ l /\ j_id j = f_job f /\ late date d j.
Proof.
  revert d. induction l as [|j l IH]; intros d H; [injection H as <-; auto|]. cbn [sarko_walltimes] in H. apply rbind_Ok in H as (d1 & H1 & H2).
  specialize (IH d1 H2) as (Hm & Hl & Hjb & Hf). unfold sarko_walltime in H1.
  destruct (filter _ (mlds d)) as [|m [|]] eqn:Em; try done.
  assert (mlds d1 = mlds d /\ logs d1 = logs d /\ jobs d1 = jobs d /\ forall f, f ∈ frags d1 -> f ∈ frags d \/ (j_id j = f_job f /\ late date d j)) as (Hm1 & Hl1 & Hjb1 & Hf1).
  { destruct (_ <? _) eqn:Elt in H1; injection H1 as <-; [|auto]. cbn [mlds logs jobs add_event with_events].
    rewrite frag_job_mlds, frag_job_logs, frag_job_jobs. split; [done|]. split; [done|]. split; [done|]. intros f Hin.
    change (frags (add_event "WALLTIME" (j_id j) (frag_job date u (j_id j) d).2)) with (frags (frag_job date u (j_id j) d).2) in Hin. assert (f ∈ frags d \/ f = mkFrag (j_id j) date "LEON") as [?| ->].
    { destruct (frag_job_rows date u (j_id j) d) as [E|E]; rewrite E in Hin; [by left|]. apply elem_of_app in Hin as [?|Hin]; [by left|]. right. by apply elem_of_list_singleton in Hin. }
    - by left.
    - right. split; [done|]. exists m. split; [done|]. case_bool_decide; lia. }
  split; [congruence|]. split; [congruence|]. split; [congruence|]. intros f Hin. destruct (Hf f Hin) as [Hin1|(x & Hx & Hid & m' & Hm' & Hlate)].
  - destruct (Hf1 f Hin1) as [?|[? ?]]; [by left|]. right. exists j. split; [left|]. done.
  - right. exists x. split; [by right|]. split; [done|]. exists m'. rewrite Hm1 in Hm'. split; [done|].
    rewrite (suspended_sum_logs _ _ _ _ Hl1) in Hlate. exact Hlate.
Qed.
Lemma sarko_timers_same soft hard date d : jobs (sarko_timers soft hard date d) = jobs d /\ mlds (sarko_timers soft hard date d) = mlds d /\ logs (sarko_timers soft hard date d) = logs d /\
  f_job <$> frags (sarko_timers soft hard date d) = f_job <$> frags d /\ events (sarko_timers soft hard date d) = events d.
Proof.
  unfold sarko_timers. generalize (jobs_in_frag "TIMER_ARMED" d). intros l. revert d. induction l as [|j l IH]; intros d; [done|]. cbn [fold_left].
  destruct (IH (sarko_timer soft hard date d j)) as (-> & -> & -> & -> & ->). unfold sarko_timer.
  case_bool_decide; [by rewrite set_frag_ids|]. destruct (filter _ _); [done|]. destruct (_ && _); [by rewrite set_frag_ids|]. destruct (_ <? _); [by rewrite set_frag_ids|done].
Qed.
(** Partial: for a job that was never suspended.  Every deletion request Sarko adds is for a
    running job that has been running for longer than its walltime. *)
Theorem C36_walltime_partial soft hard date u d d' : sarko soft hard date u d = Ok d' ->
  forall f, f ∈ frags d' -> f_job f ∉ (f_job <$> frags d) ->
  exists j m, j ∈ jobs d /\ j_id j = f_job f /\ j_state j = "Running"%string /\ m ∈ mlds d /\ m_id m = j_mld j /\
    (j_suspended j <> "YES"%string -> j_start j + m_wall m < date).
Proof.
  unfold sarko. destruct (sarko_timers_same soft hard date d) as (Hj & Hm & Hl & Hf & _). intros H f Hin Hnew.
  apply sarko_walltimes_new in H as (_ & _ & _ & H). destruct (H f Hin) as [Hold|(j & Hjl & Hid & m & Hfm & Hlate)].
  - exfalso. apply Hnew. rewrite <- Hf. apply elem_of_list_fmap. eauto.
  - rewrite Hj in Hjl. apply elem_of_list_filter in Hjl as [Hst Hjl]. rewrite Hm in Hfm.
    assert (m ∈ filter (fun m => m_id m = j_mld j) (mlds d)) as Hmin by (rewrite Hfm; left). apply elem_of_list_filter in Hmin as [? ?].
    exists j, m. repeat split; try done. intros Hs. rewrite bool_decide_eq_false_2 in Hlate by done. done.
Qed.
(** And no overrunning job is forgotten. *)
Lemma sarko_walltimes_all date u l d d' : admin u = true -> uniq d -> sarko_walltimes date u l d = Ok d' ->
  forall j, j ∈ l -> j ∈ jobs d -> late date d j -> is_Some (frag_state (j_id j) d').
Proof.
  intros Ha. revert d. induction l as [|x l IH]; intros d HU H j Hj Hjd Hl; [by apply elem_of_nil in Hj|].
  cbn [sarko_walltimes] in H. apply rbind_Ok in H as (d1 & H1 & H2).
  assert (forall l d d', sarko_walltimes date u l d = Ok d' -> forall i, is_Some (frag_state i d) -> is_Some (frag_state i d')) as Hkeep.
  { clear. induction l as [|y l IH]; intros d d' H i Hi; [by injection H as <-|]. cbn [sarko_walltimes] in H. apply rbind_Ok in H as (d2 & H1 & H2).
    apply (IH d2 d' H2). unfold sarko_walltime in H1. destruct (filter _ (mlds d)) as [|m [|]]; try done. destruct (_ <? _) in H1; injection H1 as <-; [|done].
    rewrite (frag_state_frags i (snd (frag_job date u (j_id y) d))) by done. unfold frag_state in *. destruct (frag_job_rows date u (j_id y) d) as [E|E]; rewrite E; [done|].
    rewrite filter_app. destruct (filter _ (frags d)); [by destruct Hi|done]. }
  assert (Hsame : mlds d1 = mlds d /\ logs d1 = logs d /\ jobs d1 = jobs d).
  { unfold sarko_walltime in H1. destruct (filter _ (mlds d)) as [|m [|]]; try done. destruct (_ <? _) in H1; injection H1 as <-; [|done].
    cbn [mlds logs jobs add_event with_events]. by rewrite frag_job_mlds, frag_job_logs, frag_job_jobs. }
  destruct Hsame as (Hm1 & Hl1 & Hjb1). apply elem_of_cons in Hj as [->|Hj].
  - apply (Hkeep l d1 d' H2). destruct Hl as (m & Hm & Hlate). unfold sarko_walltime in H1. rewrite Hm in H1.
    assert (j_start x + (if bool_decide (j_suspended x = "YES"%string) then suspended_sum date (j_id x) d else m_wall m) <? date = true) as E.
    { apply Z.ltb_lt. case_bool_decide; done. }
    rewrite E in H1. injection H1 as <-. rewrite (frag_state_frags _ (snd (frag_job date u (j_id x) d))) by done.
    unfold frag_job. rewrite (get_job_of d x HU Hjd). rewrite Ha. rewrite orb_true_r. destruct (filter _ (frags d)) eqn:Ef.
    + cbn [snd]. rewrite (frag_state_frags _ (with_frags (fun l0 => l0 ++ [mkFrag (j_id x) date "LEON"]) d)) by done. rewrite frag_state_app. apply frag_row_none in Ef. rewrite Ef. rewrite filter_cons_True by done. by eexists.
    + cbn [snd]. unfold frag_state. rewrite Ef. by eexists.
  - apply (IH d1); try done. { unfold uniq. by rewrite Hjb1. } { by rewrite Hjb1. } destruct Hl as (m & Hm & Hlate). exists m. rewrite Hm1. split; [done|].
    rewrite (suspended_sum_logs _ _ _ _ Hl1). done.
Qed.
Theorem C36_overrun_killed_partial soft hard date u d d' j m : admin u = true -> uniq d -> sarko soft hard date u d = Ok d' ->
  j ∈ jobs d -> j_state j = "Running"%string -> j_suspended j <> "YES"%string -> filter (fun m => m_id m = j_mld j) (mlds d) = [m] -> j_start j + m_wall m < date ->
  is_Some (frag_state (j_id j) d').
Proof.
  unfold sarko. destruct (sarko_timers_same soft hard date d) as (Hj & Hm & Hl & Hf & _). intros Ha HU H Hin Hst Hs Hmm Hlate.
  apply (sarko_walltimes_all date u _ _ d' Ha) with (j := j) in H; try done.
  - unfold uniq. by rewrite Hj.
  - rewrite Hj. by apply elem_of_list_filter.
  - by rewrite Hj.
  - exists m. rewrite Hm. split; [done|]. by rewrite bool_decide_eq_false_2.
Qed.
(** Refuted: a job that was suspended and resumed is killed as soon as it has existed for longer
    than it was suspended: here 2 h of walltime, 5 s of suspension, killed after 91 s. *)
Definition c36_db : db :=
  with_mlds (fun _ => [mkMld 1 1 7200]) (with_jobs (upd (fun _ => True) (with_start 1000))
    (run [(990, ASubmit false (jb 1 "")); (1000, ASet 1 "Running"); (1005, ANodeChange "oar" SDone (mkEv "HOLD_WAITING_JOB" 1 "YES"));
          (1010, ANodeChange "oar" SDone (mkEv "RESUME_JOB" 1 "YES")); (1010, ASet 1 "Running")] empty_db)).
Theorem C36_suspended_refuted :
  (fun j => (j_state j, j_start j, j_suspended j)) <$> jobs c36_db = [("Running"%string, 1000, "YES"%string)] /\
  m_wall <$> mlds c36_db = [7200] /\ frags c36_db = [] /\
  frags (from_ok c36_db (sarko 20 30 1091 "oar" c36_db)) = [mkFrag 1 1091 "LEON"].
Proof. vm_compute. done. Qed.
Definition c36_plain : db := with_mlds (fun _ => [mkMld 1 1 7200]) (with_jobs (upd (fun _ => True) (with_start 1000)) (run [(990, ASubmit false (jb 1 "")); (1000, ASet 1 "Running")] empty_db)).
Example C36_case : frags (from_ok empty_db (sarko 20 30 8200 "oar" c36_plain)) = [] /\ frags (from_ok empty_db (sarko 20 30 8201 "oar" c36_plain)) = [mkFrag 1 8201 "LEON"].
Proof. vm_compute. done. Qed.

(** ** C37. The states of a deletion request *)
Lemma row_ext_refl d d' : frags d' = frags d -> row_ext d d'.
Proof. by left. Qed.
Lemma row_ext_row d d' id f : row_ext d d' -> filter (fun f => f_job f = id) (frags d) = [f] -> filter (fun f => f_job f = id) (frags d') = [f].
Proof.
  intros [-> |(i & t & Hi & ->)] Hf; [done|]. rewrite filter_app, Hf. rewrite filter_cons_False; [done|]. cbn. intros ->. congruence.
Qed.
Lemma row_ext_one d d' : row_ext d d' -> one_row d -> one_row d'.
Proof.
  unfold one_row. intros [-> |(i & t & Hi & ->)] HR; [done|]. rewrite fmap_app. apply NoDup_app. split; [done|]. split; [|apply NoDup_singleton].
  intros x Hx Hx'. cbn in Hx'. apply elem_of_list_singleton in Hx' as ->. apply elem_of_list_fmap in Hx as (f & Hfi & Hf).
  assert (f ∈ filter (fun f => f_job f = i) (frags d)) as Hin by (by apply elem_of_list_filter). rewrite Hi in Hin. by apply elem_of_nil in Hin.
Qed.
Lemma row_ext_l d d1 d' : frags d1 = frags d -> row_ext d1 d' -> row_ext d d'.
Proof. unfold row_ext. by intros ->. Qed.
Lemma row_ext_r d d1 d' : frags d' = frags d1 -> row_ext d d1 -> row_ext d d'.
Proof. unfold row_ext. by intros ->. Qed.
Lemma suspend_ext date u out id d : row_ext d (suspend_job date u out id d).
Proof.
  destruct out; cbn [suspend_job]; try by left.
  - left. unfold suspend_action. cbn [frags with_jobs]. apply set_state_frags.
  - left. rewrite set_state_frags. unfold suspend_action. cbn [frags with_jobs add_event with_events]. apply set_state_frags.
  - eapply row_ext_l; [|apply frag_job_ext]. done.
Qed.
Lemma hold_resume_ext date u out t j d d' : hold_resume date u out t j d = Ok d' -> row_ext d d'.
Proof.
  unfold hold_resume. destruct (_ && _); [intros [= <-]; left; apply set_state_frags|]. destruct (_ && _); [intros [= <-]; left; apply set_state_frags|].
  destruct (_ && _); [case_bool_decide; [done|]; intros [= <-]; apply suspend_ext|].
  destruct (_ && _); [intros [= <-]; left; apply set_state_frags|]. destruct (_ && _); intros [= <-]; left; [apply set_state_frags|done].
Qed.
Lemma if_frags (b : bool) (x y : db) fs : frags x = fs -> frags y = fs -> frags (if b then x else y) = fs.
Proof. by destruct b. Qed.
Ltac same_frags := repeat (first [done | apply if_frags | rewrite set_state_frags]).
Lemma ncs_event_ext date u out ev d d' : ncs_event date u out ev d = Ok d' -> row_ext d d'.
Proof.
  unfold ncs_event. destruct (_ && _); [done|]. intros H. apply rbind_Ok in H as (d4 & H & [= <-]).
  eapply (row_ext_r d d4); [done|]. match type of H with context [hold_resume _ _ _ _ _ ?x] => set (d3 := x) in H end.
  assert (frags d3 = frags d) as Hd. { unfold d3. destruct (get_job d (e_job ev)); same_frags. }
  clearbody d3. destruct (bool_decide _) in H; [|injection H as <-; by left].
  destruct (get_job d (e_job ev)); [|done]. eapply row_ext_l; [exact Hd|]. by eapply hold_resume_ext.
Qed.
(** The moves of a request made by one action. *)
Definition allowed_move (s s' : string) : Prop :=
  s' = s \/ (s = "LEON" /\ s' = "TIMER_ARMED")%string \/ (s = "LEON_EXTERMINATE" /\ s' = "TIMER_ARMED")%string \/
  (s = "TIMER_ARMED" /\ (s' = "FRAGGED" \/ s' = "LEON" \/ s' = "LEON_EXTERMINATE"))%string.
Definition is_kill (a : action) : bool :=
  match a with ASarkoTimers _ _ | ALeon _ | ALeonJob _ _ => true | _ => false end.
Lemma step_ext date a d : is_kill a = false -> row_ext d (step date a d).
Proof.
  destruct a as [hold j|id s|u id|sg u id|al r u id|al u id|soft hard|u j|evs|evs id|error hh evs id|u out ev]; cbn [step is_kill]; try done; intros _.
  - case_bool_decide; by left.
  - left. apply set_state_frags.
  - apply frag_job_ext.
  - left. unfold ask_checkpoint. repeat case_match; done.
  - left. unfold hold_job. repeat case_match; done.
  - left. unfold resume_job. repeat case_match; done.
  - unfold sarko_walltime. destruct (filter _ _) as [|m [|]]; cbn [from_ok]; [by left| |by left]. destruct (_ <? _); cbn [from_ok]; [|by left].
    eapply row_ext_r; [|apply frag_job_ext]. done.
  - left. unfold end_of_job. destruct (get_job d id); [|done]. case_bool_decide; [|done]. apply if_frags; rewrite ?fold_events_frags, set_state_frags; done.
  - destruct (ncs_event date u out ev d) as [d'|] eqn:E; cbn [from_ok]; [by eapply ncs_event_ext|by left].
Qed.
Lemma step_rows date a d : one_row d -> one_row (step date a d).
Proof.
  intros HR. destruct (is_kill a) eqn:E; [|by eapply row_ext_one; [apply step_ext|]].
  destruct a; try done; cbn [step]; [by apply rows_sarko|by apply rows_leon|by apply rows_leon_job].
Qed.
Theorem C37_one_request h : one_row (run h empty_db).
Proof.
  assert (forall d, one_row d -> one_row (run h d)) as H; [|apply H, NoDup_nil_2]. induction h as [|[t a] h IH]; intros d HR; [done|].
  cbn [run fold_left]. by apply IH, step_rows.
Qed.
Lemma frag_state_view id d js f : view id d = (js, [f]) -> frag_state id d = Some (f_state f).
Proof. unfold view, frag_state. intros [= _ ->]. done. Qed.
Lemma view_of_row d j s : uniq d -> one_row d -> j ∈ jobs d -> frag_state (j_id j) d = Some s -> exists f, view (j_id j) d = ([j], [f]) /\ f_job f = j_id j /\ f_state f = s /\ f ∈ frags d.
Proof.
  intros HU HR Hj Hs. apply frag_state_row in Hs as (f & Hf & Hid & Hst); [|done]. exists f. split; [|done].
  rewrite <- (row_filter d (j_id j) f HR Hf Hid). by apply view_uniq.
Qed.
Theorem C37_moves date a d j s : uniq d -> one_row d -> j ∈ jobs d -> frag_state (j_id j) d = Some s ->
  exists s', frag_state (j_id j) (step date a d) = Some s' /\ allowed_move s s'.
Proof.
  intros HU HR Hj Hs. destruct (view_of_row d j s HU HR Hj Hs) as (f & Hv & Hfid & Hfs & _).
  destruct (is_kill a) eqn:E.
  - destruct a as [| | | | | |soft hard| |evs|evs id| |]; try done; cbn [step].
    + pose proof (view_sarko soft hard date _ d j f HU HR Hv) as Hv'. apply frag_state_view in Hv'. rewrite Hv'. case_bool_decide as Ha.
      * cbn [f_state]. eexists. split; [done|]. rewrite <- Hfs, Ha. unfold timer_next, allowed_move. rewrite Ha. repeat case_match; tauto.
      * exists s. split; [by rewrite Hfs|]. by left.
    + destruct (view_leon date evs _ d j f HU HR Hv) as (j' & _ & Hl). destruct (bool_decide (f_state f = "LEON"%string) && negb (bool_decide (j_state j ∈ ended))) eqn:Ek.
      * destruct Hl as [Hl _]. apply frag_state_view in Hl. rewrite Hl. eexists. split; [done|]. cbn [f_state]. apply andb_true_iff in Ek as [Ek _]. apply bool_decide_eq_true in Ek.
        unfold allowed_move. rewrite <- Hfs, Ek. tauto.
      * exists s. split; [|by left]. destruct (bool_decide (f_state f = "LEON_EXTERMINATE"%string)); destruct Hl as [Hl _]; apply frag_state_view in Hl; by rewrite Hl, Hfs.
    + pose proof (view_leon_job evs _ id d j f Hv) as Hl. apply frag_state_view in Hl. rewrite Hl. destruct (_ && _) eqn:Ek.
      * apply andb_true_iff in Ek as [_ Ek]. apply bool_decide_eq_true in Ek. eexists. split; [done|]. unfold allowed_move. cbn [f_state]. rewrite <- Hfs, Ek. tauto.
      * exists s. split; [by rewrite Hfs|by left].
  - exists s. split; [|by left]. unfold frag_state. injection Hv as _ Hv. rewrite (row_ext_row d _ (j_id j) f (step_ext date a d E) Hv). by rewrite <- Hfs.
Qed.
Lemma step_keeps_job date a d j : uniq d -> j ∈ jobs d -> exists j', j' ∈ jobs (step date a d) /\ j_id j' = j_id j.
Proof.
  intros HU Hj. assert (j_id j ∈ (fst <$> skel d)) as Hin by (rewrite <- skel_ids; apply elem_of_list_fmap; eauto).
  assert (forall d', elems date d d' -> uniq d -> j_id j ∈ (fst <$> skel d) -> j_id j ∈ (fst <$> skel d')) as Hk.
  { clear. intros d'. induction 1 as [|x y z H1 H2 IH]; [done|]. intros HU Hx. apply IH; [by eapply elem_uniq|]. rewrite <- skel_ids in *.
    destruct H1 as [i s|d2 Hsk _|hold jj _]; [by rewrite set_state_ids|rewrite skel_ids in *; by rewrite Hsk|]. cbn. rewrite fmap_app, elem_of_app. by left. }
  apply (Hk _ (step_elems date a d) HU) in Hin. rewrite <- skel_ids in Hin. apply elem_of_list_fmap in Hin as (j' & ? & ?). eauto.
Qed.
(** FRAGGED is final, along any history. *)
Theorem C37_fragged_final h d j : uniq d -> one_row d -> j ∈ jobs d -> frag_state (j_id j) d = Some "FRAGGED"%string -> frag_state (j_id j) (run h d) = Some "FRAGGED"%string.
Proof.
  revert d j. induction h as [|[t a] h IH]; intros d j HU HR Hj Hs; [done|]. cbn [run fold_left fst snd].
  destruct (step_keeps_job t a d j HU Hj) as (j' & Hj' & Hid). rewrite <- Hid. apply IH; [by apply step_uniq|by apply step_rows|done|].
  rewrite Hid. destruct (C37_moves t a d j _ HU HR Hj Hs) as (s' & Hs' & Hm). rewrite Hs'. f_equal. unfold allowed_move in Hm. intuition congruence.
Qed.
(** Partial: progress for a job that is alive when Leon first sees the request.  Leon, then Sarko
    once the delays are over, then Leon, the extermination of the job by the commander, and Sarko
    again: the request is finished, and so is the job (or it is Finishing). *)
Theorem C37_progress_partial d j t1 t2 t3 t4 soft hard evs1 evs2 evs3 f :
  uniq d -> one_row d -> j ∈ jobs d -> j_state j ∈ live_states -> j_state j <> "Finishing"%string ->
  f ∈ frags d -> f_job f = j_id j -> f_state f = "LEON"%string -> f_date f + hard_delay soft hard < t2 ->
  let d5 := run [(t1, ALeon evs1); (t2, ASarkoTimers soft hard); (t3, ALeon evs2); (t3, ALeonJob evs3 (j_id j)); (t4, ASarkoTimers soft hard)] d in
  frag_state (j_id j) d5 = Some "FRAGGED"%string /\
  exists j', j' ∈ jobs d5 /\ j_id j' = j_id j /\ j_state j' ∈ ended.
Proof.
  intros HU HR Hj Hlive Hnf Hf Hfid Hfs Hlate. cbv zeta. cbn [run fold_left fst snd step].
  set (id := j_id j).
  assert (Hv : view id d = ([j], [f])) by (rewrite <- (row_filter d id f HR Hf Hfid); by apply view_uniq).
  assert (Hne : j_state j ∉ ended). { intros H. apply elem_of_cons in H as [H|H]; [|apply elem_of_cons in H as [H|H]; [|apply elem_of_list_singleton in H; done]]; rewrite H in Hlive; revert Hlive; by_dec. }
  destruct (view_leon t1 evs1 id d j f HU HR Hv) as (j1 & Hid1 & H1). rewrite bool_decide_eq_true_2, bool_decide_eq_false_2 in H1 by done. cbn [negb andb] in H1. destruct H1 as [H1 Hk].
  set (d1 := leon t1 evs1 d) in *. assert (HU1 : uniq d1) by (by apply uniq_leon). assert (HR1 : one_row d1) by (by apply rows_leon).
  pose proof (view_sarko soft hard t2 id d1 j1 _ HU1 HR1 H1) as H2. cbn [f_state f_date] in H2. rewrite bool_decide_eq_true_2 in H2 by done.
  set (d2 := sarko_timers soft hard t2 d1) in *. assert (HU2 : uniq d2) by (by apply uniq_sarko). assert (HR2 : one_row d2) by (by apply rows_sarko).
  assert (HU3 := uniq_leon t3 evs2 d2 HU2). assert (HR3 := rows_leon t3 evs2 d2 HR2).
  assert (HU4 : uniq (leon_job evs3 id (leon t3 evs2 d2))) by (by apply (step_uniq t3 (ALeonJob evs3 id))).
  assert (HR4 := rows_leon_job evs3 id _ HR3).
  assert (Hmem : forall D x g, view id D = ([x], [g]) -> x ∈ jobs D /\ j_id x = id).
  { intros D x g Hx. unfold view in Hx. injection Hx as Hx _. assert (x ∈ filter (fun j => j_id j = id) (jobs D)) as Hin by (rewrite Hx; left). apply elem_of_list_filter in Hin as [? ?]. done. }
  destruct (decide (j_state j1 ∈ ended)) as [He|He].
  - (* the job is finished already *)
    unfold timer_next in H2. rewrite bool_decide_eq_true_2 in H2 by done.
    destruct (view_leon t3 evs2 id d2 j1 _ HU2 HR2 H2) as (j2 & Hid2 & H3). cbn [f_state f_date] in H3. cbn [bool_decide andb] in H3.
    rewrite (bool_decide_eq_false_2 ("FRAGGED"%string = "LEON"%string)), (bool_decide_eq_false_2 ("FRAGGED"%string = "LEON_EXTERMINATE"%string)) in H3 by done. cbn [andb] in H3. destruct H3 as [H3 ->].
    pose proof (view_leon_job evs3 id id _ j1 _ H3) as H4. cbn [f_state] in H4. rewrite (bool_decide_eq_false_2 ("FRAGGED"%string = "LEON_EXTERMINATE"%string)) in H4 by done. rewrite andb_false_r in H4.
    pose proof (view_sarko soft hard t4 id _ j1 _ HU4 HR4 H4) as H5. cbn [f_state] in H5. rewrite (bool_decide_eq_false_2 ("FRAGGED"%string = "TIMER_ARMED"%string)) in H5 by done.
    split; [by rewrite (frag_state_view _ _ _ _ H5)|]. exists j1. destruct (Hmem _ _ _ H5). done.
  - unfold timer_next in H2. rewrite bool_decide_eq_false_2 in H2 by done. cbn [f_date f_state] in H2.
    replace (t2 <=? f_date f + hard_delay soft hard) with false in H2 by lia. rewrite andb_false_r in H2. replace (f_date f + hard_delay soft hard <? t2) with true in H2 by lia.
    destruct (view_leon t3 evs2 id d2 j1 _ HU2 HR2 H2) as (j2 & Hid2 & H3). cbn [f_state f_date] in H3.
    rewrite (bool_decide_eq_false_2 ("LEON_EXTERMINATE"%string = "LEON"%string)), (bool_decide_eq_true_2 ("LEON_EXTERMINATE"%string = "LEON_EXTERMINATE"%string)) in H3 by done. cbn [andb] in H3. destruct H3 as [H3 Hs2].
    assert (Hfin : j_state j2 = "Finishing"%string).
    { rewrite Hs2. assert (j_state j1 ∈ live_states) as Hl1.
      { rewrite Hk in He |- *. revert He. unfold killed. destruct (_ || _) eqn:E; [rewrite final_stop_state; cbn [j_state with_state]; intros X; exfalso; apply X; by_dec|].
        destruct (bool_decide ("noop"%string ∈ j_types j)); [|intros _; exact Hlive].
        cbv zeta. destruct (decide (accepts (j_id j) "Terminated" _)); [rewrite final_stop_state; cbn [j_state with_state]; intros X; exfalso; apply X; by_dec|intros _; exact Hlive]. }
      rewrite decide_True; [done|]. split; [done|]. split; [done|]. intros E. apply He. rewrite E. by_dec. }
    pose proof (view_leon_job evs3 id id _ j2 _ H3) as H4. cbn [f_state f_date] in H4. rewrite (bool_decide_eq_true_2 (id = id)), (bool_decide_eq_true_2 ("LEON_EXTERMINATE"%string = "LEON_EXTERMINATE"%string)) in H4 by done. cbn [andb] in H4.
    pose proof (view_sarko soft hard t4 id _ j2 _ HU4 HR4 H4) as H5. cbn [f_state f_date] in H5. rewrite (bool_decide_eq_true_2 ("TIMER_ARMED"%string = "TIMER_ARMED"%string)) in H5 by done.
    unfold timer_next in H5. rewrite (bool_decide_eq_true_2 (j_state j2 ∈ ended)) in H5 by (rewrite Hfin; by_dec).
    split; [by rewrite (frag_state_view _ _ _ _ H5)|]. exists j2. destruct (Hmem _ _ _ H5). split; [done|]. split; [done|]. rewrite Hfin. by_dec.
Qed.
Example C37_case :
  let d := run [(5, ASubmit false (jb 1 "")); (6, ASet 1 "Running"); (10, AFrag "u" 1)] empty_db in
  frag_state 1 d = Some "LEON"%string /\
  frag_state 1 (run [(11, ALeon [])] d) = Some "TIMER_ARMED"%string /\
  frag_state 1 (run [(11, ALeon []); (31, ASarkoTimers 20 30)] d) = Some "LEON"%string /\
  frag_state 1 (run [(11, ALeon []); (41, ASarkoTimers 20 30)] d) = Some "LEON_EXTERMINATE"%string /\
  frag_state 1 (run [(11, ALeon []); (41, ASarkoTimers 20 30); (42, ALeon []); (42, ALeonJob [] 1); (43, ASarkoTimers 20 30)] d) = Some "FRAGGED"%string.
Proof. vm_compute. done. Qed.
(** Refuted: the request of a job that ends by itself before Leon sees it is never finished, however
    often Leon and Sarko run. *)
Theorem C37_stuck_refuted :
  let d := run [(5, ASubmit false (jb 1 "")); (6, ASet 1 "Running"); (10, AFrag "u" 1); (11, AEnd 0 true [] 1)] empty_db in
  frag_state 1 d = Some "LEON"%string /\
  forall h, (forall x, x ∈ h -> is_kill x.2 = true) -> frag_state 1 (run h d) = Some "LEON"%string.
Proof.
  cbv zeta. set (d := run _ _). split; [vm_compute; done|]. intros h Hh.
  assert (forall D, uniq D -> one_row D -> (exists j f, view 1 D = ([j], [f]) /\ j_state j = "Finishing"%string /\ f_state f = "LEON"%string) -> frag_state 1 (run h D) = Some "LEON"%string) as H.
  { clear d. induction h as [|[t a] h IH]; intros D HU HR (j & f & Hv & Hs & Hf).
    - cbn. rewrite (frag_state_view _ _ _ _ Hv). by rewrite Hf.
    - cbn [run fold_left]. apply IH; [intros; apply Hh; by right|by apply step_uniq|by apply step_rows|].
      assert (is_kill a = true) as Ha by (apply (Hh (t, a)); left). destruct a as [| | | | | |soft hard| |evs|evs i| |]; try done; cbn [step fst snd].
      + exists j, f. pose proof (view_sarko soft hard t 1 D j f HU HR Hv) as H1. rewrite bool_decide_eq_false_2 in H1 by (by rewrite Hf). done.
      + destruct (view_leon t evs 1 D j f HU HR Hv) as (j' & Hid' & H1). rewrite (bool_decide_eq_true_2 (j_state j ∈ ended)) in H1 by (rewrite Hs; by_dec).
        rewrite andb_false_r in H1. rewrite bool_decide_eq_false_2 in H1 by (by rewrite Hf). destruct H1 as [H1 ->]. eauto.
      + exists j, f. pose proof (view_leon_job evs 1 i D j f Hv) as H1. rewrite (bool_decide_eq_false_2 (f_state f = "LEON_EXTERMINATE"%string)) in H1 by (by rewrite Hf). rewrite andb_false_r in H1. done. }
  apply H.
  - apply C31_unique_ids.
  - apply C37_one_request.
  - eexists _, _. split; [vm_compute; reflexivity|]. done.
Qed.

(** ** C38. Hold and resume *)
(** Refuted: a hold-waiting request accepted while the job was waiting suspends it if it has
    started in the meantime. *)
Theorem C38_hold_waiting_refuted :
  let d := run [(5, ASubmit false (jb 1 "")); (6, AHold true false "u" 1); (7, ASet 1 "Running")] empty_db in
  (hold_job true false "u" 1 (run [(5, ASubmit false (jb 1 ""))] empty_db)).1 = 0 /\
  (j_state <$> jobs d) = ["Running"%string] /\
  (j_state <$> jobs (from_ok d (node_change_state 8 "oar" (fun _ => SDone) d))) = ["Suspended"%string].
Proof. vm_compute. done. Qed.
(** Refuted: a hold-running request on a running job is accepted and has no effect. *)
Theorem C38_hold_running_refuted :
  let d := run [(5, ASubmit false (jb 1 "")); (6, ASet 1 "Running"); (7, AHold true true "u" 1)] empty_db in
  (hold_job true true "u" 1 (run [(5, ASubmit false (jb 1 "")); (6, ASet 1 "Running")] empty_db)).1 = 0 /\
  (e_type <$> events d) = ["HOLD_RUNNING_JOB"%string] /\
  (j_state <$> jobs (from_ok empty_db (node_change_state 8 "oar" (fun _ => SDone) d))) = ["Running"%string] /\
  (e_check <$> events (from_ok empty_db (node_change_state 8 "oar" (fun _ => SDone) d))) = ["NO"%string].
Proof. vm_compute. done. Qed.
(** Partial: held from Waiting, resumed from Hold and from Suspended, in any database. *)
Lemma ncs_state date u out d j t s : uniq d -> j ∈ jobs d -> t ∈ ["HOLD_WAITING_JOB"; "HOLD_RUNNING_JOB"; "RESUME_JOB"]%string ->
  hold_resume date u out t j d = Ok (set_job_state date (j_id j) s d) -> j_state j ∈ live_states -> j_state j <> s ->
  exists d', ncs_event date u out (mkEv t (j_id j) "YES") d = Ok d' /\ exists j', j' ∈ jobs d' /\ j_id j' = j_id j /\ j_state j' = s.
Proof.
  intros HU Hj Ht Hh Hl Hs. unfold ncs_event. cbn [e_type e_job]. rewrite (get_job_of d j HU Hj).
  rewrite (bool_decide_eq_true_2 (is_Some (Some j))) by by_dec. cbn [negb]. rewrite andb_false_r.
  assert (t <> "SWITCH_INTO_TERMINATE_STATE"%string /\ t <> "SWITCH_INTO_ERROR_STATE"%string /\ t <> "FORCE_TERMINATE_FINISHING_JOB"%string /\ t ∉ error_events /\ t <> "CPUSET_CLEAN_ERROR"%string /\ t <> "EPILOGUE_ERROR"%string /\ t ∉ server_events) as (H1 & H2 & H3 & H4 & H5 & H6 & H7).
  { apply elem_of_cons in Ht as [->|Ht]; [|apply elem_of_cons in Ht as [->|Ht]; [|apply elem_of_list_singleton in Ht as ->]]; repeat split; by_dec. }
  rewrite (bool_decide_eq_false_2 _ H1), (bool_decide_eq_false_2 _ H2), (bool_decide_eq_false_2 _ H3), (bool_decide_eq_false_2 _ H4), (bool_decide_eq_false_2 _ H5), (bool_decide_eq_false_2 _ H6), (bool_decide_eq_false_2 _ H7), (bool_decide_eq_true_2 _ Ht).
  cbn [orb]. rewrite Hh. cbn [rbind]. eexists. split; [done|]. exists (final_stop s (with_state s j)). rewrite final_stop_id, final_stop_state. split; [|done].
  change (jobs (check_event t (j_id j) ?x)) with (jobs x). cbn [jobs check_event with_events]. rewrite set_state_jobs by done. apply elem_of_list_fmap. exists j. split; [|done].
  by rewrite decide_True.
Qed.
Theorem C38_hold_waiting_partial date u out d j t : uniq d -> j ∈ jobs d -> j_state j = "Waiting"%string -> t = "HOLD_WAITING_JOB"%string \/ t = "HOLD_RUNNING_JOB"%string ->
  exists d', ncs_event date u out (mkEv t (j_id j) "YES") d = Ok d' /\ exists j', j' ∈ jobs d' /\ j_id j' = j_id j /\ j_state j' = "Hold"%string.
Proof.
  intros HU Hj Hs Ht. apply ncs_state; try done; [destruct Ht as [-> | ->]; by_dec| |by (rewrite Hs; by_dec)|by (rewrite Hs)].
  unfold hold_resume. rewrite Hs. destruct Ht as [-> | ->]; done.
Qed.
Theorem C38_resume_partial date u out d j : uniq d -> j ∈ jobs d ->
  (j_state j = "Hold"%string -> exists d', ncs_event date u out (mkEv "RESUME_JOB" (j_id j) "YES") d = Ok d' /\ exists j', j' ∈ jobs d' /\ j_id j' = j_id j /\ j_state j' = "Waiting"%string) /\
  (j_state j = "Suspended"%string -> exists d', ncs_event date u out (mkEv "RESUME_JOB" (j_id j) "YES") d = Ok d' /\ exists j', j' ∈ jobs d' /\ j_id j' = j_id j /\ j_state j' = "Resuming"%string).
Proof.
  intros HU Hj. split; intros Hs; (apply ncs_state; try done; [by_dec| |by (rewrite Hs; by_dec)|by (rewrite Hs)]); unfold hold_resume; rewrite Hs; done.
Qed.

(** ** C63. The end of a job *)
Lemma ncs_ok date u out d j t c : uniq d -> j ∈ jobs d -> t ∉ ["HOLD_WAITING_JOB"; "HOLD_RUNNING_JOB"; "RESUME_JOB"]%string ->
  exists d', ncs_event date u out (mkEv t (j_id j) c) d = Ok d'.
Proof.
  intros HU Hj Ht. unfold ncs_event. cbn [e_type e_job]. rewrite (get_job_of d j HU Hj).
  rewrite (bool_decide_eq_true_2 (is_Some (Some j))) by by_dec. cbn [negb]. rewrite andb_false_r. rewrite (bool_decide_eq_false_2 _ Ht). cbn [rbind]. eauto.
Qed.
Definition finishing_events : list string :=
  ["SWITCH_INTO_TERMINATE_STATE"; "SWITCH_INTO_ERROR_STATE"; "PROLOGUE_ERROR"; "EPILOGUE_ERROR"; "CANNOT_WRITE_NODE_FILE"; "CANNOT_WRITE_PID_FILE"; "USER_SHELL";
   "CANNOT_CREATE_TMP_DIRECTORY"; "SSH_TRANSFER_TIMEOUT"; "BAD_HASHTABLE_DUMP"; "LAUNCHING_OAREXEC_TIMEOUT"; "EXIT_VALUE_OAREXEC"]%string.
Lemma ncs_finishes date u out d j t c : uniq d -> j ∈ jobs d -> t ∈ finishing_events ->
  exists s, finished s /\ ncs_event date u out (mkEv t (j_id j) c) d = Ok (check_event t (j_id j) (set_job_state date (j_id j) s d)).
Proof.
  intros HU Hj Ht. unfold ncs_event. cbn [e_type e_job]. rewrite (get_job_of d j HU Hj).
  rewrite (bool_decide_eq_true_2 (is_Some (Some j))) by by_dec. cbn [negb]. rewrite andb_false_r.
  repeat (apply elem_of_cons in Ht as [->|Ht]); try (by apply elem_of_nil in Ht).
  1: exists "Terminated"%string; split; [by left|]; reflexivity.
  1: exists "Error"%string; split; [by right|]; reflexivity.
  2: exists "Terminated"%string; split; [by left|]; reflexivity.
  all: exists "Error"%string; split; [by right|].
  all: match goal with |- context [if bool_decide (?t ∈ error_events) then _ else _] => rewrite (bool_decide_eq_true_2 (t ∈ error_events)) by by_dec end.
  all: match goal with |- context [if bool_decide (?t ∈ server_events) then _ else _] => rewrite (bool_decide_eq_false_2 (t ∈ server_events)) by by_dec end.
  all: destruct (bool_decide (j_reservation j = "None"%string)), (j_mld j =? 0); reflexivity.
Qed.
Lemma end_head error : exists t l, (end_events error).1 = t :: l /\ t ∈ finishing_events /\ forall x, x ∈ l -> x ∉ ["HOLD_WAITING_JOB"; "HOLD_RUNNING_JOB"; "RESUME_JOB"]%string.
Proof.
  unfold end_events. repeat (destruct (error =? _); [eexists _, _; split; [reflexivity|]; split; [by_dec|]; intros x Hx; repeat (apply elem_of_cons in Hx as [->|Hx]; [by_dec|]); by apply elem_of_nil in Hx|]).
  eexists _, _. split; [reflexivity|]. split; [by_dec|]. intros x Hx. by apply elem_of_nil in Hx.
Qed.
Lemma ncs_rest date u out id l d j : uniq d -> j ∈ jobs d -> j_id j = id -> (forall x, x ∈ l -> x ∉ ["HOLD_WAITING_JOB"; "HOLD_RUNNING_JOB"; "RESUME_JOB"]%string) ->
  exists d', ncs_events date u out ((fun t => mkEv t id "YES") <$> l) d = Ok d' /\ elems date d d'.
Proof.
  revert d j. induction l as [|t l IH]; intros d j HU Hj Hid Hl; [by exists d|].
  cbn [fmap list_fmap ncs_events]. destruct (ncs_ok date u (out id) d j t "YES" HU Hj) as (d1 & H1); [apply Hl; left|]. rewrite Hid in H1. cbn [e_job]. rewrite H1. cbn [rbind].
  pose proof (ncs_event_elems _ _ _ _ _ _ H1) as He. pose proof (elems_uniq _ _ _ He HU) as HU1.
  destruct (step_keeps_job date (ANodeChange u (out id) (mkEv t id "YES")) d j HU Hj) as (j1 & Hj1 & Hid1). cbn [step] in Hj1. rewrite H1 in Hj1. cbn [from_ok] in Hj1.
  destruct (IH d1 j1 HU1 Hj1) as (d' & H2 & He2); [congruence|intros; apply Hl; by right|]. exists d'. split; [done|]. by etrans.
Qed.
(** Whatever the exit code of the executor: once the events it raised are treated, the job is
    Terminated or in Error.  Partial: an exit code whose message names the first host of the job
    needs the job to have a host. *)
Theorem C63_end_reaches_final_partial date date' u out error has_host d j :
  uniq d -> j ∈ jobs d -> j_state j ∈ ["Running"; "Launching"; "Suspended"; "Resuming"]%string ->
  (forall e, e ∈ events d -> e_check e <> "YES"%string) ->
  has_host = true \/ (end_events error).2 = false ->
  exists d2, node_change_state date' u out (end_of_job date error has_host [] (j_id j) d) = Ok d2 /\
  exists j', j' ∈ jobs d2 /\ j_id j' = j_id j /\ finished (j_state j').
Proof.
  intros HU Hj Hst Hev Hhost. unfold end_of_job. rewrite (get_job_of d j HU Hj). rewrite bool_decide_eq_true_2 by done.
  set (d1 := set_job_state date (j_id j) "Finishing" (set_finish_date date j d)).
  replace ((end_events error).2 && negb has_host) with false by (destruct Hhost as [-> | ->]; [by rewrite andb_false_r|done]). cbv zeta.
  destruct (end_head error) as (t & l & Hl & Ht & Hrest). rewrite Hl, app_nil_r.
  set (d1' := fold_left (fun d e => add_event e (j_id j) d) (t :: l) d1).
  assert (HU0 : uniq (set_finish_date date j d)) by (eapply (elems_uniq date); [apply finish_elems|done]).
  assert (HU1 : uniq d1') by (eapply (elems_uniq date); [apply events_elems|by apply set_state_uniq]).
  assert (exists j1, j1 ∈ jobs d1' /\ j_id j1 = j_id j /\ j_state j1 = "Finishing"%string) as (j1 & Hj1 & Hid1 & Hs1).
  { unfold d1'. rewrite fold_events_jobs. unfold d1. pose proof (view_uniq d j _ HU Hj eq_refl) as Hv. pose proof (view_finish date j _ d j _ eq_refl Hv) as Hv1.
    pose proof (view_set_state date _ "Finishing" _ _ _ Hv1) as Hv2. rewrite decide_True in Hv2.
    - injection Hv2 as Hv2 _. set (j1 := final_stop _ _) in Hv2. exists j1. split; [|by unfold j1; rewrite final_stop_id, final_stop_state].
      assert (j1 ∈ filter (fun x => j_id x = j_id j) (jobs (set_job_state date (j_id j) "Finishing" (set_finish_date date j d)))) as Hin by (rewrite Hv2; left). by apply elem_of_list_filter in Hin as [_ ?].
    - split; [done|]. cbn [j_state with_stop]. repeat (apply elem_of_cons in Hst as [Hst|Hst]; [rewrite Hst; split; by_dec|]). by apply elem_of_nil in Hst. }
  assert (Hevs : filter (fun e => e_check e = "YES"%string) (events d1') = (fun t => mkEv t (j_id j) "YES") <$> (t :: l)).
  { unfold d1'. rewrite fold_events_events, filter_app. unfold d1. rewrite set_state_events. change (events (set_finish_date date j d)) with (events d).
    assert (filter (fun e => e_check e = "YES"%string) (events d) = []) as ->.
    { destruct (filter _ (events d)) as [|e ?] eqn:E; [done|]. assert (e ∈ filter (fun e => e_check e = "YES"%string) (events d)) as He by (rewrite E; left). apply elem_of_list_filter in He as [? He]. by apply Hev in He. }
    cbn [app]. generalize (t :: l). clear. intros l. induction l as [|x l IH]; [done|]. cbn [fmap list_fmap]. rewrite filter_cons_True by done. by f_equal. }
  unfold node_change_state. rewrite Hevs. cbn [fmap list_fmap ncs_events].
  destruct (ncs_finishes date' u (out (j_id j)) d1' j1 t "YES" HU1 Hj1 Ht) as (s & Hs & Hn). rewrite Hid1 in Hn. cbn [e_job]. rewrite Hn. cbn [rbind].
  set (d3 := check_event t (j_id j) (set_job_state date' (j_id j) s d1')).
  assert (HU3 : uniq d3) by (by apply (set_state_uniq date' (j_id j) s d1')).
  assert ((j_id j, s) ∈ skel d3) as Hin3.
  { apply skel_in. exists (final_stop s (with_state s j1)). rewrite final_stop_id, final_stop_state. split; [|done]. change (jobs d3) with (jobs (set_job_state date' (j_id j) s d1')).
    rewrite set_state_jobs by done. apply elem_of_list_fmap. exists j1. split; [|done]. rewrite decide_True; [done|]. split; [done|]. rewrite Hs1. split; [by_dec|]. destruct Hs as [-> | ->]; done. }
  pose proof Hin3 as (j3 & Hj3 & Hid3 & Hs3)%skel_in.
  destruct (ncs_rest date' u out (j_id j) l d3 j3 HU3 Hj3 Hid3 Hrest) as (d2 & Hd2 & He2). exists d2. split; [done|].
  apply (elems_final _ _ _ _ _ He2 HU3 Hs) in Hin3. apply skel_in in Hin3 as (j' & ? & ? & ?). exists j'. split; [done|]. split; [done|]. congruence.
Qed.
(** Refuted otherwise: the job of a host-less (cosystem-like) run with such an exit code stays
    Finishing for ever, whatever runs afterwards. *)
Theorem C63_no_host_refuted :
  let d := run [(5, ASubmit false (jb 1 "")); (6, ASet 1 "Running"); (9, AEnd 10 false [] 1)] empty_db in
  (j_state <$> jobs d) = ["Finishing"%string] /\
  forall date u out soft hard evs, node_change_state date u out d = Ok d /\ sarko soft hard date u d = Ok d /\ leon date evs d = d.
Proof.
  cbv zeta. set (d := run _ _). split; [vm_compute; done|]. intros.
  assert (filter (fun e => e_check e = "YES"%string) (events d) = [] /\ frags d = [] /\ filter (fun j => j_state j = "Running"%string) (jobs d) = []) as (He & Hf & Hj) by (vm_compute; done).
  assert (Hfrag : forall s, jobs_in_frag s d = []).
  { intros s. unfold jobs_in_frag. rewrite Hf. clear. induction (jobs d) as [|j l IH]; [done|]. exact IH. }
  clearbody d. unfold node_change_state, sarko, leon, jobs_to_kill, sarko_timers. rewrite He, !Hfrag. cbn [fold_left filter list_filter]. cbv zeta. rewrite ?Hfrag, ?Hj. done.
Qed.
Example C63_case :
  let d := run [(5, ASubmit false (jb 1 "")); (6, ASet 1 "Running")] empty_db in
  (fun e => j_state <$> jobs (from_ok empty_db (node_change_state 20 "oar" (fun _ => SDone) (end_of_job 9 e true [] 1 d)))) <$> [0; 2; 3; 10; 34; 77] =
   [["Terminated"]; ["Terminated"]; ["Error"]; ["Error"]; ["Terminated"]; ["Error"]]%string.
Proof. vm_compute. reflexivity. Qed.
Print Assumptions C33_only_owner.
Print Assumptions C33_refused_no_effect.
Print Assumptions C33_stranger.
Print Assumptions C33_owner_deletes.
Print Assumptions C36_walltime_partial.
Print Assumptions C36_overrun_killed_partial.
Print Assumptions C36_suspended_refuted.
Print Assumptions C37_one_request.
Print Assumptions C37_moves.
Print Assumptions C37_fragged_final.
Print Assumptions C37_progress_partial.
Print Assumptions C37_stuck_refuted.
Print Assumptions C38_hold_waiting_refuted.
Print Assumptions C38_hold_running_refuted.
Print Assumptions C38_hold_waiting_partial.
Print Assumptions C38_resume_partial.
Print Assumptions C63_end_reaches_final_partial.
Print Assumptions C63_no_host_refuted.
