(** The life of jobs: C31, C32, C33, C36, C37, C38 and the crash and end date properties. *)
From Verif Require Import Base JobModel JobSpec JobProofs JobLife.

(** ** C31. Once a job is finished nothing changes its state again, whatever the components do. *)
Theorem C31_finished_stays h d j :
  uniq d -> j ∈ jobs d -> finished (j_state j) ->
  exists j', j' ∈ jobs (run h d) /\ j_id j' = j_id j /\ j_state j' = j_state j.
Proof.
  intros HU Hj Hf. apply skel_in. assert ((j_id j, j_state j) ∈ skel d) as Hin by (apply skel_in; eauto). clear Hj.
  revert d HU Hin. induction h as [|[t a] h IH]; intros d HU Hin; [done|]. cbn [run fold_left]. apply IH.
  - by apply step_uniq.
  - eapply elems_final; [apply step_elems|done|done|done].
Qed.
(** Job ids stay unique along any history, starting from nothing. *)
Theorem C31_unique_ids h : uniq (run h empty_db).
Proof. apply run_uniq, empty_uniq. Qed.
(** State-change requests leave the whole record of a finished job alone, and no log entry is added. *)
Theorem C31_requests_ignored date id s d j : uniq d -> j ∈ jobs d -> j_id j = id -> finished (j_state j) -> set_job_state date id s d = d.
Proof.
  intros HU Hj Hid Hf. apply set_state_refused. intros x Hx (H1 & H2 & _).
  assert (x = j) as -> by (apply (uniq_eq d); congruence). by apply (final_not_live _ Hf).
Qed.
(** A request that finishes a job leaves an end date that is not before its start. *)
Theorem C31_end_after_start date id s d j : uniq d -> j ∈ jobs d -> j_id j = id -> ~ finished (j_state j) -> j_state j ∈ live_states -> finished s ->
  exists j', j' ∈ jobs (set_job_state date id s d) /\ j_id j' = id /\ j_state j' = s /\ j_start j <= j_stop j' /\ j_start j' = j_start j.
Proof.
  intros HU Hj Hid Hnf Hlive Hf. assert (accepts id s j) as Ha.
  { split; [done|]. split; [done|]. intros E. apply Hnf. by rewrite E. }
  exists (final_stop s (with_state s j)). split.
  - rewrite set_state_jobs by done. apply elem_of_list_fmap. exists j. split; [|done]. by rewrite decide_True.
  - rewrite final_stop_id, final_stop_state. cbn [j_id j_state with_state]. split; [done|]. split; [done|].
    unfold final_stop. assert (is_final s = true) as ->. { unfold is_final. destruct Hf as [-> | ->]; done. }
    cbn [j_stop j_start with_state]. destruct (j_stop j <? j_start j) eqn:E; cbn; lia.
Qed.

Definition jb (id : Z) (state : string) := mkJob id "u" state "PASSIVE" "default" 0 0 "NO" 1 "None" [].
Example C31_case :
  let h := [(5, ASubmit false (jb 1 "")); (6, ASet 1 "Running"); (9, ASet 1 "Terminated"); (12, ASet 1 "Running"); (13, AFrag "u" 1); (14, ALeon []); (20, ANodeChange "oar" SDone (mkEv "RESUME_JOB" 1 "YES"))] in
  (j_state <$> jobs (run h empty_db)) = ["Terminated"%string].
Proof. vm_compute. reflexivity. Qed.

(** ** C32. After any history with a clock that never goes back, the log of every job is a timeline
    ending in the open entry of its current state. *)
Theorem C32_timeline now h j : 0 < now -> clock now h -> j ∈ jobs (run h empty_db) ->
  timeline (j_state j) (log_of (j_id j) (run h empty_db)).
Proof.
  intros Hn Hc Hj. eapply inv_line; [by apply (run_inv now); [..|apply empty_inv]|]. apply skel_in. eauto.
Qed.
(** And the log never speaks of a job that does not exist. *)
Theorem C32_no_stray_entry now h e : 0 < now -> clock now h -> e ∈ logs (run h empty_db) -> l_job e ∈ (j_id <$> jobs (run h empty_db)).
Proof. intros Hn Hc. by apply (inv_known (last_date now h)), run_inv, empty_inv. Qed.
Example C32_case :
  let h := [(5, ASubmit false (jb 1 "")); (6, ASet 1 "toLaunch"); (6, ASet 1 "toLaunch"); (9, ASet 1 "Running"); (9, ASubmit true (jb 2 "")); (12, ASet 1 "Terminated")] in
  clock 1 h /\ ((fun e => (l_state e, l_start e, l_stop e)) <$> log_of 1 (run h empty_db)) =
   [("Waiting"%string, 5, 6); ("toLaunch"%string, 6, 9); ("Running"%string, 9, 12); ("Terminated"%string, 12, 0)].
Proof. vm_compute. repeat split; discriminate. Qed.

(** ** C60. The durations in the states add up to the age of the job. *)
Lemma dur_fold now l acc : fold_left (fun acc e => acc + ((if l_stop e =? 0 then now else l_stop e) - l_start e)) l acc
  = acc + sum ((fun e => (if l_stop e =? 0 then now else l_stop e) - l_start e) <$> l).
Proof. revert acc. induction l as [|e l IH]; intros acc; cbn [fold_left fmap list_fmap sum foldr]; [lia|]. rewrite IH. unfold sum. lia. Qed.
Lemma timeline_sum now cur l e : timeline cur (e :: l) ->
  sum ((fun e => (if l_stop e =? 0 then now else l_stop e) - l_start e) <$> (e :: l)) = now - l_start e.
Proof.
  revert e. induction l as [|e' l IH]; intros e H.
  - destruct H as [H _]. cbn. rewrite H. cbn. lia.
  - destruct H as (H1 & H2 & H3 & H4 & H5). specialize (IH e' H5). cbn [fmap list_fmap sum foldr] in *.
    destruct (l_stop e =? 0) eqn:E; [lia|]. unfold sum in *. cbn [foldr] in IH. lia.
Qed.
Lemma sum_split {A} (f : A -> Z) (g : A -> string) (states : list string) (l : list A) :
  NoDup states -> (forall x, x ∈ l -> g x ∈ states) ->
  sum ((fun s => sum (f <$> filter (fun x => g x = s) l)) <$> states) = sum (f <$> l).
Proof.
  intros HN. induction l as [|x l IH]; intros Hg.
  - clear. induction states as [|s states IH]; [done|]. cbn [fmap list_fmap]. unfold sum in *. cbn [foldr]. rewrite IH. done.
  - assert (Hx : g x ∈ states) by (apply Hg; left). assert (IH' := IH (fun y Hy => Hg y (elem_of_list_further y _ _ Hy))). clear IH.
    cbn [fmap list_fmap sum foldr]. fold (sum (f <$> l)). rewrite <- IH'. clear IH' Hg. revert HN Hx.
    induction states as [|s states IH]; intros HN Hx; [by apply elem_of_nil in Hx|]. apply NoDup_cons in HN as [H1 H2].
    cbn [fmap list_fmap sum foldr]. apply elem_of_cons in Hx as [Hx|Hx].
    + rewrite filter_cons_True by done. cbn [fmap list_fmap sum foldr].
      assert ((fun s0 => sum (f <$> filter (fun x0 => g x0 = s0) (x :: l))) <$> states = (fun s0 => sum (f <$> filter (fun x0 => g x0 = s0) l)) <$> states) as ->.
      { apply list_fmap_ext. intros i s0 Hs0. apply elem_of_list_lookup_2 in Hs0. rewrite filter_cons_False; [done|]. intros E. apply H1. congruence. }
      unfold sum. lia.
    + rewrite filter_cons_False by (intros E; apply H1; by rewrite <- E). specialize (IH H2 Hx). unfold sum in *. lia.
Qed.
Lemma filter_filter_log (l : list slog) id s : filter (fun e => l_job e = id /\ l_state e = s) l = filter (fun e => l_state e = s) (filter (fun e => l_job e = id) l).
Proof.
  induction l as [|e l IH]; [done|]. rewrite !filter_cons. destruct (decide (l_job e = id)) as [H1|H1].
  - rewrite filter_cons. destruct (decide (l_state e = s)); destruct (decide _); try done; try (by f_equal); tauto.
  - destruct (decide _); [tauto|done].
Qed.
(** The log keeps its first entry. *)
Definition has_first (id t : Z) (d : db) : Prop := id ∈ (j_id <$> jobs d) /\ submitted_at id d = Some t.
Lemma elem_first date d d' id t : elem date d d' -> uniq d -> has_first id t d -> has_first id t d'.
Proof.
  unfold has_first, submitted_at. intros He HU [Hin Hs]. split.
  - destruct He as [i s|d2 Hsk _|hold j _].
    + by rewrite set_state_ids.
    + by rewrite skel_ids, Hsk, <- skel_ids.
    + cbn. rewrite fmap_app, elem_of_app. by left.
  - destruct He as [i s|d2 _ Hl|hold j Hj].
    + destruct (decide (Exists (accepts i s) (jobs d))) as [Hex%Exists_exists|Hno].
      * rewrite (log_of_app _ _ _ _ (set_state_logs date i s d HU Hex)). unfold log_of in Hs. destruct (decide (id = i)) as [->|Hi].
        -- rewrite filter_close_same. destruct (filter _ (logs d)) as [|e l]; [done|]. unfold close_log, upd. cbn [fmap list_fmap app head]. cbn in *. destruct (decide _); done.
        -- rewrite filter_close_other by done. destruct (filter _ (logs d)); done.
      * rewrite set_state_refused; [done|]. intros j Hj Ha. apply Hno, Exists_exists. eauto.
    + unfold log_of. by rewrite Hl.
    + erewrite (log_of_app id (logs d)) by reflexivity. unfold log_of in Hs. destruct (filter _ (logs d)); done.
Qed.
Lemma elems_first date d d' id t : elems date d d' -> uniq d -> has_first id t d -> has_first id t d'.
Proof. induction 1 as [|x y z H1 H2 IH]; [done|]. intros HU Hf. apply IH; [by eapply elem_uniq|by eapply elem_first]. Qed.
Lemma run_first h d id t : uniq d -> has_first id t d -> has_first id t (run h d).
Proof.
  revert d. induction h as [|[u a] h IH]; intros d HU Hf; [done|]. cbn [run fold_left]. apply IH; [by apply step_uniq|].
  eapply elems_first; [apply step_elems|done|done].
Qed.
Lemma run_app h1 h2 d : run (h1 ++ h2) d = run h2 (run h1 d).
Proof. unfold run. apply fold_left_app. Qed.
Theorem C60_durations_add_up now0 h1 t hold j h2 now states :
  let h := h1 ++ (t, ASubmit hold j) :: h2 in
  let d := run h empty_db in
  0 < now0 -> clock now0 h -> j_id j ∉ (j_id <$> jobs (run h1 empty_db)) ->
  NoDup states -> (forall e, e ∈ logs d -> l_job e = j_id j -> l_state e ∈ states) ->
  sum ((fun s => duration_in_state now (j_id j) s d) <$> states) = now - t.
Proof.
  intros h d Hn Hc Hfresh HN Hst.
  assert (has_first (j_id j) t d) as [Hin Hfirst].
  { unfold d, h. rewrite run_app. cbn [run fold_left]. apply run_first; [apply step_uniq, C31_unique_ids|]. cbn [step fst snd].
    rewrite bool_decide_eq_false_2 by done. assert (HI : Inv (last_date now0 h1) (run h1 empty_db)).
    { apply run_inv; [done| |apply empty_inv]. clear -Hc. unfold h in Hc. revert now0 Hc. induction h1 as [|[u a] h1 IH]; intros; [done|]. destruct Hc. split; [done|]. by apply IH. }
    split; [unfold submit; cbn [jobs with_jobs]; rewrite fmap_app, elem_of_app; right; left|].
    unfold submitted_at. erewrite (log_of_app _ (logs (run h1 empty_db))) by reflexivity.
    destruct (filter _ (logs (run h1 empty_db))) as [|e l] eqn:E; [by rewrite filter_cons_True|]. exfalso. apply Hfresh.
    assert (e ∈ filter (fun e => l_job e = j_id j) (logs (run h1 empty_db))) as He by (rewrite E; left).
    apply elem_of_list_filter in He as [He1 He2]. rewrite <- He1. by apply (inv_known _ _ HI). }
  apply elem_of_list_fmap in Hin as (x & Hid & Hx). pose proof (C32_timeline now0 h x Hn Hc Hx) as HT. rewrite <- Hid in HT.
  fold d in HT. unfold submitted_at in Hfirst. destruct (log_of (j_id j) d) as [|e l] eqn:E; [done|]. cbn in Hfirst. injection Hfirst as <-.
  rewrite <- (timeline_sum now _ _ _ HT). rewrite <- E.
  rewrite <- (sum_split _ l_state states (log_of (j_id j) d) HN).
  - f_equal. apply list_fmap_ext. intros i s _. unfold duration_in_state. rewrite dur_fold, filter_filter_log. unfold log_of. lia.
  - intros y Hy. apply elem_of_list_filter in Hy as [Hy1 Hy2]. by apply Hst.
Qed.
Example C60_case :
  let h := [(5, ASubmit false (jb 1 "")); (6, ASet 1 "toLaunch"); (9, ASet 1 "Running"); (12, ASet 1 "Suspended"); (15, ASet 1 "Resuming"); (15, ASet 1 "Running")] in
  (fun s => duration_in_state 30 1 s (run h empty_db)) <$> ["Waiting"; "toLaunch"; "Running"; "Suspended"; "Resuming"]%string = [1; 3; 18; 3; 0].
Proof. vm_compute. reflexivity. Qed.

(** ** C61. Refuted: a server killed in the middle of a state change leaves a log that is not a
    timeline: the state is changed and committed before the log is. *)
Theorem C61_crash_refuted :
  let h := [(5, ASubmit false (jb 1 "")); (6, ASet 1 "Running")] in
  let d n := set_job_state_upto n 9 1 "Terminated" (run h empty_db) in
  (forall n, (n = 1 \/ n = 2)%nat -> exists j, j ∈ jobs (d n) /\ j_state j = "Terminated"%string /\ ~ timeline (j_state j) (log_of 1 (d n))) /\
  (* and it is never repaired: the job is finished *)
  (forall date s, logs (set_job_state date 1 s (d 1%nat)) = logs (d 1%nat)).
Proof.
  cbv zeta. split.
  - intros n [-> | ->]; eexists; (split; [vm_compute; left|]); (split; [reflexivity|]); vm_compute; intuition congruence.
  - intros date s. erewrite C31_requests_ignored; [done|..|].
    + unfold uniq. vm_compute. apply NoDup_singleton.
    + vm_compute. left.
    + reflexivity.
    + left. reflexivity.
Qed.

(** ** C62. Refuted: the end date of a finished job is not final.  A deletion escalated to the
    extermination moves it when the job ends by itself just before Leon runs. *)
Theorem C62_end_date_refuted :
  let h := [(5, ASubmit false (jb 1 "")); (6, ASet 1 "Running"); (10, AFrag "u" 1); (11, ALeon []); (1000, ASarkoTimers 20 30);
            (1001, AEnd 0 true [] 1); (1002, ANodeChange "oar" SDone (mkEv "SWITCH_INTO_TERMINATE_STATE" 1 "YES"))] in
  let d := run h empty_db in
  let d' := step 2000 (ALeon []) d in
  (j_state <$> jobs d) = ["Terminated"%string] /\ (j_state <$> jobs d') = ["Terminated"%string] /\ (j_stop <$> jobs d) = [1001] /\ (j_stop <$> jobs d') = [2000].
Proof. vm_compute. done. Qed.
Print Assumptions C31_finished_stays.
Print Assumptions C31_unique_ids.
Print Assumptions C31_requests_ignored.
Print Assumptions C31_end_after_start.
Print Assumptions C32_timeline.
Print Assumptions C32_no_stray_entry.
Print Assumptions C60_durations_add_up.
Print Assumptions C61_crash_refuted.
Print Assumptions C62_end_date_refuted.
