From Verif Require Import Base JobModel JobSpec JobProofs.

(** ** Every action is a sequence of state changes and of changes that touch neither the states
    nor the log. *)
Definition skel (d : db) : list (Z * string) := (fun j => (j_id j, j_state j)) <$> jobs d.
Inductive elem (date : Z) (d : db) : db -> Prop :=
| el_state id s : elem date d (set_job_state date id s d)
| el_quiet d' : skel d' = skel d -> logs d' = logs d -> elem date d d'
| el_new hold j : j_id j ∉ (j_id <$> jobs d) -> elem date d (submit date hold j d).
Notation elems date := (rtc (elem date)).

Lemma quiet date d d' : skel d' = skel d -> logs d' = logs d -> elems date d d'.
Proof. intros. apply rtc_once. by apply el_quiet. Qed.
Lemma fold_elems {A} date (f : db -> A -> db) l d : (forall d x, elems date d (f d x)) -> elems date d (fold_left f l d).
Proof. intros Hf. revert d. induction l as [|x l IH]; intros d; cbn [fold_left]; [done|]. etrans; [apply Hf|apply IH]. Qed.
Lemma upd_jobs_quiet date P `{!forall x, Decision (P x)} f d :
  (forall j, j_id (f j) = j_id j) -> (forall j, j_state (f j) = j_state j) -> elems date d (with_jobs (upd P f) d).
Proof.
  intros H1 H2. apply quiet; [|done]. unfold skel. cbn [jobs with_jobs]. apply upd_fmap_id. intros x _ _. by rewrite H1, H2.
Qed.
Lemma events_elems date id evs d : elems date d (fold_left (fun d e => add_event e id d) evs d).
Proof. apply fold_elems. intros. by apply quiet. Qed.
Lemma finish_elems date t j d : elems date d (set_finish_date t j d).
Proof. by apply upd_jobs_quiet. Qed.
Lemma frag_job_elems date u id d : elems date d (snd (frag_job date u id d)).
Proof.
  unfold frag_job. destruct (get_job d id); [|done]. destruct (_ || _); [|done]. destruct (filter _ _); [by apply quiet|done].
Qed.
Lemma leon_kill_elems date evs d j : elems date d (leon_kill date evs d j).
Proof.
  unfold leon_kill. apply rtc_r with (y := if bool_decide (j_state j = "Waiting"%string) || bool_decide (j_state j = "Hold"%string) then set_job_state date (j_id j) "Error" d
    else if bool_decide (j_state j ∈ ["Terminated"; "Error"; "Finishing"]%string) then d
    else if bool_decide ("noop"%string ∈ j_types j) then
      fold_left (fun d e => add_event e (j_id j) d) evs (set_job_state date (j_id j) "Terminated" (set_finish_date date j d))
    else fold_left (fun d e => add_event e (j_id j) d) evs d); [|by apply el_quiet].
  destruct (_ || _); [apply rtc_once, el_state|]. case_bool_decide; [done|]. case_bool_decide; [|apply events_elems].
  etrans; [apply finish_elems|]. etrans; [apply rtc_once, el_state|]. apply events_elems.
Qed.
Lemma exterminate_elems date d j : elems date d (leon_exterminate date d j).
Proof.
  unfold leon_exterminate. etrans; [apply rtc_once, (el_state date d (j_id j) "Finishing")|].
  etrans; [|apply finish_elems]. destruct (_ =? _); [|done]. by apply upd_jobs_quiet.
Qed.
Lemma suspend_elems date u out id d : elems date d (suspend_job date u out id d).
Proof.
  assert (forall d, elems date d (suspend_action date id d)) as Hs.
  { intros d0. unfold suspend_action. etrans; [apply rtc_once, (el_state date d0 id "Suspended")|]. by apply upd_jobs_quiet. }
  destruct out; cbn [suspend_job].
  - done.
  - by apply quiet.
  - apply Hs.
  - etrans; [apply Hs|]. etrans; [|apply rtc_once, el_state]. by apply quiet.
  - transitivity (add_event "SUSPEND_ERROR" id d); [by apply quiet|apply frag_job_elems].
Qed.
Lemma if_elems date (b : bool) d x y : elems date d x -> elems date d y -> elems date d (if b then x else y).
Proof. by destruct b. Qed.
Lemma state_elems date id s d : elems date d (set_job_state date id s d).
Proof. apply rtc_once, el_state. Qed.
Lemma hold_resume_elems date u out t j d d' : hold_resume date u out t j d = Ok d' -> elems date d d'.
Proof.
  unfold hold_resume. destruct (_ && _); [intros [= <-]; apply state_elems|]. destruct (_ && _); [intros [= <-]; apply state_elems|].
  destruct (_ && _); [case_bool_decide; [done|]; intros [= <-]; apply suspend_elems|].
  destruct (_ && _); [intros [= <-]; apply state_elems|]. destruct (_ && _); intros [= <-]; [apply state_elems|done].
Qed.
Lemma ncs_event_elems date u out ev d d' : ncs_event date u out ev d = Ok d' -> elems date d d'.
Proof.
  unfold ncs_event. destruct (_ && _); [done|]. intros H. apply rbind_Ok in H as (d4 & H & [= <-]).
  transitivity d4; [|by apply quiet].
  match type of H with context [hold_resume _ _ _ _ _ ?x] => set (d3 := x) in H end.
  assert (elems date d d3) as Hd.
  { unfold d3. match goal with |- elems _ _ (if _ then _ else ?y) => set (d2 := y) end.
    assert (elems date d d2) as H2.
    { unfold d2. match goal with |- elems _ _ (if _ then _ else ?y) => set (d1 := y) end.
      assert (elems date d d1) as H1.
      { unfold d1. match goal with |- context [match get_job d (e_job ev) with _ => _ end] => idtac end.
        match goal with |- elems _ _ (match _ with Some _ => _ | None => ?y end) => set (d0 := y) end.
        assert (elems date d d0) as H0.
        { unfold d0. destruct (bool_decide (e_type ev = "SWITCH_INTO_TERMINATE_STATE"%string)); [apply state_elems|]. apply if_elems; [apply state_elems|done]. }
        destruct (get_job d (e_job ev)); [|done]. apply if_elems; [|done].
        repeat (apply if_elems; [etrans; [exact H0|apply state_elems]|]). done. }
      apply if_elems; [etrans; [exact H1|apply state_elems]|done]. }
    apply if_elems; [etrans; [exact H2|apply state_elems]|done]. }
  etrans; [exact Hd|]. clearbody d3. destruct (bool_decide _) in H; [|injection H as <-; done].
  destruct (get_job d (e_job ev)); [|done]. by eapply hold_resume_elems.
Qed.
Lemma step_elems date a d : elems date d (step date a d).
Proof.
  destruct a as [hold j|id s|u id|sg u id|al r u id|al u id|soft hard|u j|evs|evs id|error hh evs id|u out ev]; cbn [step].
  - case_bool_decide as E; [done|]. apply rtc_once. by apply el_new.
  - apply state_elems.
  - apply frag_job_elems.
  - unfold ask_checkpoint. repeat (case_match; try done); by apply quiet.
  - unfold hold_job. repeat (case_match; try done); by apply quiet.
  - unfold resume_job. repeat (case_match; try done); by apply quiet.
  - unfold sarko_timers. apply fold_elems. intros d0 j. unfold sarko_timer. repeat (case_match; try done); by apply quiet.
  - unfold sarko_walltime. destruct (filter _ _) as [|m [|]]; cbn [from_ok]; [done| |done]. destruct (_ <? _); cbn [from_ok]; [|done].
    etrans; [apply frag_job_elems|]. by apply quiet.
  - unfold leon. etrans; [|apply fold_elems; intros; apply exterminate_elems]. apply fold_elems; intros; apply leon_kill_elems.
  - unfold leon_job. destruct (filter _ _) as [|f [|]]; [done| |done]. case_bool_decide; [|done]. etrans; [|apply events_elems]. by apply quiet.
  - unfold end_of_job. destruct (get_job d id) as [j|]; [|done]. case_bool_decide; [|done]. etrans; [apply finish_elems|].
    etrans; [apply state_elems|]. apply if_elems; [done|apply events_elems].
  - destruct (ncs_event date u out ev d) as [d'|] eqn:E; cbn [from_ok]; [|done]. by eapply ncs_event_elems.
Qed.

(** ** The states *)
Lemma skel_ids d : j_id <$> jobs d = fst <$> skel d.
Proof. unfold skel. rewrite <- list_fmap_compose. by apply list_fmap_ext. Qed.
Lemma skel_in d id s : (id, s) ∈ skel d <-> exists j, j ∈ jobs d /\ j_id j = id /\ j_state j = s.
Proof.
  unfold skel. rewrite elem_of_list_fmap. split.
  - intros (j & [= -> ->] & Hj). eauto.
  - intros (j & Hj & <- & <-). eauto.
Qed.
Lemma elem_uniq date d d' : elem date d d' -> uniq d -> uniq d'.
Proof.
  intros [id s|d2 Hs Hl|hold j Hj] HU.
  - by apply set_state_uniq.
  - unfold uniq in *. rewrite skel_ids, Hs, <- skel_ids. done.
  - unfold uniq, submit in *. cbn [jobs with_jobs with_logs]. rewrite fmap_app. apply NoDup_app. split; [done|]. split.
    + intros x Hx Hx'. cbn [fmap list_fmap j_id with_state] in Hx'. apply elem_of_list_singleton in Hx' as ->. done.
    + apply NoDup_singleton.
Qed.
Lemma set_state_skel date id s d i t : uniq d -> (i, t) ∈ skel (set_job_state date id s d) ->
  (i, t) ∈ skel d \/ (i = id /\ t = s /\ exists j, j ∈ jobs d /\ accepts id s j).
Proof.
  intros HU. rewrite skel_in. rewrite set_state_jobs by done. intros (j & Hj & <- & <-). apply elem_of_list_fmap in Hj as (x & -> & Hx).
  destruct (decide (accepts id s x)) as [Ha|Ha].
  - right. rewrite final_stop_id, final_stop_state. cbn [j_id j_state with_state]. destruct Ha as (H1 & H2). repeat split; [done|]. exists x. repeat split; try done; apply H2.
  - left. apply skel_in. eauto.
Qed.
Lemma elem_final date d d' id s : elem date d d' -> uniq d -> finished s -> (id, s) ∈ skel d -> (id, s) ∈ skel d'.
Proof.
  intros [i t|d2 Hs Hl|hold j Hj] HU Hf Hin.
  - apply skel_in in Hin as (j & Hj & <- & <-). apply skel_in. exists j. split; [|done]. apply set_state_other; try done.
    intros (_ & Hlive & _). by apply (final_not_live _ Hf).
  - by rewrite Hs.
  - unfold skel, submit in *. cbn [jobs with_jobs with_logs]. rewrite fmap_app, elem_of_app. by left.
Qed.
Lemma elems_uniq date d d' : elems date d d' -> uniq d -> uniq d'.
Proof. induction 1; [done|]. intros. apply IHrtc. by eapply elem_uniq. Qed.
Lemma elems_final date d d' id s : elems date d d' -> uniq d -> finished s -> (id, s) ∈ skel d -> (id, s) ∈ skel d'.
Proof. induction 1 as [|x y z H1 H2 IH]; [done|]. intros HU Hf Hin. apply IH; [by eapply elem_uniq|done|by eapply elem_final]. Qed.
Lemma step_uniq date a d : uniq d -> uniq (step date a d).
Proof. apply elems_uniq with (date := date), step_elems. Qed.
Lemma run_uniq h d : uniq d -> uniq (run h d).
Proof. revert d. induction h as [|[t a] h IH]; intros d HU; [done|]. apply IH. by apply step_uniq. Qed.
Lemma empty_uniq : uniq empty_db.
Proof. unfold uniq. apply NoDup_nil_2. Qed.

(** ** The log *)
Record Inv (now : Z) (d : db) : Prop := mkInv {
  inv_uniq : uniq d;
  inv_known : forall e, e ∈ logs d -> l_job e ∈ (j_id <$> jobs d);
  inv_dates : forall e, e ∈ logs d -> 0 < l_start e <= now;
  inv_line : forall id s, (id, s) ∈ skel d -> timeline s (log_of id d);
}.
Lemma timeline_close cur s id date l :
  timeline cur l -> s <> cur -> 0 < date -> (forall e, e ∈ l -> l_job e = id) -> (forall e, e ∈ l -> l_start e <= date) ->
  timeline s (close_log date id l ++ [mkLog id s date 0]).
Proof.
  intros HT Hs Hd. revert HT. induction l as [|e l IH]; [done|]. intros HT Hid Hst.
  assert (l_job e = id) as He by (apply Hid; left). assert (l_start e <= date) as Hse by (apply Hst; left).
  destruct l as [|e' l].
  - cbn in HT. destruct HT as [H0 Hc]. unfold close_log, upd. cbn [fmap list_fmap app]. rewrite decide_True by done.
    cbn [timeline l_stop l_state l_start]. repeat split; try lia; congruence.
  - destruct HT as (H1 & H2 & H3 & H4 & H5). unfold close_log, upd in *. cbn [fmap list_fmap app] in *.
    rewrite (decide_False (P := l_stop e = 0 /\ l_job e = id)) by (intros [? _]; done).
    specialize (IH H5 (fun e He => Hid e (elem_of_list_further e _ _ He)) (fun e He => Hst e (elem_of_list_further e _ _ He))).
    cbn [timeline]. split; [done|]. split; [done|]. split; [|split].
    + destruct (decide _); done.
    + destruct (decide _); done.
    + exact IH.
Qed.
Lemma log_of_app id l1 d : forall l2, logs d = l1 ++ l2 -> log_of id d = filter (fun e => l_job e = id) l1 ++ filter (fun e => l_job e = id) l2.
Proof. intros l2 E. unfold log_of. by rewrite E, filter_app. Qed.
Lemma filter_close_same date id l : filter (fun e => l_job e = id) (close_log date id l) = close_log date id (filter (fun e => l_job e = id) l).
Proof.
  unfold close_log, upd. induction l as [|e l IH]; [done|]. cbn [fmap list_fmap].
  destruct (decide (l_job e = id)) as [He|He].
  - rewrite (filter_cons_True _ e) by done. cbn [fmap list_fmap]. rewrite filter_cons_True by (destruct (decide _); done). by rewrite IH.
  - rewrite (filter_cons_False _ e) by done. rewrite filter_cons_False by (destruct (decide _); done). done.
Qed.
Lemma filter_close_other date id i l : i <> id -> filter (fun e => l_job e = i) (close_log date id l) = filter (fun e => l_job e = i) l.
Proof.
  intros Hi. unfold close_log, upd. induction l as [|e l IH]; [done|]. cbn [fmap list_fmap].
  destruct (decide (l_job e = i)) as [He|He].
  - rewrite (filter_cons_True _ e) by done. rewrite (decide_False (P := l_stop e = 0 /\ l_job e = id)) by (intros [_ ?]; congruence).
    rewrite filter_cons_True by done. by rewrite IH.
  - rewrite (filter_cons_False _ e) by done. rewrite filter_cons_False by (destruct (decide _); done). done.
Qed.
Lemma close_elem date id l e : e ∈ close_log date id l -> exists e', e' ∈ l /\ l_job e' = l_job e /\ l_start e' = l_start e.
Proof. unfold close_log. rewrite upd_elem. intros (x & Hx & ->). exists x. destruct (decide _); done. Qed.

Lemma elem_inv date now d d' : elem date d d' -> 0 < now <= date -> Inv now d -> Inv date d'.
Proof.
  intros [id s|d2 Hs Hl|hold j Hj] Hdate [HU HK HD HL].
  - destruct (decide (Exists (accepts id s) (jobs d))) as [Hex%Exists_exists|Hno].
    + assert (HU' := set_state_uniq date id s d HU). pose proof (set_state_logs date id s d HU Hex) as Hlog.
      destruct Hex as (j & Hj & Ha). constructor; [done|..].
      * intros e. rewrite Hlog, set_state_ids by done. rewrite elem_of_app, elem_of_list_singleton. intros [He| ->].
        -- apply close_elem in He as (e' & He' & <- & _). by apply HK.
        -- cbn. apply elem_of_list_fmap. exists j. split; [by destruct Ha|done].
      * intros e. rewrite Hlog, elem_of_app, elem_of_list_singleton. intros [He| ->].
        -- apply close_elem in He as (e' & He' & _ & <-). apply HD in He'. lia.
        -- cbn. lia.
      * intros i t Hin. rewrite (log_of_app _ _ _ _ Hlog). destruct (decide (i = id)) as [->|Hi].
        -- rewrite filter_close_same. rewrite filter_cons_True by done. rewrite filter_nil.
           assert (t = s) as ->.
           { apply skel_in in Hin as (x & Hx & Hxi & <-). rewrite set_state_jobs in Hx by done. apply elem_of_list_fmap in Hx as (y & -> & Hy).
             destruct (decide (accepts id s y)) as [|Hna]; [by rewrite final_stop_state|]. exfalso. apply Hna.
             rewrite (uniq_eq d y j); try done. destruct Ha; congruence. }
           eapply timeline_close.
           ++ apply HL. apply skel_in. exists j. split; [done|]. split; [by destruct Ha|reflexivity].
           ++ destruct Ha as (_ & _ & Hne). congruence.
           ++ lia.
           ++ intros e He. by apply elem_of_list_filter in He as [? _].
           ++ intros e He. apply elem_of_list_filter in He as [_ He]. apply HD in He. lia.
        -- rewrite filter_close_other by done. rewrite filter_cons_False by (cbn; congruence). rewrite filter_nil, app_nil_r.
           apply HL. apply set_state_skel in Hin as [?|(-> & _)]; done.
    + rewrite set_state_refused. { constructor; try done. intros e He. apply HD in He. lia. }
      intros j Hj Ha. apply Hno, Exists_exists. eauto.
  - constructor.
    + by eapply (elem_uniq date d d2); [apply el_quiet|].
    + intros e He. rewrite Hl in He. rewrite skel_ids, Hs, <- skel_ids. by apply HK.
    + intros e He. rewrite Hl in He. apply HD in He. lia.
    + intros i t. rewrite Hs. unfold log_of. rewrite Hl. apply HL.
  - pose proof (elem_uniq date d _ (el_new date d hold j Hj) HU) as HU'. constructor; [done|..].
    + intros e. unfold submit. cbn [logs jobs with_logs with_jobs]. rewrite fmap_app, !elem_of_app, elem_of_list_singleton. intros [He| ->]; [left; by apply HK|].
      right. cbn. left.
    + intros e. unfold submit. cbn [logs jobs with_logs with_jobs]. rewrite elem_of_app, elem_of_list_singleton. intros [He| ->]; [apply HD in He; lia|cbn; lia].
    + intros i t. unfold skel, submit. cbn [jobs with_logs with_jobs]. rewrite fmap_app, elem_of_app. intros Hin.
      erewrite (log_of_app i (logs d)) by reflexivity. destruct Hin as [Hin|Hin].
      * rewrite (filter_cons_False _ (mkLog _ _ _ _)); [rewrite filter_nil, app_nil_r; by apply HL|].
        cbn. intros <-. apply Hj. apply elem_of_list_fmap. apply skel_in in Hin as (x & ? & ? & ?). eauto.
      * cbn in Hin. apply elem_of_list_singleton in Hin as [= -> ->]. rewrite filter_cons_True by done.
        assert (filter (fun e => l_job e = j_id j) (logs d) = []) as ->.
        { destruct (filter _ (logs d)) as [|e l] eqn:E; [done|]. exfalso. assert (e ∈ filter (fun e => l_job e = j_id j) (logs d)) as He by (rewrite E; left).
          apply elem_of_list_filter in He as [He1 He2]. apply Hj. rewrite <- He1. by apply HK. }
        by cbn.
Qed.
Lemma elems_inv date now d d' : elems date d d' -> 0 < now <= date -> Inv now d -> Inv date d'.
Proof.
  intros H Hdate HI. assert (Inv date d) as HI'.
  { destruct HI as [A B C D]. constructor; try done. intros e He. apply C in He. lia. }
  clear HI. assert (0 < date <= date) as Hd by lia. clear Hdate. induction H as [|x y z H1 H2 IH]; [done|]. apply IH. by eapply elem_inv.
Qed.
Fixpoint last_date (now : Z) (h : list (Z * action)) : Z :=
  match h with [] => now | (t, _) :: h' => last_date t h' end.
Lemma run_inv now h d : 0 < now -> clock now h -> Inv now d -> Inv (last_date now h) (run h d).
Proof.
  revert now d. induction h as [|[t a] h IH]; intros now d Hn Hc HI; [done|]. destruct Hc as [H1 H2]. cbn [last_date run fold_left].
  apply IH; [lia|done|]. eapply elems_inv; [apply step_elems|split; [exact Hn|exact H1]|done].
Qed.
Lemma empty_inv now : Inv now empty_db.
Proof. constructor; [apply empty_uniq|..]; cbn; intros; exfalso; by eapply not_elem_of_nil. Qed.
