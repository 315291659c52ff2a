(** oarwalltime: C217, C218; kamelot: C219. *)
From Verif Require Import Base ReqModel ReqProps FrontModel FrontSpec FrontProofs FrontProps ConfModel ConfSpec ConfProps QfileModel QfileSpec QfileText QfileFloat QfileExp.
From Verif Require Import JobModel JobProofs TimeModel TimeProps WalltimeModel WalltimeProps WcmdModel WcmdSpec.
From Verif Require AdminModel QfileProps.
From Coq Require Import Ascii.

(** ** Texts *)
Lemma digit_val_spec c d : digit_val c = Some d <-> digit_char c /\ d = digit_value c.
Proof.
  unfold digit_val, digit_char, digit_value. destruct (_ && _) eqn:E; split.
  - intros [= <-]. split; [|done]. lia.
  - intros [_ ->]. done.
  - done.
  - intros [H _]. lia.
Qed.
Lemma digits_val_spec s : forall acc n, digits_val acc s = Some n <-> every digit_char s /\ n = fold_left (fun n c => 10 * n + digit_value c) (list_ascii_of_string s) acc.
Proof.
  induction s as [|c s IH]; intros acc n; cbn [digits_val list_ascii_of_string fold_left].
  - split; [intros [= ->]; split; [apply every_nil|done]|intros [_ ->]; done].
  - rewrite every_cons. destruct (digit_val c) as [d|] eqn:E.
    + apply digit_val_spec in E as [Hc ->]. rewrite IH. tauto.
    + split; [done|]. intros [[Hc _] _]. assert (digit_val c = Some (digit_value c)) by (by apply digit_val_spec). congruence.
Qed.
Lemma wnumber_spec s n : WalltimeModel.number s = Some n <-> digits_only s /\ n = FrontSpec.number s.
Proof.
  unfold WalltimeModel.number, digits_only. destruct s as [|c s]; [split; [done|by intros [[]]]|]. rewrite digits_val_spec. unfold FrontSpec.number. split; [intros [H ->]; done|intros [[_ H] ->]; done].
Qed.
Lemma split_colon_on s : split_colon s = split_on ":" s.
Proof. induction s as [|c s IH]; [done|]. cbn [split_colon split_on]. by rewrite IH. Qed.
Lemma parse_hms_spec s n : parse_hms s = Some n <-> clock s n.
Proof.
  unfold parse_hms. rewrite split_colon_on. split.
  - destruct (split_back ":" s) as (E & Hf & Hn). destruct (split_on ":" s) as [|h [|m [|x [|]]]]; [done|..]; intros H.
    + destruct (WalltimeModel.number h) as [a|] eqn:Ea; [|done]. apply wnumber_spec in Ea as [Ha ->]. injection H as <-. cbn [String.concat] in E. subst s.
      replace (hms_to_duration (FrontSpec.number h) 0 0) with (3600 * FrontSpec.number h) by (unfold hms_to_duration; lia). by constructor.
    + destruct (WalltimeModel.number h) as [a|] eqn:Ea; [|done]. destruct (WalltimeModel.number m) as [b|] eqn:Eb; [|done]. apply wnumber_spec in Ea as [Ha ->]. apply wnumber_spec in Eb as [Hb ->].
      injection H as <-. cbn [String.concat] in E. subst s. rewrite scons_app, snil_app.
      replace (hms_to_duration _ _ 0) with (3600 * FrontSpec.number h + 60 * FrontSpec.number m) by (unfold hms_to_duration; lia). by constructor.
    + destruct (WalltimeModel.number h) as [a|] eqn:Ea; [|done]. destruct (WalltimeModel.number m) as [b|] eqn:Eb; [|done]. destruct (WalltimeModel.number x) as [c|] eqn:Ec; [|done].
      apply wnumber_spec in Ea as [Ha ->]. apply wnumber_spec in Eb as [Hb ->]. apply wnumber_spec in Ec as [Hc ->].
      injection H as <-. cbn [String.concat] in E. subst s. rewrite !scons_app, !snil_app.
      replace (hms_to_duration _ _ _) with (3600 * FrontSpec.number h + 60 * FrontSpec.number m + FrontSpec.number x) by (unfold hms_to_duration; lia). by constructor.
    + done.
  - assert (Hn : forall w, digits_only w -> WalltimeModel.number w = Some (FrontSpec.number w)) by (intros w Hw; by apply wnumber_spec).
    intros H. inversion H as [h Hh|h m Hh Hm|h m x Hh Hm Hx]; subst.
    + rewrite split_on_lacks by (apply digits_lack; [apply Hh|apply not_digit_colon]). rewrite (Hn s Hh). cbn. f_equal. unfold hms_to_duration. lia.
    + rewrite split_on_sep, split_on_lacks by (apply digits_lack; [apply Hh || apply Hm|apply not_digit_colon]). rewrite (Hn h Hh). cbn. rewrite (Hn m Hm). cbn. f_equal. unfold hms_to_duration. lia.
    + rewrite split_on_sep, split_on_sep, split_on_lacks by (apply digits_lack; [apply Hh || apply Hm || apply Hx|apply not_digit_colon]).
      rewrite (Hn h Hh). cbn. rewrite (Hn m Hm). cbn. rewrite (Hn x Hx). cbn. f_equal. unfold hms_to_duration. lia.
Qed.
Lemma clock_head s n : clock s n -> exists c r, s = String c r /\ c <> "-"%char /\ c <> "+"%char.
Proof.
  assert (Hd : forall h t, digits_only h -> exists c r, (h +:+ t)%string = String c r /\ c <> "-"%char /\ c <> "+"%char).
  { intros h t [Hn Hh]. destruct h as [|c h]; [done|]. apply every_cons in Hh as [Hc _]. exists c, (h +:+ t)%string. rewrite scons_app. split; [done|].
    unfold digit_char in Hc. split; intros ->; vm_compute in Hc; lia. }
  intros H. inversion H; subst; [rewrite <- (app_nil_s s)|..]; by apply Hd.
Qed.
Theorem C217_text wall s c : parse_change wall s = Some c <-> change_text wall s c.
Proof.
  unfold parse_change. split.
  - destruct s as [|a s]; [done|]. destruct (decide (a = "-"%char)) as [->|Hm].
    + rewrite bool_decide_true by done. destruct (parse_hms s) as [n|] eqn:E; [|done]. intros [= <-]. apply parse_hms_spec in E. by constructor.
    + rewrite bool_decide_false by done. destruct (decide (a = "+"%char)) as [->|Hp].
      * rewrite bool_decide_true by done. intros E. apply parse_hms_spec in E. by constructor.
      * rewrite bool_decide_false by done. destruct (parse_hms (String a s)) as [n|] eqn:E; [|done]. intros [= <-]. apply parse_hms_spec in E. by constructor.
  - intros H. inversion H as [t n Ht|t n Ht|t n Ht]; subst.
    + rewrite bool_decide_false by done. rewrite bool_decide_true by done. by apply parse_hms_spec.
    + rewrite bool_decide_true by done. apply parse_hms_spec in Ht. by rewrite Ht.
    + destruct (clock_head s n Ht) as (a & r & -> & Hm & Hp). rewrite !bool_decide_false by done. apply parse_hms_spec in Ht. by rewrite Ht.
Qed.
Lemma change_any wall s c : change_text wall s c -> forall wall', exists c', change_text wall' s c'.
Proof. intros H wall'. inversion H; subst; eexists; econstructor; eassumption. Qed.
Lemma well_formed_spec s wall : well_formed s = true <-> exists c, change_text wall s c.
Proof.
  unfold well_formed. destruct (parse_change 0 s) as [c|] eqn:E.
  - apply C217_text in E. split; [intros _|done]. by eapply change_any.
  - split; [done|]. intros (c & H). destruct (change_any _ _ _ H 0) as (c' & H'). apply C217_text in H'. congruence.
Qed.

(** ** C217. oarwalltime with a new walltime *)
Lemma status_stop d v : status_of (stop d v) = v.
Proof. unfold status_of, stop. cbn. destruct (v =? 0) eqn:E; cbn; lia. Qed.
Lemma status_one d v l : status_of (mkDone d [v] l None) = v.
Proof. unfold status_of. cbn. destruct (v =? 0) eqn:E; cbn; lia. Qed.
(** What is refused before the request: no job, options without a new walltime, a text that is no walltime. *)
Theorem C217_usage cf now id user s force delay d :
  id = 0 \/ (s = ""%string /\ (force = true \/ delay = true)) \/ (s <> ""%string /\ forall c, ~ change_text 0 s c) ->
  let o := oarwalltime cf now id user s force delay d in status_of o = 1 /\ c_db o = d /\ c_sent o = [] /\ c_error o = None.
Proof.
  intros H. cbv zeta. assert (oarwalltime cf now id user s force delay d = stop d 1) as ->; [|by rewrite status_stop].
  unfold oarwalltime. destruct (id =? 0) eqn:E0; [done|]. destruct H as [->|[[-> H]|[Hs H]]]; [done|..].
  - rewrite bool_decide_true by done. destruct H as [-> | ->]; rewrite ?orb_true_r; done.
  - rewrite bool_decide_false by done. cbn [andb negb]. destruct (well_formed s) eqn:Ew; [|done]. exfalso. apply (well_formed_spec s 0) in Ew as (c & Hc). by apply (H c).
Qed.
Lemma asked cf now id user s force delay d c : id <> 0 -> change_text 0 s c ->
  oarwalltime cf now id user s force delay d =
  match request cf now id user s force delay d with Err e => mkDone d [] [] (Some e) | Ok (c, d') => mkDone d' [c] (if c =? 0 then ["Walltime"%string] else []) None end.
Proof.
  intros Hid Hc. unfold oarwalltime. replace (id =? 0) with false by lia. assert (s <> ""%string) as Hs.
  { intros ->. apply C217_text in Hc. done. }
  rewrite (bool_decide_false (s = ""%string)) by done. cbn [andb negb]. rewrite (proj2 (well_formed_spec s 0)) by (by exists c). done.
Qed.
Lemma request_codes cf now id user s force delay d c d' : request cf now id user s force delay d = Ok (c, d') -> c ∈ [0; 1; 3; 4; 5].
Proof. unfold request. repeat case_match; intros [= <- _]; set_solver. Qed.
(** The status tells: 0, and the change waits and the server is told; not 0, and nothing is changed and nothing is sent. *)
Theorem C217_status cf now id user s force delay d c : id <> 0 -> change_text 0 s c ->
  let o := oarwalltime cf now id user s force delay d in
  (status_of o <> 0 \/ c_error o <> None -> c_db o = d /\ c_sent o = []) /\ (c_error o = None -> status_of o = 0 -> c_sent o = ["Walltime"%string]) /\ status_of o ∈ [0; 1; 3; 4; 5].
Proof.
  intros Hid Hc. cbv zeta. rewrite (asked _ _ _ _ _ _ _ _ c Hid Hc). destruct (request cf now id user s force delay d) as [[v d']|e] eqn:E.
  - rewrite status_one. cbn [c_error c_db c_sent]. split; [|split].
    + intros [H|H]; [|done]. replace (v =? 0) with false by lia. split; [|done]. by eapply C33_walltime_refused_no_effect.
    + intros _ ->. done.
    + by eapply request_codes.
  - cbn [c_error c_db c_sent]. split; [done|]. split; [done|]. unfold status_of. cbn. set_solver.
Qed.
(** Who gets a change: the owner, or root and oar, of a running job, within the rules of the site. *)
Theorem C217_accepted cf now id user s force delay d : uniq d -> wtc_uniq d ->
  let o := oarwalltime cf now id user s force delay d in
  status_of o = 0 -> c_error o = None -> s <> ""%string ->
  exists j m c, j ∈ jobs d /\ j_id j = id /\ j_state j = "Running"%string /\ (user = j_user j \/ user = "oar"%string \/ user = "root"%string) /\
    m ∈ mlds d /\ m_id m = j_mld j /\ change_text (m_wall m) s c /\ min_for_change cf <= m_wall m /\ ("container"%string ∈ j_types j -> 0 <= c) /\
    (force = true -> user_in user (force_users cf) = true) /\ (delay = true -> user_in user (delay_users cf) = true) /\
    (0 <= j_start j + m_wall m + suspended_sum now id d - now -> waits now j m c d (c_db o)).
Proof.
  intros HU HW. cbv zeta. intros Hs He Hne. destruct (decide (id = 0)) as [->|Hid].
  { destruct (C217_usage cf now 0 user s force delay d (or_introl eq_refl)) as [H _]. cbv zeta in H. lia. }
  destruct (well_formed s) eqn:Ew.
  2:{ destruct (C217_usage cf now id user s force delay d) as [H _]; [right; right; split; [done|]|cbv zeta in H; lia]. intros c Hc.
      assert (well_formed s = true) by (apply (well_formed_spec s 0); by exists c). congruence. }
  apply (well_formed_spec s 0) in Ew as (c0 & Hc0). rewrite (asked _ _ _ _ _ _ _ _ c0 Hid Hc0) in *. destruct (request cf now id user s force delay d) as [[v d']|e] eqn:E; [|done].
  rewrite status_one in Hs. subst v. cbn [c_db]. pose proof (C33_force_allowed _ _ _ _ _ _ _ _ _ E) as [Hf Hdl].
  pose proof (fun j m c => C66_recorded_partial cf now id user s force delay d d' j m c HU HW E) as HR.
  unfold request in E. destruct (negb (bool_decide (enabled cf = _))); [done|]. destruct (get_job d id) as [j|] eqn:Ej; [|done]. apply get_job_in in Ej as [Hj Hji].
  destruct (negb (bool_decide (j_user j = user)) && _) eqn:Eu; [done|]. destruct (negb (bool_decide (j_state j = _))) eqn:Est; [done|]. destruct (filter _ (mlds d)) as [|m [|]] eqn:Em; [done| |done].
  assert (m ∈ mlds d /\ m_id m = j_mld j) as [Hm Hmid]. { assert (m ∈ filter (fun m => m_id m = j_mld j) (mlds d)) as X by (rewrite Em; left). apply elem_of_list_filter in X. tauto. }
  destruct (get_conf _ _ _) as [maxi|]; [|done]. destruct (parse_change (m_wall m) s) as [c|] eqn:Ec; [|done]. destruct (bool_decide (user = ""%string)); [done|].
  destruct (force && _); [done|]. destruct (delay && _); [done|]. destruct (m_wall m <? min_for_change cf) eqn:Emin; [done|]. destruct (bool_decide (_ ∈ j_types j) && _) eqn:Eco; [done|].
  exists j, m, c. split; [done|]. split; [done|]. split; [apply negb_false_iff, bool_decide_eq_true in Est; done|]. split.
  { apply andb_false_iff in Eu as [Eu|Eu]; apply negb_false_iff, bool_decide_eq_true in Eu; [by left|]. set_solver. }
  split; [done|]. split; [done|]. split; [by apply C217_text|]. split; [lia|]. split.
  { intros Hin. apply andb_false_iff in Eco as [Eco|Eco]; [by apply bool_decide_eq_false in Eco|lia]. }
  split; [done|]. split; [done|]. intros Hrem. unfold waits. cbv zeta. rewrite Hji. exact (HR j m c Hj Hji Hm Hmid Ec Hrem).
Qed.
(** And all of them do, within the largest increase. *)
Theorem C217_granted cf now id user s force delay d j m c maxi : uniq d -> wtc_uniq d -> id <> 0 -> enabled cf = Some "YES"%string ->
  j ∈ jobs d -> j_id j = id -> j_state j = "Running"%string -> (user = j_user j \/ user = "oar"%string \/ user = "root"%string) -> user <> ""%string ->
  m ∈ mlds d -> m_id m = j_mld j -> change_text (m_wall m) s c -> min_for_change cf <= m_wall m -> ("container"%string ∈ j_types j -> 0 <= c) ->
  (force = true -> user_in user (force_users cf) = true) -> (delay = true -> user_in user (delay_users cf) = true) ->
  0 <= j_start j + m_wall m + suspended_sum now id d - now ->
  get_conf (max_increase cf) (j_queue j) (m_wall m) = Some maxi -> (maxi = -1 \/ (forall w, w ∈ wtcs d -> w_job w = id -> w_granted w + Z.max 0 c <= maxi) /\ Z.max 0 c <= maxi \/ user = "oar"%string \/ user = "root"%string) ->
  let o := oarwalltime cf now id user s force delay d in status_of o = 0 /\ c_error o = None.
Proof.
  intros HU HW Hid Hen Hj Hji Hst Hu Hue Hm Hmid Hc Hmin Hcont Hf Hd Hrem Hmax Hlim. cbv zeta. destruct (change_any _ _ _ Hc 0) as (c0 & Hc0). rewrite (asked _ _ _ _ _ _ _ _ c0 Hid Hc0).
  assert (exists d', request cf now id user s force delay d = Ok (0, d')) as (d' & ->); [|by rewrite status_one].
  unfold request. rewrite Hen, bool_decide_true by done. cbn [negb]. replace (get_job d id) with (Some j) by (rewrite <- Hji; symmetry; by apply get_job_of).
  replace (negb (bool_decide (j_user j = user)) && negb (bool_decide (user ∈ ["root"; "oar"]%string))) with false.
  2:{ symmetry. apply andb_false_iff. destruct Hu as [-> |Hu]; [left; by rewrite bool_decide_true|right]. rewrite bool_decide_true; [done|]. destruct Hu as [-> | ->]; set_solver. }
  rewrite (bool_decide_true (j_state j = _)) by done. cbn [negb].
  assert (filter (fun m => m_id m = j_mld j) (mlds d) = [m]) as ->.
  { pose proof (at_most_one m_id (fun m => m_id m = j_mld j) (mlds d) (proj2 HW) ltac:(intros; congruence)) as L1.
    assert (m ∈ filter (fun m => m_id m = j_mld j) (mlds d)) as Hin by (by apply elem_of_list_filter). destruct (filter _ (mlds d)) as [|x [|]]; cbn [length] in L1; [by apply elem_of_nil in Hin| |lia]. by apply elem_of_list_singleton in Hin as ->. }
  rewrite Hmax. rewrite (proj2 (C217_text _ _ _) Hc). rewrite (bool_decide_false (user = ""%string)) by done.
  replace (force && negb (user_in user (force_users cf))) with false by (destruct force; [by rewrite Hf|done]).
  replace (delay && negb (user_in user (delay_users cf))) with false by (destruct delay; [by rewrite Hd|done]).
  replace (m_wall m <? min_for_change cf) with false by lia.
  replace (bool_decide ("container"%string ∈ j_types j) && (c <? 0)) with false by (case_bool_decide; [specialize (Hcont H)|]; lia).
  cbv zeta. set (ch := if _ <? - c then _ else c). assert (ch <= Z.max 0 c) as Hch by (subst ch; destruct (_ <? - c); lia). clearbody ch.
  assert (forall g, (maxi = -1 \/ g + Z.max 0 c <= maxi \/ user = "oar"%string \/ user = "root"%string) -> negb (maxi =? -1) && (maxi <? g + ch) && negb (bool_decide (user ∈ ["root"; "oar"]%string)) = false) as Hover.
  { intros g [->|[H|H]]; [done|..].
    - replace (maxi <? g + ch) with false by lia. rewrite andb_false_r. done.
    - rewrite (bool_decide_true (user ∈ _)) by (destruct H as [-> | ->]; set_solver). apply andb_false_r. }
  destruct (filter (fun w => w_job w = id) (wtcs d)) as [|w [|w2 r]] eqn:Ew.
  - rewrite Hover by (destruct Hlim as [?|[[_ ?]|?]]; auto). by eexists.
  - rewrite Hover; [by eexists|]. destruct Hlim as [?|[[H _]|?]]; auto. right; left.
    assert (w ∈ filter (fun w => w_job w = id) (wtcs d)) as X by (rewrite Ew; left). apply elem_of_list_filter in X as [Hw1 Hw2]. by apply H.
  - rewrite Hover by (destruct Hlim as [?|[[_ ?]|?]]; auto). by eexists.
Qed.

(** ** C218. oarwalltime without a new walltime shows where the change is *)
(** Nothing is changed, whatever happens. *)
Theorem C218_reads_only cf now id user force delay d : let o := oarwalltime cf now id user "" force delay d in c_db o = d /\ c_sent o = [].
Proof. cbv zeta. unfold oarwalltime. repeat case_match; try done; cbn in *; done. Qed.
(** A job without a walltime yet is shown so; an unknown job, and a site without the function, give the status 2. *)
Theorem C218_shown_partial cf now id user d : id <> 0 -> uniq d ->
  let o := oarwalltime cf now id user "" false false d in
  (enabled cf <> Some "YES"%string \/ (forall j, j ∈ jobs d -> j_id j <> id) <-> status_of o = 2) /\
  (forall j, enabled cf = Some "YES"%string -> j ∈ jobs d -> j_id j = id -> j_mld j = 0 -> status_of o = 0 /\ c_error o = None).
Proof.
  intros Hid HU. cbv zeta. unfold oarwalltime. replace (id =? 0) with false by lia. change (bool_decide (""%string = ""%string)) with true. cbn [andb orb negb]. unfold change_status.
  destruct (decide (enabled cf = Some "YES"%string)) as [He|He].
  - rewrite bool_decide_true by done. cbn [negb]. split.
    + destruct (get_job d id) as [j|] eqn:Ej.
      * apply get_job_in in Ej as [Hj Hji]. split.
        -- intros [H|H]; [done|]. by destruct (H j Hj).
        -- destruct (j_mld j =? 0); [rewrite status_stop; lia|]. destruct (filter _ _) as [|? [|]]; unfold status_of; cbn; lia.
      * rewrite status_stop. split; [done|]. intros _. right. intros j Hj Hji. rewrite <- Hji, (get_job_of d j HU Hj) in Ej. done.
    + intros j _ Hj Hji Hm. rewrite <- Hji, (get_job_of d j HU Hj). rewrite Hm. cbn. done.
  - rewrite bool_decide_false by done. cbn [negb]. rewrite status_stop. split; [split; [done|by left]|]. intros. done.
Qed.
(** Refuted: for every job that has a walltime the command ends with an exception. *)
Theorem C218_refuted cf now id user d j : id <> 0 -> uniq d -> enabled cf = Some "YES"%string -> j ∈ jobs d -> j_id j = id -> j_mld j <> 0 ->
  exists e, c_error (oarwalltime cf now id user "" false false d) = Some e /\ ((exists m, mlds d = [m] /\ m_id m = j_mld j) -> e = EAttr).
Proof.
  intros Hid HU He Hj Hji Hm. unfold oarwalltime. replace (id =? 0) with false by lia. change (bool_decide (""%string = ""%string)) with true. cbn [andb orb negb]. unfold change_status.
  rewrite bool_decide_true by done. cbn [negb]. rewrite <- Hji, (get_job_of d j HU Hj). replace (j_mld j =? 0) with false by lia.
  destruct (filter (fun m => m_id m = j_mld j) (mlds d)) as [|m [|]] eqn:E; (eexists; split; [reflexivity|]); intros (mm & Em & Hmm); rewrite Em in E; cbn in E; rewrite decide_True in E by done; done.
Qed.
Theorem C217_case :
  let run s f dl := oarwalltime (wcf 7200) 8100 1 "u" s f dl wdb in
  let w := run "+1"%string false false in
  (status_of w, c_sent w, books (c_db w)) = (0, ["Walltime"%string], ([(3600, 0)], [7200])) /\
  status_of (run "+1:70"%string false false) <> 1 /\ status_of (run "1:2:3:4"%string false false) = 1 /\ status_of (run ""%string true false) = 1 /\ status_of (run "+-1"%string false false) = 1 /\
  c_error (run ""%string false false) = Some EAttr /\ change_text 7200 "3:30" 5400.
Proof. cbv zeta. split; [vm_compute; reflexivity|]. split; [vm_compute; discriminate|]. split; [vm_compute; reflexivity|]. split; [vm_compute; reflexivity|]. split; [vm_compute; reflexivity|]. split; [vm_compute; reflexivity|]. apply C217_text. vm_compute. reflexivity. Qed.

(** ** C219. The scheduler kamelot as a command *)
Lemma date_digits w : digits_only w -> FrontSpec.number w < 2 ^ 53 -> date_of w = Ok (FrontSpec.number w).
Proof.
  intros Hw Hn. destruct (QfileProps.C201_whole_number None w Hw Hn) as [H _]. unfold whole in H. unfold date_of.
  assert (decimal_number w (FrontSpec.number w) 0) as HD by (by left).
  pose proof (decimal_float w _ _ HD) as Ef. rewrite (decimal_finite w _ _ 53 HD) in Ef by (try lia; cbn; lia). rewrite Ef in H |- *. congruence.
Qed.
Lemma str_digits n : 0 <= n -> digits_only (str n) /\ FrontSpec.number (str n) = n.
Proof.
  intros H. unfold str. replace (n <? 0) with false by lia. pose proof (dec_digits (Z.to_nat n) n ""%string H ltac:(lia) I) as [_ Hne].
  pose proof (digits_val_dec (Z.to_nat n) n ""%string H ltac:(lia)) as E. cbn [digits_val] in E. apply digits_val_spec in E as [E1 E2]. split; [done|]. by unfold FrontSpec.number.
Qed.
(** Without quotas: the cycle the meta-scheduler asked for. *)
Theorem C219_called_partial path q now sql : 0 <= now < 2 ^ 53 -> kamelot false (scheduler_argv path q now sql) = Ok (mkCall (Some now) [q]).
Proof.
  intros H. destruct (str_digits now) as [Hd Hn]; [lia|]. unfold kamelot, scheduler_argv. rewrite date_digits; [by rewrite Hn|done|rewrite Hn; lia].
Qed.
(** By hand: the date that is given, that of the system without one, the queue default without a name. *)
Theorem C219_by_hand_partial path q t rest : digits_only t -> FrontSpec.number t < 2 ^ 53 ->
  kamelot false (path :: q :: t :: rest) = Ok (mkCall (Some (FrontSpec.number t)) [q]) /\ kamelot false [path; q] = Ok (mkCall None [q]) /\ kamelot false [path] = Ok (mkCall None ["default"%string]).
Proof. intros Hd Hn. unfold kamelot. by rewrite (date_digits t Hd Hn). Qed.
(** Refuted: with quotas, it never gets to its cycle. *)
Theorem C219_refuted argv : kamelot true argv = Err EType.
Proof. done. Qed.
Theorem C219_case : kamelot false ["kamelot"; "admin"; "1700000000"; "2023-11-14 22:13:20"]%string = Ok (mkCall (Some 1700000000) ["admin"%string]) /\ kamelot false ["kamelot"; "admin"; "1.5e3"]%string = Ok (mkCall (Some 1500) ["admin"%string]) /\
  kamelot false ["kamelot"; "admin"; "now"]%string = Err EValue.
Proof. vm_compute. done. Qed.
Print Assumptions C217_text.
Print Assumptions C217_usage.
Print Assumptions C217_status.
Print Assumptions C217_accepted.
Print Assumptions C217_granted.
Print Assumptions C218_reads_only.
Print Assumptions C218_shown_partial.
Print Assumptions C218_refuted.
Print Assumptions C217_case.
Print Assumptions C219_called_partial.
Print Assumptions C219_by_hand_partial.
Print Assumptions C219_refuted.
Print Assumptions C219_case.
