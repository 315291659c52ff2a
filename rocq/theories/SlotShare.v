(** Time-sharing, placeholder and quota bookkeeping of job insertion (C49-C51). *)
From Verif Require Import Base SlotModel SlotSpec SlotProofs SlotJobs SlotLookup SlotOps SlotCheck SlotProps.

(** The resources a content records as shareable under (user, name), if any. *)
Definition ts_entry (c : content) (u n : string) : option procset :=
  match ts_itvs c !! u with Some d => d !! n | None => None end.

Lemma ts_entry_insert c x u d ph q i u' n' :
  ts_entry (mkContent x (<[ u := d ]> (ts_itvs c)) ph q i) u' n' =
  if decide (u = u') then d !! n' else ts_entry c u' n'.
Proof.
  unfold ts_entry. cbn [ts_itvs]. destruct (decide (u = u')) as [->|Hn].
  - by rewrite lookup_insert.
  - by rewrite lookup_insert_ne.
Qed.

Definition key_is (j : job) (u n : string) : Prop := jts_user j = Some u /\ jts_name j = Some n.
Global Instance key_is_dec j u n : Decision (key_is j u n). Proof. unfold key_is. apply _. Qed.

Lemma sub_ts_spec j c c' : sub_ts j c = Ok c' ->
  itvs c' = itvs c /\ ph_itvs c' = ph_itvs c /\ quotas c' = quotas c /\ quotas_rules_id c' = quotas_rules_id c /\
  forall u n, ts_entry c' u n =
    if bool_decide (jts j = true /\ key_is j u n /\ ts_entry c u n = None) then Some (res_set j) else ts_entry c u n.
Proof.
  unfold sub_ts. intros H. destruct (jts j) eqn:Ets.
  - destruct (jts_user j) as [u0|] eqn:Eu; [|done]. destruct (jts_name j) as [n0|] eqn:En; [|done]. cbn [attr rbind] in H.
    assert (Hk : forall u n, key_is j u n <-> u0 = u /\ n0 = n) by (intros u n; unfold key_is; rewrite Eu, En; split; intros [H1 H2]; split; congruence).
    revert H. intros [= <-]. split_and!; try done. intros u n. rewrite ts_entry_insert.
    unfold ts_entry. destruct (decide (u0 = u)) as [->|Hu].
    + destruct (ts_itvs c !! u) as [d|]; cbn [default].
      * destruct (decide (n0 = n)) as [->|Hn].
        -- destruct (d !! n) as [y|] eqn:E; cbn [from_option]; rewrite E || (cbn; rewrite E).
           ++ rewrite bool_decide_false by (intros (_ & _ & ?); done). done.
           ++ rewrite lookup_insert. rewrite bool_decide_true by (rewrite Hk; done). done.
        -- cbn. destruct (d !! n0) eqn:E; rewrite ?(lookup_insert_ne d) by done;
             rewrite bool_decide_false by (rewrite Hk; intros (_ & [_ ?] & _); congruence); done.
      * cbn. rewrite lookup_empty. destruct (decide (n0 = n)) as [->|Hn].
        -- rewrite lookup_insert. rewrite bool_decide_true by (rewrite Hk; done). done.
        -- rewrite lookup_insert_ne, lookup_empty by done.
           rewrite bool_decide_false by (rewrite Hk; intros (_ & [_ ?] & _); congruence). done.
    + rewrite bool_decide_false by (rewrite Hk; intros (_ & [? _] & _); congruence). done.
  - injection H as <-. split_and!; done.
Qed.

Lemma sub_ph_allow_spec j c c' : sub_ph_allow j c = Ok c' ->
  itvs c' = itvs c /\ ts_itvs c' = ts_itvs c /\ quotas c' = quotas c /\ quotas_rules_id c' = quotas_rules_id c /\
  forall n, ph_itvs c' !! n =
    if bool_decide (jph j = ALLOW /\ jph_name j = Some n) then (fun y => y ∖ res_set j) <$> ph_itvs c !! n
    else ph_itvs c !! n.
Proof.
  unfold sub_ph_allow. destruct (jph j =? ALLOW) eqn:E.
  - apply Z.eqb_eq in E. destruct (jph_name j) as [n0|]; [|done]. cbn [attr rbind].
    destruct (ph_itvs c !! n0) as [y|] eqn:Ey; intros [= <-]; split_and!; try done; intros n; cbn [ph_itvs].
    + destruct (decide (n0 = n)) as [->|Hn].
      * rewrite lookup_insert, bool_decide_true, Ey by done. done.
      * rewrite lookup_insert_ne, bool_decide_false by (congruence || (intros [_ ?]; congruence)). done.
    + case_bool_decide as H; [|done]. destruct H as [_ [= ->]]. by rewrite Ey.
  - apply Z.eqb_neq in E. intros [= <-]. split_and!; try done. intros n.
    rewrite bool_decide_false by tauto. done.
Qed.

Lemma sub_ph_set_spec j c c' : sub_ph_set j c = Ok c' ->
  itvs c' = itvs c /\ ts_itvs c' = ts_itvs c /\ quotas c' = quotas c /\ quotas_rules_id c' = quotas_rules_id c /\
  forall n, ph_itvs c' !! n =
    if bool_decide (jph j = PLACEHOLDER /\ jph_name j = Some n) then Some (res_set j) else ph_itvs c !! n.
Proof.
  unfold sub_ph_set. destruct (jph j =? PLACEHOLDER) eqn:E.
  - apply Z.eqb_eq in E. destruct (jph_name j) as [n0|]; [|done]. cbn [attr rbind].
    intros [= <-]. split_and!; try done; intros n; cbn [ph_itvs].
    destruct (decide (n0 = n)) as [->|Hn].
    + rewrite lookup_insert, bool_decide_true by done. done.
    + rewrite lookup_insert_ne, bool_decide_false by (congruence || (intros [_ ?]; congruence)). done.
  - apply Z.eqb_neq in E. intros [= <-]. split_and!; try done. intros n.
    rewrite bool_decide_false by tauto. done.
Qed.

Lemma sub_content_full env j c c' : sub_content env j c = Ok c' ->
  itvs c' = itvs c ∖ res_set j /\
  (forall u n, ts_entry c' u n =
    if bool_decide (jts j = true /\ key_is j u n /\ ts_entry c u n = None) then Some (res_set j) else ts_entry c u n) /\
  (forall n, ph_itvs c' !! n =
    if bool_decide (jph j = PLACEHOLDER /\ jph_name j = Some n) then Some (res_set j)
    else if bool_decide (jph j = ALLOW /\ jph_name j = Some n) then (fun y => y ∖ res_set j) <$> ph_itvs c !! n
    else ph_itvs c !! n) /\
  quotas c' = (if has_type "container" j then quotas c else q_update env j <$> quotas c) /\
  quotas_rules_id c' = quotas_rules_id c.
Proof.
  unfold sub_content. intros H.
  apply rbind_Ok in H as (c1 & H1 & H). apply rbind_Ok in H as (c2 & H2 & H).
  apply rbind_Ok in H as (c3 & H3 & H).
  apply sub_ts_spec in H1 as (A1 & A2 & A3 & A4 & A5). cbn [itvs ph_itvs quotas quotas_rules_id ts_itvs] in *.
  apply sub_ph_allow_spec in H2 as (B1 & B2 & B3 & B4 & B5).
  apply sub_ph_set_spec in H3 as (C1 & C2 & C3 & C4 & C5).
  assert (E : itvs c' = itvs c3 /\ ts_itvs c' = ts_itvs c3 /\ ph_itvs c' = ph_itvs c3 /\
    quotas_rules_id c' = quotas_rules_id c3 /\
    quotas c' = (if has_type "container" j then quotas c3 else q_update env j <$> quotas c3)).
  { injection H as <-. unfold sub_quotas. destruct (quotas c3) eqn:Eq; [destruct (has_type _ _) eqn:Eh|];
      cbn [itvs ts_itvs ph_itvs quotas quotas_rules_id]; split_and!; rewrite ?Eq; try done. by destruct (has_type _ _). }
  destruct E as (E1 & E2 & E3 & E4 & E5). split_and!.
  - congruence.
  - intros u n. unfold ts_entry at 1. rewrite E2, C2, B2. rewrite <- A5 || (specialize (A5 u n); exact A5).
    done.
  - intros n. rewrite E3, C5, B5, A2. done.
  - rewrite E5, C3, B3, A3. done.
  - congruence.
Qed.

(** add: the resources of a container's job are offered through its own sharing entries *)
Lemma add_content_full j c c' : add_content j c = Ok c' ->
  itvs c' = (if negb (jts j) && (jph j =? NO_PLACEHOLDER) then itvs c ∪ res_set j else itvs c) /\
  (forall u n, ts_entry c' u n =
    if bool_decide (jts j = true /\ key_is j u n) then Some (default ∅ (ts_entry c u n) ∪ res_set j) else ts_entry c u n) /\
  (forall n, ph_itvs c' !! n =
    if bool_decide (jph j = PLACEHOLDER /\ jph_name j = Some n) then Some (default ∅ (ph_itvs c !! n) ∪ res_set j)
    else ph_itvs c !! n) /\
  quotas c' = quotas c /\ quotas_rules_id c' = quotas_rules_id c.
Proof.
  unfold add_content. intros H. apply rbind_Ok in H as (c1 & H1 & H2).
  match type of H1 with add_ts _ ?x = _ => set (c0 := x) in * end.
  assert (E0 : itvs c0 = (if negb (jts j) && (jph j =? NO_PLACEHOLDER) then itvs c ∪ res_set j else itvs c) /\
    ts_itvs c0 = ts_itvs c /\ ph_itvs c0 = ph_itvs c /\ quotas c0 = quotas c /\ quotas_rules_id c0 = quotas_rules_id c).
  { unfold c0. destruct (negb _ && _); done. }
  clearbody c0. destruct E0 as (X1 & X2 & X3 & X4 & X5).
  assert (E1 : itvs c1 = itvs c0 /\ ph_itvs c1 = ph_itvs c0 /\ quotas c1 = quotas c0 /\ quotas_rules_id c1 = quotas_rules_id c0 /\
    forall u n, ts_entry c1 u n =
    if bool_decide (jts j = true /\ key_is j u n) then Some (default ∅ (ts_entry c0 u n) ∪ res_set j) else ts_entry c0 u n).
  { unfold add_ts in *. destruct (jts j) eqn:Ets.
    - destruct (jts_user j) as [u0|] eqn:Eu; [|done]. destruct (jts_name j) as [n0|] eqn:En; [|done]. cbn [attr rbind] in H1.
      assert (Hk : forall u n, key_is j u n <-> u0 = u /\ n0 = n) by (intros u n; unfold key_is; rewrite Eu, En; split; intros [? ?]; split; congruence).
      injection H1 as <-. split_and!; try done. intros u n. rewrite ts_entry_insert. unfold ts_entry.
      destruct (decide (u0 = u)) as [->|Hu].
      + destruct (decide (n0 = n)) as [->|Hn].
        * rewrite bool_decide_true by (rewrite Hk; done).
          destruct (ts_itvs c0 !! u) as [d|]; cbn [default from_option].
          -- unfold id. destruct (d !! n) as [y|] eqn:Ey; rewrite lookup_insert; [by cbn|].
             cbn. by rewrite union_empty_l_L.
          -- cbn. rewrite lookup_empty, lookup_insert. by rewrite union_empty_l_L.
        * rewrite bool_decide_false by (rewrite Hk; intros (_ & _ & ?); congruence).
          destruct (ts_itvs c0 !! u) as [d|]; cbn [default from_option].
          -- unfold id. destruct (d !! n0) as [y|] eqn:Ey; by rewrite lookup_insert_ne.
          -- cbn. by rewrite lookup_empty, lookup_insert_ne, lookup_empty.
      + rewrite bool_decide_false by (rewrite Hk; intros (_ & ? & _); congruence). done.
    - injection H1 as <-. split_and!; done. }
  destruct E1 as (Y1 & Y2 & Y3 & Y4 & Y5).
  assert (E2 : itvs c' = itvs c1 /\ ts_itvs c' = ts_itvs c1 /\ quotas c' = quotas c1 /\ quotas_rules_id c' = quotas_rules_id c1 /\
    forall n, ph_itvs c' !! n =
    if bool_decide (jph j = PLACEHOLDER /\ jph_name j = Some n) then Some (default ∅ (ph_itvs c1 !! n) ∪ res_set j)
    else ph_itvs c1 !! n).
  { unfold add_ph in H2. destruct (jph j =? PLACEHOLDER) eqn:E.
    - apply Z.eqb_eq in E. destruct (jph_name j) as [n0|]; [|done]. cbn [attr rbind] in H2.
      injection H2 as <-. split_and!; try done; intros n; cbn [ph_itvs].
      destruct (decide (n0 = n)) as [->|Hn].
      + rewrite lookup_insert, bool_decide_true by done.
        destruct (ph_itvs c1 !! n); cbn; [done|]. by rewrite union_empty_l_L.
      + rewrite lookup_insert_ne, bool_decide_false by (congruence || (intros [_ ?]; congruence)). done.
    - apply Z.eqb_neq in E. injection H2 as <-. split_and!; try done. intros n.
      rewrite bool_decide_false by tauto. done. }
  destruct E2 as (Z1 & Z2 & Z3 & Z4 & Z5). split_and!; try congruence.
  - intros u n. transitivity (ts_entry c1 u n); [unfold ts_entry; by rewrite Z2|]. rewrite Y5.
    assert (ts_entry c0 u n = ts_entry c u n) as -> by (unfold ts_entry; by rewrite X2). done.
  - intros n. rewrite Z5, Y2, X3. done.
Qed.

Lemma updc_sub_full env j c : job_ok j -> sub_content env j c = Ok (updc env true j c).
Proof. intros Hj. exact (upd_content_ok env true j c Hj). Qed.
Lemma updc_add_full env j c : job_ok j -> add_content j c = Ok (updc env false j c).
Proof. intros Hj. exact (upd_content_ok env false j c Hj). Qed.

(** At every instant of the window, what the insertion of a job does to the content. *)
Lemma insert_content env ss j sub :
  WF ss -> job_ok j -> 0 <= walltime j ->
  exists ss', split_slots_jobs env ss [j] sub = Ok ss' /\ WF ss' /\
    forall t c, start_time j <= t < start_time j + walltime j -> content_at ss t c ->
      content_at ss' t (updc env sub j c).
Proof.
  intros HW Hj Hw. destruct (split_slots_jobs_one env sub j ss HW Hj Hw) as (ss' & h & E & HW' & _ & _ & Hh & _ & HC).
  exists ss'. split; [done|]. split; [done|]. intros t c Ht Hc. apply HC. exists c. split; [done|].
  unfold occ_end in Hh. replace ((start_time j <=? t) && (t <=? h)) with true by lia. done.
Qed.

(** * C49: time-sharing *)
(** Full statement: whenever a time-sharing job is inserted, during its window its resources are
    usable by the jobs allowed to share with it.  False: only the first job inserted under a
    given (user, name) is recorded. *)
Definition share_job (i : Z) (rs : procset) : job :=
  mkJob i 10 5 rs true (Some "*"%string) (Some "*"%string) 0 None "" "u" "default" "p" [].

Theorem C49_timesharing_refuted : exists env ss j1 j2 j3 ss1 ss2 t r,
  WF ss /\ job_ok j1 /\ job_ok j2 /\
  split_slots_jobs env ss [j1] true = Ok ss1 /\ split_slots_jobs env ss1 [j2] true = Ok ss2 /\
  (* j1 and j2 both share with everybody, j3 is a time-sharing job *)
  key_is j1 "*" "*" /\ key_is j2 "*" "*" /\ jts j1 = true /\ jts j2 = true /\ jts j3 = true /\
  start_time j2 <= t < start_time j2 + walltime j2 /\ r ∈ res_set j2 /\
  free_at ss t r /\ (forall c, content_at ss2 t c -> ~ usable_by j3 c r).
Proof.
  set (j1 := share_job 1 (range 1 2)). set (j2 := share_job 2 (range 3 4)). set (j3 := share_job 3 ∅).
  set (ss1 := from_ok ex_ss (split_slots_jobs ex_env ex_ss [j1] true)).
  set (ss2 := from_ok ex_ss (split_slots_jobs ex_env ss1 [j2] true)).
  exists ex_env, ex_ss, j1, j2, j3, ss1, ss2, 12, 3.
  split; [exact ex_ss_WF|]. 
  assert (Hok : forall i rs, job_ok (share_job i rs)).
  { intros i rs. split; [split; eauto|]. intros [H|H]; vm_compute in H; done. }
  split; [apply Hok|]. split; [apply Hok|].
  split; [apply from_ok_eq; vm_compute; reflexivity|]. split; [apply from_ok_eq; vm_compute; reflexivity|].
  do 5 (split; [done|]). split; [cbn; lia|]. split; [by_dec|].
  split; [apply free_b_true; vm_compute; reflexivity|].
  intros c Hc Hu.
  assert (E : match ts_entry c "*" "*" with Some y => negb (bool_decide (3 ∈ y)) | None => false end &&
    negb (bool_decide (3 ∈ itvs c)) &&
    bool_decide (ts_itvs c !! "u"%string = None) && bool_decide (ts_entry c "*" "" = None) = true).
  { refine (content_at_all ss2 12 (fun c => match ts_entry c "*" "*" with Some y => negb (bool_decide (3 ∈ y)) | None => false end &&
    negb (bool_decide (3 ∈ itvs c)) &&
    bool_decide (ts_itvs c !! "u"%string = None) && bool_decide (ts_entry c "*" "" = None)) _ c Hc).
    vm_compute. reflexivity. }
  rewrite !andb_true_iff, negb_true_iff, bool_decide_eq_false, !bool_decide_eq_true in E.
  destruct E as [[[E1 E2] E3] E4].
  destruct Hu as [Hu|[(_ & u & n & d & y & Hu & Hn & Hd & Hy & Hr)|[Hu _]]]; [done| |vm_compute in Hu; done].
  cbn [juser jname j3 share_job] in Hu, Hn. unfold ts_entry in E1, E4.
  destruct Hu as [->| ->]; [|congruence]. rewrite Hd in E1, E4.
  destruct Hn as [->| ->]; [|congruence]. rewrite Hy in E1. apply negb_true_iff, bool_decide_eq_false in E1. done.
Qed.
Print Assumptions C49_timesharing_refuted.

(** Proved part: the first job under (user, name) is recorded with exactly its resources, later
    ones leave that record alone; no other record changes; hence the resources of the first job
    are usable by every time-sharing job of that user and name. *)
Theorem C49_timesharing_partial : forall env ss j u n,
  WF ss -> job_ok j -> 0 <= walltime j -> jts j = true -> key_is j u n ->
  exists ss', split_slots_jobs env ss [j] true = Ok ss' /\ WF ss' /\
    forall t c, start_time j <= t < start_time j + walltime j -> content_at ss t c ->
    exists c', content_at ss' t c' /\
      ts_entry c' u n = Some (default (res_set j) (ts_entry c u n)) /\
      (forall u' n', (u', n') <> (u, n) -> ts_entry c' u' n' = ts_entry c u' n') /\
      (ts_entry c u n = None -> forall j' r, jts j' = true -> (u = "*"%string \/ u = juser j') ->
         (n = "*"%string \/ n = jname j') -> r ∈ res_set j -> usable_by j' c' r).
Proof.
  intros env ss j u n HW Hj Hw Hts Hk.
  destruct (insert_content env ss j true HW Hj Hw) as (ss' & E & HW' & HC).
  exists ss'. split; [done|]. split; [done|]. intros t c Ht Hc.
  exists (updc env true j c). split; [by apply HC|].
  destruct (sub_content_full _ _ _ _ (updc_sub_full env j c Hj)) as (_ & H & _).
  assert (H1 : ts_entry (updc env true j c) u n = Some (default (res_set j) (ts_entry c u n))).
  { rewrite H. destruct (ts_entry c u n) as [y|] eqn:Ey.
    - rewrite bool_decide_false by (intros (_ & _ & ?); done). done.
    - rewrite bool_decide_true by done. done. }
  split; [done|]. split.
  - intros u' n' Hne. rewrite H. rewrite bool_decide_false; [done|].
    intros (_ & [? ?] & _). destruct Hk. congruence.
  - intros Hnone j' r Hts' Hu Hn Hr. right. left. split; [done|].
    rewrite Hnone in H1. cbn in H1. unfold ts_entry in H1.
    destruct (ts_itvs (updc env true j c) !! u) as [d|] eqn:Ed; [|done].
    exists u, n, d, (res_set j). done.
Qed.
Print Assumptions C49_timesharing_partial.

(** Opening a time-sharing container accumulates its resources under its (user, name). *)
Theorem C49_container_adds : forall env ss j u n,
  WF ss -> job_ok j -> 0 <= walltime j -> jts j = true -> key_is j u n ->
  exists ss', split_slots_jobs env ss [j] false = Ok ss' /\ WF ss' /\
    forall t c, start_time j <= t < start_time j + walltime j -> content_at ss t c ->
    exists c', content_at ss' t c' /\ itvs c' = itvs c /\
      ts_entry c' u n = Some (default ∅ (ts_entry c u n) ∪ res_set j) /\
      (forall u' n', (u', n') <> (u, n) -> ts_entry c' u' n' = ts_entry c u' n').
Proof.
  intros env ss j u n HW Hj Hw Hts Hk.
  destruct (insert_content env ss j false HW Hj Hw) as (ss' & E & HW' & HC).
  exists ss'. split; [done|]. split; [done|]. intros t c Ht Hc.
  exists (updc env false j c). split; [by apply HC|].
  destruct (add_content_full _ _ _ (updc_add_full env j c Hj)) as (H0 & H & _).
  split; [rewrite H0, Hts; done|]. split.
  - rewrite H. rewrite bool_decide_true by done. done.
  - intros u' n' Hne. rewrite H. rewrite bool_decide_false; [done|].
    intros (_ & [? ?]). destruct Hk. congruence.
Qed.
Print Assumptions C49_container_adds.

Example C49_example : WF ex_ss /\ job_ok (share_job 1 (range 1 2)) /\ key_is (share_job 1 (range 1 2)) "*" "*".
Proof.
  split; [exact ex_ss_WF|]. split; [|done]. split; [split; eauto|]. intros [H|H]; vm_compute in H; done.
Qed.

(** * C50: placeholders *)
Definition ph_job (i p : Z) (rs : procset) : job :=
  mkJob i 10 5 rs false None None p (Some "lic"%string) "" "u" "default" "p" [].
Lemma ph_job_ok i p rs : job_ok (ph_job i p rs).
Proof. split; [done|]. intros _. cbn. eauto. Qed.

(** Full statement: the resources of a placeholder job are reserved, during its window, for the
    jobs allowed in that placeholder.  False when two placeholder jobs bear the same name: the
    second replaces the record of the first. *)
Theorem C50_placeholder_refuted : exists env ss j1 j2 j3 ss1 ss2 t r,
  WF ss /\ job_ok j1 /\ job_ok j2 /\
  split_slots_jobs env ss [j1] true = Ok ss1 /\ split_slots_jobs env ss1 [j2] true = Ok ss2 /\
  jph j1 = PLACEHOLDER /\ jph j2 = PLACEHOLDER /\ jph j3 = ALLOW /\
  jph_name j1 = jph_name j3 /\ jph_name j2 = jph_name j3 /\
  start_time j1 <= t < start_time j1 + walltime j1 /\ r ∈ res_set j1 /\
  (forall c, content_at ss1 t c -> usable_by j3 c r) /\
  (forall c, content_at ss2 t c -> ~ usable_by j3 c r).
Proof.
  set (j1 := ph_job 1 PLACEHOLDER (range 1 2)). set (j2 := ph_job 2 PLACEHOLDER (range 3 4)). set (j3 := ph_job 3 ALLOW ∅).
  set (ss1 := from_ok ex_ss (split_slots_jobs ex_env ex_ss [j1] true)).
  set (ss2 := from_ok ex_ss (split_slots_jobs ex_env ss1 [j2] true)).
  exists ex_env, ex_ss, j1, j2, j3, ss1, ss2, 12, 1.
  split; [exact ex_ss_WF|]. split; [apply ph_job_ok|]. split; [apply ph_job_ok|].
  split; [apply from_ok_eq; vm_compute; reflexivity|]. split; [apply from_ok_eq; vm_compute; reflexivity|].
  do 5 (split; [done|]). split; [cbn; lia|]. split; [by_dec|]. split.
  - intros c Hc. right. right. split; [done|]. exists "lic"%string.
    assert (E : match ph_itvs c !! "lic"%string with Some y => bool_decide (1 ∈ y) | None => false end = true).
    { refine (content_at_all ss1 12 (fun c => match ph_itvs c !! "lic"%string with Some y => bool_decide (1 ∈ y) | None => false end) _ c Hc).
      vm_compute. reflexivity. }
    destruct (ph_itvs c !! "lic"%string) as [y|]; [|done]. apply bool_decide_eq_true in E. eauto.
  - intros c Hc Hu.
    assert (E : match ph_itvs c !! "lic"%string with Some y => negb (bool_decide (1 ∈ y)) | None => false end && negb (bool_decide (1 ∈ itvs c)) = true).
    { refine (content_at_all ss2 12 (fun c => match ph_itvs c !! "lic"%string with Some y => negb (bool_decide (1 ∈ y)) | None => false end && negb (bool_decide (1 ∈ itvs c))) _ c Hc).
      vm_compute. reflexivity. }
    rewrite andb_true_iff, negb_true_iff, bool_decide_eq_false in E. destruct E as [E1 E2].
    destruct Hu as [Hu|[[Hu _]|(_ & n & y & Hn & Hy & Hr)]]; [done|done|].
    cbn in Hn. injection Hn as <-. rewrite Hy, negb_true_iff, bool_decide_eq_false in E1. done.
Qed.
Print Assumptions C50_placeholder_refuted.

(** Proved part: the placeholder of that name holds exactly the last inserted placeholder job's
    resources, other placeholders are untouched. *)
Theorem C50_placeholder_partial : forall env ss j n,
  WF ss -> job_ok j -> 0 <= walltime j -> jph j = PLACEHOLDER -> jph_name j = Some n ->
  exists ss', split_slots_jobs env ss [j] true = Ok ss' /\ WF ss' /\
    forall t c, start_time j <= t < start_time j + walltime j -> content_at ss t c ->
    exists c', content_at ss' t c' /\ ph_itvs c' !! n = Some (res_set j) /\
      (forall n', n' <> n -> ph_itvs c' !! n' = ph_itvs c !! n') /\
      (forall j' r, jph j' = ALLOW -> jph_name j' = Some n -> r ∈ res_set j -> usable_by j' c' r) /\
      (forall j' r, plain j' -> r ∈ res_set j -> ~ usable_by j' c' r).
Proof.
  intros env ss j n HW Hj Hw Hp Hn.
  destruct (insert_content env ss j true HW Hj Hw) as (ss' & E & HW' & HC).
  exists ss'. split; [done|]. split; [done|]. intros t c Ht Hc.
  exists (updc env true j c). split; [by apply HC|].
  destruct (sub_content_full _ _ _ _ (updc_sub_full env j c Hj)) as (H0 & _ & H & _).
  assert (H1 : ph_itvs (updc env true j c) !! n = Some (res_set j)).
  { rewrite H. rewrite bool_decide_true by done. done. }
  split; [done|]. split; [|split].
  - intros n' Hne. rewrite H. rewrite !bool_decide_false; [done|intros [? ?]; congruence|intros [? ?]; congruence].
  - intros j' r Ha Hn' Hr. right. right. split; [done|]. exists n, (res_set j). done.
  - intros j' r [P1 P2] Hr [Hu|[[Hu _]|[Hu _]]]; [|congruence|rewrite P2 in Hu; vm_compute in Hu; done].
    rewrite H0 in Hu. apply elem_of_difference in Hu as [_ Hu]. done.
Qed.
Print Assumptions C50_placeholder_partial.

(** An allowed job takes its resources out of its placeholder, so that no other allowed job of that
    placeholder can use them during its window; other placeholders are untouched. *)
Theorem C50_allowed_not_twice : forall env ss j n,
  WF ss -> job_ok j -> 0 <= walltime j -> jph j = ALLOW -> jph_name j = Some n ->
  exists ss', split_slots_jobs env ss [j] true = Ok ss' /\ WF ss' /\
    forall t c, start_time j <= t < start_time j + walltime j -> content_at ss t c ->
    exists c', content_at ss' t c' /\
      (forall n', n' <> n -> ph_itvs c' !! n' = ph_itvs c !! n') /\
      (forall j' r, jts j' = false -> jph j' = ALLOW -> jph_name j' = Some n ->
         (usable_by j' c' r <-> usable_by j' c r /\ r ∉ res_set j)).
Proof.
  intros env ss j n HW Hj Hw Hp Hn.
  destruct (insert_content env ss j true HW Hj Hw) as (ss' & E & HW' & HC).
  exists ss'. split; [done|]. split; [done|]. intros t c Ht Hc.
  exists (updc env true j c). split; [by apply HC|].
  destruct (sub_content_full _ _ _ _ (updc_sub_full env j c Hj)) as (H0 & _ & H & _).
  assert (HP : ALLOW <> PLACEHOLDER) by (vm_compute; done).
  assert (H1 : forall n', n' <> n -> ph_itvs (updc env true j c) !! n' = ph_itvs c !! n').
  { intros n' Hne. rewrite H. rewrite !bool_decide_false; [done|intros [? ?]; congruence|intros [? ?]; congruence]. }
  assert (H2 : ph_itvs (updc env true j c) !! n = (fun y => y ∖ res_set j) <$> ph_itvs c !! n).
  { rewrite H. rewrite bool_decide_false, bool_decide_true by (done || intros [? ?]; congruence). done. }
  split; [done|]. intros j' r Hts Ha Hn'. unfold usable_by, shared_with, placeholder_for.
  rewrite H0, Hts, Hn'. split.
  - intros [Hu|[[Hu _]|(_ & n0 & y & [= <-] & Hy & Hr)]]; [|done|].
    + apply elem_of_difference in Hu as [Hu1 Hu2]. auto.
    + rewrite H2 in Hy. destruct (ph_itvs c !! n) as [y0|] eqn:Ey0; [|done]. cbn in Hy. injection Hy as <-.
      apply elem_of_difference in Hr as [Hr1 Hr2]. split; [|done]. right. right. split; [done|]. exists n, y0. done.
  - intros [[Hu|[[Hu _]|(_ & n0 & y & [= <-] & Hy & Hr)]] Hnr]; [|done|].
    + left. apply elem_of_difference. auto.
    + right. right. split; [done|]. exists n, (y ∖ res_set j). split; [done|]. rewrite H2, Hy. split; [done|].
      apply elem_of_difference. auto.
Qed.
Print Assumptions C50_allowed_not_twice.

Example C50_example : WF ex_ss /\ job_ok (ph_job 1 PLACEHOLDER (range 1 2)) /\ job_ok (ph_job 2 ALLOW (range 1 1)) /\
  exists ss1 ss2, split_slots_jobs ex_env ex_ss [ph_job 1 PLACEHOLDER (range 1 2)] true = Ok ss1 /\
    split_slots_jobs ex_env ss1 [ph_job 2 ALLOW (range 1 1)] true = Ok ss2.
Proof.
  split; [exact ex_ss_WF|]. split; [apply ph_job_ok|]. split; [apply ph_job_ok|].
  set (ss1 := from_ok ex_ss (split_slots_jobs ex_env ex_ss [ph_job 1 PLACEHOLDER (range 1 2)] true)).
  set (ss2 := from_ok ex_ss (split_slots_jobs ex_env ss1 [ph_job 2 ALLOW (range 1 1)] true)).
  exists ss1, ss2. split; apply from_ok_eq; vm_compute; reflexivity.
Qed.

(** * C51: the quota counters of the slots follow the jobs inserted *)
Theorem C51_slot_counters : forall env ss j,
  WF ss -> job_ok j -> 0 <= walltime j ->
  exists ss', split_slots_jobs env ss [j] true = Ok ss' /\ WF ss' /\
    forall t c, start_time j <= t < start_time j + walltime j -> content_at ss t c ->
    exists c', content_at ss' t c' /\ quotas_rules_id c' = quotas_rules_id c /\
      quotas c' = (if has_type "container" j then quotas c else q_update env j <$> quotas c).
Proof.
  intros env ss j HW Hj Hw.
  destruct (insert_content env ss j true HW Hj Hw) as (ss' & E & HW' & HC).
  exists ss'. split; [done|]. split; [done|]. intros t c Ht Hc.
  exists (updc env true j c). split; [by apply HC|].
  destruct (sub_content_full _ _ _ _ (updc_sub_full env j c Hj)) as (_ & _ & _ & H & H'). done.
Qed.
Print Assumptions C51_slot_counters.
