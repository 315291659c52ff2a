(** Property theorems about the loading of already scheduled jobs (C06, C52-C55). *)
From Verif Require Import Base SlotModel SlotSpec SlotProofs SlotJobs SlotLookup SlotOps SlotCheck SlotProps LoadModel LoadProofs.

(** * C52: a scheduled job is loaded with exactly its start, walltime and resources *)
Theorem C52_loaded_jobs : forall i2o suspendable logs sec now rows,
  Forall (fun x => d_id (g_job x) <> 0) rows -> consistent rows -> StronglySorted row_le rows ->
  let out := extract_scheduled_jobs i2o suspendable logs sec now rows in
  NoDup (jid <$> out) /\
  (forall i, i ∈ jid <$> out <-> exists x, x ∈ rows /\ d_id (g_job x) = i) /\
  (forall x k, x ∈ rows -> k ∈ out -> jid k = d_id (g_job x) ->
     start_time k = g_start x /\
     walltime k = g_wall x + sec + (if d_suspended (g_job x) then suspended_sum logs (jid k) now else 0) /\
     jtypes k = jtypes (d_tmpl (g_job x)) /\
     (forall r, r ∈ res_set k -> exists y, y ∈ rows /\ d_id (g_job y) = jid k /\ r = i2o (g_rid y)) /\
     (forall y, y ∈ rows -> d_id (g_job y) = jid k ->
        d_state (g_job x) <> "Suspended"%string \/ i2o (g_rid y) ∉ suspendable -> i2o (g_rid y) ∈ res_set k)).
Proof.
  intros i2o suspendable logs sec now rows Hnz Hc Hs out.
  destruct (extract_spec i2o logs sec now suspendable rows Hnz Hc Hs) as (L & EL & Hnd & Hall & Hspec).
  assert (Hid : jid <$> out = d_id ∘ fst <$> L).
  { unfold out. rewrite EL, <- list_fmap_compose. apply list_fmap_ext. intros n [e k] Hn. cbn.
    destruct (Hspec n e k Hn) as (x & _ & <- & ->). done. }
  assert (Hin : forall k, k ∈ out -> exists n e, L !! n = Some (e, k)).
  { intros k Hk. unfold out in Hk. rewrite EL in Hk. apply elem_of_list_fmap in Hk as ([e k'] & -> & Hk).
    apply elem_of_list_lookup in Hk as [n Hn]. eauto. }
  split; [by rewrite Hid|]. split.
  - intros i. rewrite Hid. split.
    + intros Hi. apply elem_of_list_fmap in Hi as ([e k] & -> & Hk). apply elem_of_list_lookup in Hk as [n Hn].
      destruct (Hspec n e k Hn) as (x & Hx & <- & _). eauto.
    + intros (x & Hx & <-). auto.
  - intros x k Hx Hk Hxk. destruct (Hin k Hk) as (n & e & Hn).
    destruct (Hspec n e k Hn) as (x' & Hx' & He & Ek).
    assert (Hkid : jid k = d_id e) by (rewrite Ek, <- He; done).
    destruct (Hc x' x Hx' Hx) as (Hj & Hst & Hw); [rewrite He; congruence|].
    split; [rewrite Ek; cbn; done|]. split.
    { rewrite Hkid, Ek. cbn. rewrite <- Hj, He. congruence. }
    split; [rewrite Ek, <- Hj; done|].
    assert (Hrs : res_set k = if bool_decide (S n = length L ∧ d_state e = "Suspended"%string)
              then rows_res i2o (d_id e) rows ∖ suspendable else rows_res i2o (d_id e) rows) by (rewrite Ek; done).
    split.
    + intros r Hr. rewrite Hkid. apply elem_rows_res. rewrite Hrs in Hr.
      destruct (bool_decide _); [by apply elem_of_difference in Hr as [? _]|done].
    + intros y Hy Hyi Hor. rewrite Hrs.
      assert (Hm : i2o (g_rid y) ∈ rows_res i2o (d_id e) rows) by (apply elem_rows_res; exists y; split; [done|]; split; congruence).
      case_bool_decide as Hb; [|done]. destruct Hb as [_ Hb]. apply elem_of_difference. split; [done|].
      destruct Hor as [Hor|Hor]; [|done]. congruence.
Qed.
Print Assumptions C52_loaded_jobs.

(** The suspended time used above: the sum of the durations (never counted negative) of the
    Suspended and Resuming entries of the job's history, an entry still open lasting until now. *)
Definition entry_time (now : Z) (l : slog) : Z :=
  Z.max 0 ((if l_stop l =? 0 then now else l_stop l) - l_start l).
Theorem C52_suspended_time : forall logs i now,
  suspended_sum logs i now =
  foldr Z.add 0 (entry_time now <$>
    base.filter (fun l => l_job l = i /\ (l_state l = "Suspended"%string \/ l_state l = "Resuming"%string)) logs).
Proof.
  intros logs i now. unfold suspended_sum.
  enough (H : forall acc, fold_left (fun acc l =>
      if (l_job l =? i) && (bool_decide (l_state l = "Suspended"%string) || bool_decide (l_state l = "Resuming"%string)) then
        let d := if l_stop l =? 0 then now - l_start l else l_stop l - l_start l in
        if 0 <? d then acc + d else acc
      else acc) logs acc = acc + foldr Z.add 0 (entry_time now <$>
    base.filter (fun l => l_job l = i /\ (l_state l = "Suspended"%string \/ l_state l = "Resuming"%string)) logs)).
  { rewrite H. lia. }
  induction logs as [|l logs IH]; intros acc; cbn [fold_left]; [rewrite filter_nil; cbn; lia|].
  rewrite IH. destruct (decide (l_job l = i /\ (l_state l = "Suspended"%string \/ l_state l = "Resuming"%string))) as [H|H].
  - rewrite filter_cons_True by done. cbn [fmap list_fmap foldr]. destruct H as [-> H].
    rewrite Z.eqb_refl.
    replace (bool_decide (l_state l = "Suspended"%string) || bool_decide (l_state l = "Resuming"%string)) with true
      by (symmetry; apply orb_true_iff; rewrite !bool_decide_eq_true; done).
    cbn [andb]. cbn zeta. unfold entry_time. destruct (l_stop l =? 0); destruct (0 <? _) eqn:E; lia.
  - rewrite filter_cons_False by done.
    destruct ((l_job l =? i) && (bool_decide (l_state l = "Suspended"%string) || bool_decide (l_state l = "Resuming"%string))) eqn:E; [|done].
    exfalso. apply H. apply andb_true_iff in E as [E1 E2]. apply orb_true_iff in E2. rewrite !bool_decide_eq_true in E2.
    split; [lia|done].
Qed.
Print Assumptions C52_suspended_time.
Example C52_suspended_time_example :
  suspended_sum [mkSlog 1 "Suspended" 10 15; mkSlog 1 "Running" 15 30; mkSlog 1 "Suspended" 30 0; mkSlog 1 "Resuming" 9 8; mkSlog 2 "Suspended" 0 7] 1 50 = 25.
Proof. vm_compute. reflexivity. Qed.

Definition ex_db (i st : Z) (state : string) (susp : bool) (ty : list (string * string)) : dbjob :=
  mkDbjob (mkJob i 0 0 ∅ false None None 0 None "" "u" "default" "p" ty) st state susp.
Definition ex_rows : list grow :=
  [mkGrow (ex_db 3 0 "Waiting" false []) 40 10 1; mkGrow (ex_db 3 0 "Waiting" false []) 40 10 2;
   mkGrow (ex_db 2 7 "Running" false []) 7 30 3; mkGrow (ex_db 2 7 "Running" false []) 7 30 4].

Lemma row_le_trans a b c : row_le a b -> row_le b c -> row_le a c.
Proof. unfold row_le. lia. Qed.
Lemma sorted_rows_check rows : Sorted row_le rows -> StronglySorted row_le rows.
Proof. apply Sorted_StronglySorted. intros a b c. apply row_le_trans. Qed.

Example C52_example : Forall (fun x => d_id (g_job x) <> 0) ex_rows /\ consistent ex_rows /\ StronglySorted row_le ex_rows /\
  length (extract_scheduled_jobs id ∅ [] 1 0 ex_rows) = 2%nat.
Proof.
  split; [repeat constructor; cbn; lia|]. split.
  - intros x y Hx Hy Hid. unfold ex_rows in *. rewrite !elem_of_cons, elem_of_nil in Hx, Hy.
    destruct Hx as [->|[->|[->|[->|[]]]]], Hy as [->|[->|[->|[->|[]]]]]; cbn in Hid; try lia; done.
  - split; [|done]. apply sorted_rows_check. repeat constructor; unfold row_le; cbn; lia.
Qed.

(** * C53: suspended jobs release their suspendable resources *)
(** Full statement: a job in state Suspended is loaded without its suspendable resources.  False:
    the release is only done for the last job of the list. *)
Theorem C53_suspended_release_refuted : exists i2o suspendable logs sec now rows k x r,
  Forall (fun x => d_id (g_job x) <> 0) rows /\ consistent rows /\ StronglySorted row_le rows /\
  k ∈ extract_scheduled_jobs i2o suspendable logs sec now rows /\
  x ∈ rows /\ jid k = d_id (g_job x) /\ d_state (g_job x) = "Suspended"%string /\
  r ∈ suspendable /\ r ∈ res_set k.
Proof.
  set (rows := [mkGrow (ex_db 1 5 "Suspended" true []) 5 30 1; mkGrow (ex_db 2 7 "Running" false []) 7 30 2]).
  assert (Hnz : Forall (fun x => d_id (g_job x) <> 0) rows) by (repeat constructor; cbn; lia).
  assert (Hc : consistent rows).
  { intros x y Hx Hy Hid. unfold rows in *. rewrite !elem_of_cons, elem_of_nil in Hx, Hy.
    destruct Hx as [->|[->|[]]], Hy as [->|[->|[]]]; cbn in Hid; try lia; done. }
  assert (Hs : StronglySorted row_le rows).
  { apply sorted_rows_check. repeat constructor; unfold row_le; cbn; lia. }
  exists id, (range 1 8), [], 0, 0, rows,
    (with_res (begin_job [] 0 0 (mkGrow (ex_db 1 5 "Suspended" true []) 5 30 1)) (list_to_set [1])),
    (mkGrow (ex_db 1 5 "Suspended" true []) 5 30 1), 1.
  do 3 (split; [done|]). split; [left|]. split; [left|]. split; [done|]. split; [done|]. split; by_dec.
Qed.
Print Assumptions C53_suspended_release_refuted.

(** Proved part: it holds for the last job of the list (and the converse for all jobs: nothing but
    suspendable resources of a suspended job is ever left out, C52). *)
Theorem C53_suspended_release_partial : forall i2o suspendable logs sec now rows k x,
  Forall (fun x => d_id (g_job x) <> 0) rows -> consistent rows -> StronglySorted row_le rows ->
  last (extract_scheduled_jobs i2o suspendable logs sec now rows) = Some k ->
  x ∈ rows -> jid k = d_id (g_job x) -> d_state (g_job x) = "Suspended"%string ->
  forall r, r ∈ res_set k <->
    r ∉ suspendable /\ exists y, y ∈ rows /\ d_id (g_job y) = jid k /\ r = i2o (g_rid y).
Proof.
  intros i2o suspendable logs sec now rows k x Hnz Hc Hs Hl Hx Hkx Hsus r.
  destruct (extract_spec i2o logs sec now suspendable rows Hnz Hc Hs) as (L & EL & Hnd & Hall & Hspec).
  rewrite EL in Hl. rewrite last_lookup in Hl.
  rewrite list_lookup_fmap in Hl. destruct (L !! _) as [[e k']|] eqn:En; [|done]. cbn in Hl. injection Hl as ->.
  rewrite fmap_length in En. destruct (Hspec _ e k En) as (x' & Hx' & He & Ek).
  assert (Hkid : jid k = d_id e) by (rewrite Ek, <- He; done).
  destruct (Hc x' x Hx' Hx) as (Hj & _); [rewrite He; congruence|].
  assert (Hrs : res_set k = rows_res i2o (d_id e) rows ∖ suspendable).
  { rewrite Ek. cbn [res_set with_res with_sched]. rewrite bool_decide_true; [done|].
    split; [|rewrite <- He, Hj; done]. apply lookup_lt_Some in En. lia. }
  rewrite Hrs, elem_of_difference, elem_rows_res, Hkid. tauto.
Qed.
Print Assumptions C53_suspended_release_partial.

Example C53_example :
  last (extract_scheduled_jobs id (range 1 1) [] 0 0
    [mkGrow (ex_db 1 5 "Suspended" true []) 5 30 1; mkGrow (ex_db 1 5 "Suspended" true []) 5 30 2]) =
  Some (with_res (begin_job [] 0 0 (mkGrow (ex_db 1 5 "Suspended" true []) 5 30 1)) (list_to_set [1; 2] ∖ range 1 1)).
Proof. reflexivity. Qed.

(** * C06: insertion of the scheduled jobs in any order *)
(** Full statement: for the jobs read by get_scheduled_jobs, whatever the table, loading succeeds and
    every loaded job blocks its resources.  False in two ways: the table is ordered by
    jobs.start_time, which is 0 for all jobs not yet started, not by the predicted start. *)
Definition c06_rows (st2 w2 : Z) : list grow :=
  [mkGrow (ex_db 1 0 "Waiting" false []) 10 5 1; mkGrow (ex_db 2 0 "Waiting" false []) st2 w2 2].
Lemma c06_rows_ok st2 w2 :
  Forall (fun x => d_id (g_job x) <> 0) (c06_rows st2 w2) /\ consistent (c06_rows st2 w2) /\ StronglySorted row_le (c06_rows st2 w2).
Proof.
  split; [repeat constructor; cbn; lia|]. split.
  - intros x y Hx Hy Hid. unfold c06_rows in *. rewrite !elem_of_cons, elem_of_nil in Hx, Hy.
    destruct Hx as [->|[->|[]]], Hy as [->|[->|[]]]; cbn in Hid; try lia; done.
  - apply sorted_rows_check. repeat constructor; unfold row_le; cbn; lia.
Qed.

(** The scheduler crashes: job 1 predicted at 10, job 2 predicted at 2 for 3 seconds. *)
Theorem C06_any_order_refuted_crash : exists env sss rows idstr,
  Forall (fun x => d_id (g_job x) <> 0) rows /\ consistent rows /\ StronglySorted row_le rows /\
  (exists ss, sss = [("default"%string, ss)] /\ WF ss) /\
  set_slots_with_prev env idstr 0 0 true false false sss
    (extract_scheduled_jobs id ∅ [] 0 0 rows) = Err EAssert.
Proof.
  exists ex_env, [("default"%string, ex_ss)], (c06_rows 2 3), (fun _ => ""%string).
  destruct (c06_rows_ok 2 3) as (H1 & H2 & H3). do 3 (split; [done|]).
  split; [exists ex_ss; split; [done|exact ex_ss_WF]|].
  apply is_err_eq. vm_compute. reflexivity.
Qed.
Print Assumptions C06_any_order_refuted_crash.

(** Or silently forgets: job 2 predicted at 2 for 20 seconds, its resource is still free at 5. *)
Theorem C06_any_order_refuted_silent : exists env ss rows idstr ss' k t r,
  Forall (fun x => d_id (g_job x) <> 0) rows /\ consistent rows /\ StronglySorted row_le rows /\ WF ss /\
  set_slots_with_prev env idstr 0 0 true false false [("default"%string, ss)]
    (extract_scheduled_jobs id ∅ [] 0 0 rows) = Ok [("default"%string, ss')] /\
  k ∈ extract_scheduled_jobs id ∅ [] 0 0 rows /\
  start_time k <= t < start_time k + walltime k /\ r ∈ res_set k /\ free_at ss' t r.
Proof.
  set (jobs := extract_scheduled_jobs id ∅ [] 0 0 (c06_rows 2 20)).
  set (ss' := from_ok ex_ss (split_slots_jobs ex_env ex_ss jobs true)).
  exists ex_env, ex_ss, (c06_rows 2 20), (fun _ => ""%string), ss',
    (with_res (begin_job [] 0 0 (mkGrow (ex_db 2 0 "Waiting" false []) 2 20 2)) (list_to_set [2])), 5, 2.
  destruct (c06_rows_ok 2 20) as (H1 & H2 & H3). do 3 (split; [done|]). split; [exact ex_ss_WF|].
  assert (E : split_slots_jobs ex_env ex_ss jobs true = Ok ss') by (apply from_ok_eq; vm_compute; reflexivity).
  split.
  { fold jobs. unfold set_slots_with_prev.
    assert (EL : load_containers ex_env (fun _ => ""%string) 0 0 true false false jobs [("default"%string, ex_ss)] [] =
      Ok ([("default"%string, ex_ss)], (fun j => ("default"%string, j)) <$> jobs)) by reflexivity.
    rewrite EL. cbn [rbind load_jobs].
    assert (EJ : jobs_of "default" ((fun j => ("default"%string, j)) <$> jobs) = jobs) by reflexivity.
    rewrite EJ, E. reflexivity. }
  split; [right; left|]. split; [cbn; lia|]. split; [by_dec|]. apply free_b_true. vm_compute. reflexivity.
Qed.
Print Assumptions C06_any_order_refuted_silent.

(** Proved part 1: jobs of the default slot set listed by increasing predicted start. *)
Lemma load_plain env idstr sec now q jobs : forall sss todo,
  Forall (fun j => has_type "container" j = false /\ has_type "besteffort" j = false /\
                   type_value "inner" (jtypes j) = None) jobs ->
  load_containers env idstr sec now true false q jobs sss todo =
  Ok (sss, todo ++ ((fun j => ("default"%string, j)) <$> jobs)).
Proof.
  induction jobs as [|j jobs IH]; intros sss todo H; cbn [load_containers].
  - by rewrite app_nil_r.
  - apply Forall_cons in H as [(H1 & H2 & H3) H]. rewrite H1, H2, H3. cbn [negb andb orb rbind default].
    rewrite IH by done. rewrite <- app_assoc. done.
Qed.
Lemma jobs_of_default jobs : jobs_of "default" ((fun j => ("default"%string, j)) <$> jobs) = jobs.
Proof.
  unfold jobs_of. induction jobs as [|j jobs IH]; [done|]. rewrite fmap_cons, filter_cons_True by done.
  rewrite fmap_cons, IH. done.
Qed.

Theorem C06_sorted_partial : forall env idstr sec now q ss jobs,
  WF ss -> Forall job_ok jobs -> Forall (fun j => 0 <= walltime j) jobs ->
  Forall (fun j => has_type "container" j = false /\ has_type "besteffort" j = false /\
                   type_value "inner" (jtypes j) = None) jobs ->
  StronglySorted (fun a b => start_time a <= start_time b) jobs ->
  exists ss', set_slots_with_prev env idstr sec now true false q [("default"%string, ss)] jobs =
                Ok [("default"%string, ss')] /\ WF ss' /\
    (forall t r, free_at ss' t r ->
       free_at ss t r /\
       forall j, j ∈ jobs -> start_time j <= t < start_time j + walltime j -> r ∉ res_set j) /\
    (forall t r, free_at ss t r ->
       (forall j, j ∈ jobs -> start_time j <= t <= start_time j + walltime j -> r ∉ res_set j) ->
       free_at ss' t r).
Proof.
  intros env idstr sec now q ss jobs HW Hok Hw Hp Hs.
  destruct (insert_jobs_free env jobs ss HW Hok Hw Hs) as (ss' & E & HW' & _ & _ & H1 & H2).
  exists ss'. split; [|done]. unfold set_slots_with_prev. rewrite load_plain by done. cbn [app rbind load_jobs].
  rewrite jobs_of_default, E. done.
Qed.
Print Assumptions C06_sorted_partial.

(** Proved part 2: any order is fine when the jobs are inserted by one call each. *)
Theorem C06_one_by_one_partial : forall env jobs ss,
  WF ss -> Forall job_ok jobs -> Forall (fun j => 0 <= walltime j) jobs ->
  exists ss', insert_each env ss jobs = Ok ss' /\ WF ss' /\
    (forall t r, free_at ss' t r ->
       free_at ss t r /\
       forall j, j ∈ jobs -> start_time j <= t < start_time j + walltime j -> r ∉ res_set j) /\
    (forall t r, free_at ss t r ->
       (forall j, j ∈ jobs -> start_time j <= t <= start_time j + walltime j -> r ∉ res_set j) ->
       free_at ss' t r).
Proof. exact insert_each_free. Qed.
Print Assumptions C06_one_by_one_partial.

Example C06_example : Forall (fun j => has_type "container" j = false /\ has_type "besteffort" j = false /\
                   type_value "inner" (jtypes j) = None) [ex_job 1 5 10 (range 1 4); ex_job 2 10 10 (range 5 6)] /\
  StronglySorted (fun a b => start_time a <= start_time b) [ex_job 1 5 10 (range 1 4); ex_job 2 10 10 (range 5 6)].
Proof. split; repeat constructor; cbn; lia. Qed.

(** * C54: containers *)
(** Full statement: the slot set of a container offers the container's resources only while the
    container runs.  False for a container already running: its start is moved to now but its
    walltime is not shortened. *)
Definition ex_cont (ts : bool) : job :=
  mkJob 7 0 20 (range 1 2) ts (if ts then Some "*"%string else None) (if ts then Some "*"%string else None)
    0 None "" "u" "default" "p" [("container"%string, ""%string)].

Theorem C54_container_refuted : exists env ss idstr now j sss' ss' t r,
  WF ss /\ has_type "container" j = true /\ plain j /\ job_ok j /\
  set_slots_with_prev env idstr 0 now true false false [("default"%string, ss)] [j] = Ok sss' /\
  ss_get (container_name idstr j) sss' = Some ss' /\
  start_time j + walltime j < t /\ free_at ss' t r.
Proof.
  set (inner := from_ok ex_ss (split_slots_jobs ex_env (ss_of_pair false ∅ 1) [container_pseudo (ex_cont false) 0 15] false)).
  set (dft := from_ok ex_ss (split_slots_jobs ex_env ex_ss [ex_cont false] true)).
  exists ex_env, ex_ss, (fun _ => "7"%string), 15, (ex_cont false), [("default"%string, dft); ("7"%string, inner)], inner, 30, 1.
  split; [exact ex_ss_WF|]. split; [done|]. split; [done|].
  split; [split; [done|]; intros [H|H]; vm_compute in H; done|].
  assert (E1 : split_slots_jobs ex_env (ss_of_pair false ∅ 1) [container_pseudo (ex_cont false) 0 15] false = Ok inner)
    by (apply from_ok_eq; vm_compute; reflexivity).
  assert (E2 : split_slots_jobs ex_env ex_ss [ex_cont false] true = Ok dft) by (apply from_ok_eq; vm_compute; reflexivity).
  split.
  { unfold set_slots_with_prev. cbn [load_containers].
    change (has_type "besteffort" (ex_cont false)) with false. change (has_type "container" (ex_cont false)) with true.
    cbn [negb andb orb]. change (container_name (fun _ => "7"%string) (ex_cont false)) with "7"%string.
    change (ss_get "7" [("default"%string, ex_ss)]) with (@None slotset). cbn [app].
    change (ss_get "7" [("default"%string, ex_ss); ("7"%string, ss_of_pair false ∅ 1)]) with (Some (ss_of_pair false ∅ 1)).
    cbv iota beta. rewrite E1. cbn [rbind].
    change (ss_set "7" inner [("default"%string, ex_ss); ("7"%string, ss_of_pair false ∅ 1)]) with [("default"%string, ex_ss); ("7"%string, inner)].
    cbn [load_jobs]. 
    change (jobs_of "default" [(default "default"%string (type_value "inner" (jtypes (ex_cont false))), ex_cont false)]) with [ex_cont false].
    rewrite E2. reflexivity. }
  split; [done|]. split; [cbn; lia|]. apply free_b_true. vm_compute. reflexivity.
Qed.
Print Assumptions C54_container_refuted.

(** A time-sharing container makes the scheduler crash. *)
Theorem C54_timesharing_container_refuted : exists env ss idstr now j,
  WF ss /\ has_type "container" j = true /\ job_ok j /\
  set_slots_with_prev env idstr 0 now true false false [("default"%string, ss)] [j] = Err EAttr.
Proof.
  exists ex_env, ex_ss, (fun _ => "7"%string), 0, (ex_cont true).
  split; [exact ex_ss_WF|]. split; [done|]. split; [split; [intros _; split; cbn; eauto|intros [H|H]; vm_compute in H; done]|].
  apply is_err_eq. vm_compute. reflexivity.
Qed.
Print Assumptions C54_timesharing_container_refuted.

(** Proved part: a plain container that is not yet running opens its slot set exactly from its
    start to its end minus the security time. *)
Theorem C54_container_partial : forall env idstr sec now q ss j n,
  WF ss -> plain j -> has_type "container" j = true -> has_type "besteffort" j = false ->
  type_value "inner" (jtypes j) = None ->
  container_name idstr j = n -> n <> "default"%string ->
  now <= start_time j -> 1 <= start_time j -> 1 <= walltime j - sec -> 0 <= sec ->
  start_time j + walltime j - sec < MAX_TIME ->
  exists dft inner, set_slots_with_prev env idstr sec now true false q [("default"%string, ss)] [j] =
      Ok [("default"%string, dft); (n, inner)] /\ WF dft /\ WF inner /\
    (forall t r, free_at inner t r <-> r ∈ res_set j /\ start_time j <= t < start_time j + walltime j - sec) /\
    (forall t r, r ∈ res_set j -> start_time j <= t < start_time j + walltime j -> ~ free_at dft t r).
Proof.
  intros env idstr sec now q ss j n HW [Hts Hph] Hcont Hbe Hin Hn Hdn Hnow H1 Hw Hsec Hmax.
  assert (Hj : job_ok j).
  { unfold job_ok. rewrite Hts, Hph. split; [done|]. intros [H|H]; vm_compute in H; done. }
  destruct (C03_insert_job env ss j HW Hj) as (dft & E2 & HW2 & _ & _ & Hb2 & _ & _); [lia|].
  set (p := container_pseudo j sec now).
  assert (Hp : start_time p = start_time j /\ walltime p = walltime j - sec /\ res_set p = res_set j /\ jts p = false /\ jph p = 0).
  { unfold p, container_pseudo. cbn. rewrite Hts. replace (start_time j <? now) with false by lia. done. }
  destruct Hp as (P1 & P2 & P3 & P4 & P5).
  assert (Hpk : job_ok p).
  { unfold job_ok. rewrite P4, P5. split; [done|]. intros [H|H]; vm_compute in H; done. }
  set (s0 := ss_of_pair q ∅ 1). assert (HW0 : WF s0) by (apply ss_of_pair_wf; unfold MAX_TIME; lia).
  assert (Hs0 : forall k x, slots s0 !! k = Some x -> se x = MAX_TIME /\ sb x = 1 /\ itvs (cont x) = ∅).
  { intros k x Hx. unfold s0, ss_of_pair in Hx. cbn [slots] in Hx. apply lookup_singleton_Some in Hx as [_ <-]. done. }
  destruct (split_slots_jobs_one env false p s0 HW0 Hpk) as (inner & h & E1 & HW1 & _ & _ & _ & Hh & HC); [lia|].
  specialize (Hh ltac:(lia)). rewrite P1, P2 in Hh.
  specialize (Hh ltac:(change (begin_ s0) with 1; lia)).
  specialize (Hh ltac:(intros k x Hx; apply Hs0 in Hx; lia)).
  exists dft, inner. split; [|split; [done|split; [done|split]]].
  - unfold set_slots_with_prev. cbn [load_containers]. rewrite Hbe, Hcont, Hn, Hin.
    cbn [negb andb orb ss_get]. rewrite bool_decide_false by done. cbn [app ss_get]. rewrite bool_decide_false by done.
    rewrite bool_decide_true by done. fold s0 p. rewrite E1. cbn [rbind ss_set]. rewrite bool_decide_false by done.
    rewrite bool_decide_true by done. cbn [default load_containers rbind app load_jobs].
    change (jobs_of "default" [("default"%string, j)]) with [j]. rewrite bool_decide_true by done. cbn [orb].
    rewrite E2. cbn [rbind]. rewrite bool_decide_false by done. unfold jobs_of.
    rewrite filter_cons_False by (cbn; congruence). rewrite filter_nil. done.
  - intros t r. unfold free_at. setoid_rewrite HC. unfold occ_end in Hh. rewrite P1, P2 in Hh. rewrite P1, Hh.
    assert (Hadd : forall c, itvs (updc env false p c) = itvs c ∪ res_set j).
    { intros c. rewrite updc_add_itvs by done. rewrite P4, P5, P3. done. }
    split.
    + intros (c' & (c & (k & x & Hx & Hxt & <-) & ->) & Hr). apply Hs0 in Hx as (_ & _ & Hx).
      destruct ((start_time j <=? t) && (t <=? start_time j + (walltime j - sec) - 1)) eqn:E.
      * rewrite Hadd, Hx in Hr. apply elem_of_union in Hr as [Hr|Hr]; [by apply not_elem_of_empty in Hr|]. split; [done|lia].
      * rewrite Hx in Hr. by apply not_elem_of_empty in Hr.
    + intros [Hr Ht]. exists (updc env false p (fresh_content q ∅)). split.
      * exists (fresh_content q ∅). split.
        -- exists 1, (mkSlot 1 0 0 1 MAX_TIME (fresh_content q ∅)). split; [apply lookup_singleton|]. cbn [sb se cont]. split; [lia|done].
        -- replace (_ && _) with true by lia. done.
      * rewrite Hadd. apply elem_of_union. auto.
  - intros t r Hr Ht. apply Hb2; done.
Qed.
Print Assumptions C54_container_partial.

Example C54_example : let j := mkJob 7 30 20 (range 1 2) false None None 0 None "" "u" "default" "p" [("container"%string, ""%string)] in
  plain j /\ has_type "container" j = true /\ has_type "besteffort" j = false /\ type_value "inner" (jtypes j) = None /\
  container_name (fun _ => "7"%string) j = "7"%string.
Proof. done. Qed.

(** * C55: a resource is never offered after the date until which it is available *)
Theorem C55_available_upto : forall env ss (l : list (Z * procset)),
  WF ss -> Forall (fun p => fst p <= MAX_TIME) l ->
  StronglySorted (fun a b => fst a <= fst b) l ->
  exists ss', split_slots_jobs env ss (avail_pseudo <$> l) true = Ok ss' /\ WF ss' /\
    (forall d x t r, (d, x) ∈ l -> r ∈ x -> d <= t < MAX_TIME -> ~ free_at ss' t r) /\
    (forall t r, t <= MAX_TIME -> free_at ss t r -> (forall d x, (d, x) ∈ l -> r ∈ x -> t < d) -> free_at ss' t r).
Proof.
  intros env ss l HW Hle Hs.
  destruct (insert_jobs_free env (avail_pseudo <$> l) ss HW) as (ss' & E & HW' & _ & _ & H1 & H2).
  - apply Forall_fmap, Forall_forall. intros p _. split; [done|]. cbn. intros [H|H]; vm_compute in H; done.
  - apply Forall_fmap. eapply Forall_impl; [exact Hle|]. intros [d x]. cbn. lia.
  - clear -Hs. induction Hs as [|a l Hs IH HF]; [constructor|]. rewrite fmap_cons. constructor; [done|].
    apply Forall_fmap. eapply Forall_impl; [exact HF|]. intros p Hp. exact Hp.
  - exists ss'. split; [done|]. split; [done|]. split.
    + intros d x t r Hd Hr Ht Hf. apply H1 in Hf as [_ Hf].
      apply (Hf (avail_pseudo (d, x))); [apply elem_of_list_fmap; eauto| |done].
      cbn [start_time walltime avail_pseudo fst]. lia.
    + intros t r Hmx Hf Hall. apply H2; [done|]. intros j Hj Ht.
      apply elem_of_list_fmap in Hj as ([d x] & -> & Hd). cbn [start_time walltime res_set avail_pseudo fst snd] in Ht |- *. intros Hr. specialize (Hall d x Hd Hr). lia.
Qed.
Print Assumptions C55_available_upto.
Example C55_example : WF ex_ss /\ StronglySorted (fun a b => fst a <= fst b) [(100, range 1 2); (200, range 3 4)].
Proof. split; [exact ex_ss_WF|]. repeat constructor; cbn; lia. Qed.
