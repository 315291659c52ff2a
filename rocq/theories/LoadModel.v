(** Loading of the already scheduled jobs: oar/lib/job_handling.py:398-497 and
    set_slots_with_prev_scheduled_jobs, oar/kao/scheduling.py:26-84.  No proofs here. *)
From Verif Require Import Base SlotModel.

(** A row of job_state_logs (job_handling.py:398-421). *)
Record slog := mkSlog { l_job : Z; l_state : string; l_start : Z; l_stop : Z }.

(** get_job_suspended_sum_duration, job_handling.py:398-421. *)
Definition suspended_sum (logs : list slog) (jid now : Z) : Z :=
  fold_left (fun acc l =>
      if (l_job l =? jid) && (bool_decide (l_state l = "Suspended"%string) || bool_decide (l_state l = "Resuming"%string)) then
        let d := if l_stop l =? 0 then now - l_start l else l_stop l - l_start l in
        if 0 <? d then acc + d else acc
      else acc) logs 0.

(** A job as read from the database.  [d_tmpl] holds the attributes that do not depend on the
    schedule (user, queue, types, time-sharing and placeholder data set by get_jobs_types,
    job_handling.py:140-187, which is not modelled further); its start, walltime and resources
    are overwritten.  [d_start] is the column jobs.start_time, used only for ordering. *)
Record dbjob := mkDbjob { d_tmpl : job; d_start : Z; d_state : string; d_suspended : bool }.
Definition d_id (d : dbjob) : Z := jid (d_tmpl d).

(** A row of the query: job, predicted start, walltime, resource id (moldable id not needed). *)
Record grow := mkGrow { g_job : dbjob; g_start : Z; g_wall : Z; g_rid : Z }.

Definition with_sched (j : job) (st w : Z) (rs : procset) : job :=
  mkJob (jid j) st w rs (jts j) (jts_user j) (jts_name j) (jph j) (jph_name j)
        (jname j) (juser j) (jqueue j) (jproject j) (jtypes j).
Definition with_res (j : job) (rs : procset) : job := with_sched j (start_time j) (walltime j) rs.

(** The new current job when the id changes, job_handling.py:445-457. *)
Definition begin_job (logs : list slog) (sec now : Z) (x : grow) : job :=
  let d := g_job x in
  with_sched (d_tmpl d) (g_start x)
    (g_wall x + sec + (if d_suspended d then suspended_sum logs (d_id d) now else 0)) ∅.

(** The loop of extract_scheduled_jobs, job_handling.py:433-462.  [cur]: current job with its
    database row; [prev_jid] is 0 before the first row.  [i2o] is ResourceSet.rid_i2o. *)
Fixpoint extract_loop (i2o : Z -> Z) (logs : list slog) (sec now : Z) (rows : list grow)
    (prev_jid : Z) (cur : option (dbjob * job)) (roids : list Z) (out : list job)
    : option (dbjob * job) * list Z * list job :=
  match rows with
  | [] => (cur, roids, out)
  | x :: rows' =>
      if negb (d_id (g_job x) =? prev_jid) then
        let out' := if negb (prev_jid =? 0)
                    then match cur with Some (_, j) => out ++ [with_res j (list_to_set roids)] | None => out end
                    else out in
        let roids' := if negb (prev_jid =? 0) then [] else roids in
        extract_loop i2o logs sec now rows' (d_id (g_job x)) (Some (g_job x, begin_job logs sec now x))
          (roids' ++ [i2o (g_rid x)]) out'
      else
        extract_loop i2o logs sec now rows' prev_jid cur (roids ++ [i2o (g_rid x)]) out
  end.

(** extract_scheduled_jobs, job_handling.py:424-471: the list of jobs.  The resources of a
    suspended job are released only after the loop, that is for the last job. *)
Definition extract_scheduled_jobs (i2o : Z -> Z) (suspendable : procset) (logs : list slog)
    (sec now : Z) (rows : list grow) : list job :=
  match extract_loop i2o logs sec now rows 0 None [] [] with
  | (Some (d, j), roids, out) =>
      let rs := list_to_set roids in
      out ++ [with_res j (if bool_decide (d_state d = "Suspended"%string) then rs ∖ suspendable else rs)]
  | (None, _, out) => out
  end.

(** ORDER BY jobs.start_time, jobs.job_id (get_scheduled_jobs, job_handling.py:475-497). *)
Definition row_le (a b : grow) : Prop :=
  d_start (g_job a) < d_start (g_job b) \/
  (d_start (g_job a) = d_start (g_job b) /\ d_id (g_job a) <= d_id (g_job b)).

(** Slot sets by name, in insertion order. *)
Notation slotsets := (list (string * slotset)).
Fixpoint ss_get (n : string) (l : slotsets) : option slotset :=
  match l with
  | [] => None
  | (m, s) :: l' => if bool_decide (m = n) then Some s else ss_get n l'
  end.
Fixpoint ss_set (n : string) (v : slotset) (l : slotsets) : slotsets :=
  match l with
  | [] => [(n, v)]
  | (m, s) :: l' => if bool_decide (m = n) then (m, v) :: l' else (m, s) :: ss_set n v l'
  end.

(** [job.types.get(t)] *)
Fixpoint type_value (t : string) (l : list (string * string)) : option string :=
  match l with
  | [] => None
  | (k, v) :: l' => if bool_decide (k = t) then Some v else type_value t l'
  end.

(** The pseudo job that opens a container, scheduling.py:56-68.  [ph=job.ts]: True counts as 1
    (PLACEHOLDER); a JobPseudo has neither ts_user, ts_name nor ph_name. *)
Definition container_pseudo (j : job) (sec now : Z) : job :=
  let st := if start_time j <? now then now else start_time j in
  mkJob 0 st (walltime j - sec) (res_set j) (jts j) None None (if jts j then 1 else 0) None
    "" "" "default" "" [].

(** str(job.id), scheduling.py:46; injective on ids, its exact text does not matter here. *)
Definition container_name (idstr : Z -> string) (j : job) : string :=
  match type_value "container" (jtypes j) with
  | Some v => if bool_decide (v = ""%string) then idstr (jid j) else v
  | None => idstr (jid j)
  end.

(** scheduling.py:36-78 *)
Fixpoint load_containers (env : qenv) (idstr : Z -> string) (sec now : Z) (filter_be only_be q : bool)
    (jobs : list job) (sss : slotsets) (todo : list (string * job)) : res (slotsets * list (string * job)) :=
  match jobs with
  | [] => Ok (sss, todo)
  | j :: jobs' =>
      let be := has_type "besteffort" j in
      if (negb filter_be && be) || (negb only_be && negb be) then
        sss <-- (if has_type "container" j then
                   let n := container_name idstr j in
                   let sss := match ss_get n sss with Some _ => sss | None => sss ++ [(n, ss_of_pair q ∅ 1)] end in
                   match ss_get n sss with
                   | None => Err EKey
                   | Some s =>
                       s' <-- split_slots_jobs env s [container_pseudo j sec now] false ;;
                       Ok (ss_set n s' sss)
                   end
                 else Ok sss) ;;
        let n := default "default"%string (type_value "inner" (jtypes j)) in
        load_containers env idstr sec now filter_be only_be q jobs' sss (todo ++ [(n, j)])
      else load_containers env idstr sec now filter_be only_be q jobs' sss todo
  end.

(** scheduling.py:80-84 *)
Definition jobs_of (n : string) (todo : list (string * job)) : list job :=
  (base.filter (fun p => p.1 = n) todo).*2.

Fixpoint load_jobs (env : qenv) (todo : list (string * job)) (sss : slotsets) : res slotsets :=
  match sss with
  | [] => Ok []
  | (n, s) :: sss' =>
      s' <-- (if bool_decide (n = "default"%string) || negb (bool_decide (jobs_of n todo = []))
              then split_slots_jobs env s (jobs_of n todo) true else Ok s) ;;
      r <-- load_jobs env todo sss' ;;
      Ok ((n, s') :: r)
  end.

Definition set_slots_with_prev (env : qenv) (idstr : Z -> string) (sec now : Z) (filter_be only_be q : bool)
    (sss : slotsets) (jobs : list job) : res slotsets :=
  '(sss, todo) <-- load_containers env idstr sec now filter_be only_be q jobs sss [] ;;
  load_jobs env todo sss.

(** The pseudo jobs of resources that stop being available, kamelot.py:181-196 and
    meta_sched.py:137-157, from the (date, resources) pairs in increasing date. *)
Definition avail_pseudo (p : Z * procset) : job :=
  mkJob 0 (fst p) (MAX_TIME - fst p) (snd p) false None None NO_PLACEHOLDER None "" "" "default" "" [].
