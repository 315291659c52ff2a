(** Resubmission of jobs and treatment of the events: oar/lib/job_handling.py:978-1135 (resubmit_job,
    is_job_already_resubmitted), 1944-1980 (keys), 1988-2001 (hosts of a job), 2125-2165 (end of a killed job),
    oar/modules/node_change_state.py:60-311, oar/lib/event.py, oar/lib/queue.py:46-51.  No proofs here.
    The tables of the requests are those of SubmitModel.  Simplified: the index columns; the descriptions and dates
    of the events; the requests to hold and resume, treated in JobModel; the dates of the state log. *)
From Verif Require Import Base HierarchyModel SubmitModel.

(** The columns of the table jobs that SubmitModel leaves out (models.py:368-406), one row per job; [x_rest] stands
    for those that resubmit_job does not read or change (name, directory, project, queue, ...). *)
Record ext := mkExt { x_job : Z; x_user : string; x_type : string; x_sub : Z; x_start : Z; x_stop : Z; x_acc : string;
  x_susp : string; x_mld : Z; x_exit : option Z; x_of : Z; x_msg : string; x_info : string; x_rest : string }.
(** event_logs, models.py:173-181 *)
Record event := mkEv { e_id : Z; e_type : string; e_job : Z; e_check : string }.
(** [keys]: the table challenges (job, private key, public key); [ehosts]: event_log_hostnames; [assigned]: the
    hosts, type default and not empty, of the resources assigned to a moldable instance; [suspected]: the calls
    set_node_state(host, "Suspected", finaud) made so far; [queues]: name and state. *)
Record sys := mkSys { rq : db; exts : list ext; keys : list (Z * string * string); evs : list event;
  ehosts : list (Z * string); assigned : list (Z * string); suspected : list (string * string);
  queues : list (string * string) }.
Definition with_rq (f : db -> db) (s : sys) : sys :=
  mkSys (f (rq s)) (exts s) (keys s) (evs s) (ehosts s) (assigned s) (suspected s) (queues s).
Definition with_exts (f : list ext -> list ext) (s : sys) : sys :=
  mkSys (rq s) (f (exts s)) (keys s) (evs s) (ehosts s) (assigned s) (suspected s) (queues s).
Definition with_keys (f : list (Z * string * string) -> list (Z * string * string)) (s : sys) : sys :=
  mkSys (rq s) (exts s) (f (keys s)) (evs s) (ehosts s) (assigned s) (suspected s) (queues s).
Definition with_evs (f : list event -> list event) (s : sys) : sys :=
  mkSys (rq s) (exts s) (keys s) (f (evs s)) (ehosts s) (assigned s) (suspected s) (queues s).
Definition with_suspected (f : list (string * string) -> list (string * string)) (s : sys) : sys :=
  mkSys (rq s) (exts s) (keys s) (evs s) (ehosts s) (assigned s) (f (suspected s)) (queues s).
Definition with_queues (f : list (string * string) -> list (string * string)) (s : sys) : sys :=
  mkSys (rq s) (exts s) (keys s) (evs s) (ehosts s) (assigned s) (suspected s) (f (queues s)).

(** get_job, job_handling.py:1472-1479: .one(), None otherwise. *)
Definition job_of (s : sys) (id : Z) : option (jobrow * ext) :=
  match base.filter (fun r => jid r = id) (jobs (rq s)), base.filter (fun x => x_job x = id) (exts s) with
  | [r], [x] => Some (r, x)
  | _, _ => None
  end.

(** get_count_same_ssh_keys_current_jobs, job_handling.py:1952-1980. *)
Definition current_states : list string :=
  ["Waiting"; "Hold"; "toLaunch"; "toError"; "toAckReservation"; "Launching"; "Running"; "Suspended"; "Resuming"]%string.
Definition same_keys (s : sys) (user priv pub : string) : nat :=
  length (k ← base.filter (fun k => snd (fst k) = priv /\ snd k = pub /\ snd (fst k) <> EmptyString) (keys s);
          r ← base.filter (fun r => jid r = fst (fst k) /\ jstate r ∈ current_states) (jobs (rq s));
          x ← base.filter (fun x => x_job x = jid r /\ x_user x <> user) (exts s);
          [k]).

Section resubmission.
  (** The orders in which the database gives the rows asked for without ORDER BY (lines 1047-1082). *)
  Variable rm : list mldrow -> list mldrow.
  Variable rg : list grprow -> list grprow.
  Variable rd : list descrow -> list descrow.

  (** Lines 1078-1093: the levels of a group, under the new group [g']. *)
  Definition copy_levels (g g' : Z) (d : db) : db :=
    fold_left (fun d x => insert_descs [mkDesc g' (dtype x) (dval x) (dord x)] d)
      (rd (base.filter (fun x => dgrp x = g) (descs d))) d.
  (** Lines 1061-1093: the groups of an instance, under the new instance [m']. *)
  Definition copy_groups (m m' : Z) (d : db) : db :=
    fold_left (fun d g => copy_levels (gid g) (ng d) (insert_grps [(m', gprop g)] d))
      (rg (base.filter (fun g => gmld g = m) (grps d))) d.
  (** Lines 1045-1093: the instances of a job. *)
  Definition copy_moldables (j j' : Z) (d : db) : db :=
    fold_left (fun d m => copy_groups (mid m) (nm d) (insert_mlds [(j', mwall m)] d))
      (rm (base.filter (fun m => mjob m = j) (mlds d))) d.

  (** Lines 1012-1027: the row of the job is inserted again, without its identifier; state Hold.  (job.date is not a
      column; job.reservation is a string, never None.) *)
  Definition copy_row (r : jobrow) (d : db) : db :=
    mkDb (jobs d ++ [mkJob (nj d) "Hold" (jarray r) (jindex r) (jcmd r) (jprops r) (jresv r)])
         (mlds d) (grps d) (descs d) (types d) (deps d) (logs d) (nj d + 1) (nm d) (ng d).
  Definition copy_ext (id n : Z) (x : ext) : ext :=
    mkExt n (x_user x) (x_type x) (x_sub x) (x_start x) (x_stop x) (x_acc x) (x_susp x) 0 None id "" "" (x_rest x).
  (** Lines 1095-1101.  (Without types a row of default values, of job 0, is inserted: left out.) *)
  Definition copy_types (j j' : Z) (d : db) : db :=
    insert_types ((fun t => (j', snd t)) <$> base.filter (fun t => fst t = j) (types d)) d.
  (** Lines 1103-1106. *)
  Definition move_deps (j j' : Z) (d : db) : db :=
    mkDb (jobs d) (mlds d) (grps d) (descs d) (types d)
      ((fun e => if snd e =? j then (fst e, j') else e) <$> deps d) (logs d) (nj d) (nm d) (ng d).
  Definition admin (u : string) : bool := bool_decide (u = "oar"%string) || bool_decide (u = "root"%string).

  (** resubmit_job, lines 978-1125, called with OARDO_USER = [u] ("oar" when it is not set): error code, new
      identifier, state; one commit at the end.  The challenge is a random number: left out.  A job without exactly
      one challenge: exception. *)
  Definition resubmit (u : string) (id : Z) (s : sys) : res (Z * Z * sys) :=
    match job_of s id with
    | None => Ok (-5, 0, s)
    | Some (r, x) =>
        if negb (bool_decide (x_type x = "PASSIVE"%string)) then Ok (-1, 0, s)
        else if negb (bool_decide (jstate r = "Error"%string)) && negb (bool_decide (jstate r = "Terminated"%string))
                && negb (bool_decide (jstate r = "Finishing"%string)) then Ok (-2, 0, s)
        else if negb (bool_decide (u = x_user x)) && negb (admin u) then Ok (-3, 0, s)
        else match base.filter (fun k => fst (fst k) = id) (keys s) with
             | [(_, priv, pub)] =>
                 if (negb (bool_decide (pub = EmptyString)) || negb (bool_decide (priv = EmptyString)))
                    && (0 <? same_keys s u priv pub)%nat then Ok (-4, 0, s)
                 else
                   let n := nj (rq s) in
                   let d := copy_row r (rq s) in
                   let d := copy_moldables id n d in
                   let d := copy_types id n d in
                   let d := move_deps id n d in
                   let d := set_state (fun r => jid r =? n) "Waiting" d in
                   let d := insert_logs [(n, "Waiting"%string)] d in
                   Ok (0, n, with_keys (fun l => l ++ [(n, priv, pub)])
                               (with_exts (fun l => l ++ [copy_ext id n x]) (with_rq (fun _ => d) s)))
             | _ => Err EType
             end
    end.

  (** is_job_already_resubmitted, lines 1128-1135: a count. *)
  Definition resubmitted (s : sys) (id : Z) : nat := length (base.filter (fun x => x_of x = id) (exts s)).
  Definition has_event (s : sys) (id : Z) (t : string) : bool :=
    (0 <? length (base.filter (fun e => e_job e = id /\ e_type e = t) (evs s)))%nat.
  (** The next event identifier. *)
  Definition next_ev (s : sys) : Z := fold_right Z.max 0 (e_id <$> evs s) + 1.
  (** add_new_event, event.py:12-24 *)
  Definition add_event (t : string) (id : Z) (s : sys) : sys :=
    with_evs (fun l => l ++ [mkEv (next_ev s) t id "YES"]) s.
  (** check_event, event.py:93-100 *)
  Definition check_event (t : string) (id : Z) : sys -> sys :=
    with_evs (fun l => (fun e => if bool_decide (e_job e = id) && bool_decide (e_type e = t) && bool_decide (e_check e = "YES"%string)
                                 then mkEv (e_id e) (e_type e) (e_job e) "NO" else e) <$> l).
  (** set_job_state, job_handling.py:1693-1814: the state and its log (see JobModel for the rest). *)
  Definition live_states : list string :=
    ["toLaunch"; "toError"; "toAckReservation"; "Launching"; "Running"; "Finishing"; "Waiting"; "Hold"; "Suspended"; "Resuming"]%string.
  Definition set_job_state (id : Z) (st : string) (s : sys) : sys :=
    let sel := fun r => bool_decide (jid r = id) && bool_decide (jstate r ∈ live_states) && negb (bool_decide (jstate r = st)) in
    let n := length (base.filter (fun r => sel r = true) (jobs (rq s))) in
    with_rq (fun d => let d := set_state sel st d in if Nat.eqb n 1 then insert_logs [(id, st)] d else d) s.
  Definition has_type (s : sys) (id : Z) (t : string) : bool := bool_decide ((id, t) ∈ types (rq s)).
  (** stop_all_queues, queue.py:46-51 *)
  Definition stop_queues : sys -> sys := with_queues (fun l => (fun q => (fst q, "notActive"%string)) <$> l).
  Definition hosts_of_event (s : sys) (e : Z) : list string := snd <$> base.filter (fun h => fst h = e) (ehosts s).
  (** get_job_host_log, job_handling.py:1988-2001: distinct hosts, in the order of the database. *)
  Definition hosts_of_job (s : sys) (m : Z) : list string := remove_dups (snd <$> base.filter (fun h => fst h = m) (assigned s)).

  (** node_change_state.py, lines 104-118 *)
  Definition error_events : list string :=
    ["PING_CHECKER_NODE_SUSPECTED"; "CPUSET_ERROR"; "PROLOGUE_ERROR"; "CANNOT_WRITE_NODE_FILE"; "CANNOT_WRITE_PID_FILE";
     "USER_SHELL"; "EXTERMINATE_JOB"; "CANNOT_CREATE_TMP_DIRECTORY"; "LAUNCHING_OAREXEC_TIMEOUT"; "RESERVATION_NO_NODE";
     "BAD_HASHTABLE_DUMP"; "SSH_TRANSFER_TIMEOUT"; "EXIT_VALUE_OAREXEC"]%string.
  (** Lines 141-160 *)
  Definition host_events : list string :=
    ["PING_CHECKER_NODE_SUSPECTED"; "PING_CHECKER_NODE_SUSPECTED_END_JOB"; "CPUSET_ERROR"; "CPUSET_CLEAN_ERROR";
     "SUSPEND_ERROR"; "RESUME_ERROR"; "PROLOGUE_ERROR"; "EPILOGUE_ERROR"; "CANNOT_WRITE_NODE_FILE"; "CANNOT_WRITE_PID_FILE";
     "USER_SHELL"; "EXTERMINATE_JOB"; "CANNOT_CREATE_TMP_DIRECTORY"; "SSH_TRANSFER_TIMEOUT"; "BAD_HASHTABLE_DUMP";
     "LAUNCHING_OAREXEC_TIMEOUT"; "EXIT_VALUE_OAREXEC"; "FORCE_TERMINATE_FINISHING_JOB"]%string.
  (** Lines 161-174 *)
  Definition sr_events : list string := ["CPUSET_ERROR"; "CPUSET_CLEAN_ERROR"; "SUSPEND_ERROR"; "RESUME_ERROR"]%string.
  Definition lt_events : list string :=
    ["EXTERMINATE_JOB"; "PROLOGUE_ERROR"; "EPILOGUE_ERROR"; "CPUSET_ERROR"; "CPUSET_CLEAN_ERROR"; "FORCE_TERMINATE_FINISHING_JOB"]%string.
  (** Lines 232-237 *)
  Definition server_events : list string :=
    ["SERVER_PROLOGUE_TIMEOUT"; "SERVER_PROLOGUE_EXIT_CODE_ERROR"; "SERVER_EPILOGUE_TIMEOUT"; "SERVER_EPILOGUE_EXIT_CODE_ERROR"]%string.
  (** Lines 254-266 *)
  Definition resubmit_events : list string :=
    ["SERVER_PROLOGUE_TIMEOUT"; "SERVER_PROLOGUE_EXIT_CODE_ERROR"; "SERVER_EPILOGUE_TIMEOUT"; "PING_CHECKER_NODE_SUSPECTED";
     "CPUSET_ERROR"; "PROLOGUE_ERROR"; "CANNOT_WRITE_NODE_FILE"; "CANNOT_WRITE_PID_FILE"; "USER_SHELL";
     "CANNOT_CREATE_TMP_DIRECTORY"; "LAUNCHING_OAREXEC_TIMEOUT"]%string.
  Definition is_in (t : string) (l : list string) : bool := bool_decide (t ∈ l).
  Definition is (a b : string) : bool := bool_decide (a = b).

  (** What is committed stays when an exception is raised later. *)
  Definition outcome : Type := sys * option err.
  Definition andthen (o : outcome) (f : sys -> outcome) : outcome :=
    match snd o with None => f (fst o) | Some _ => o end.
  Definition of_resubmit (s : sys) (r : res (Z * Z * sys)) (f : sys -> sys) : outcome :=
    match r with Ok (_, _, s') => (f s', None) | Err e => (s, Some e) end.
  (** int >> 8 *)
  Definition exit_99 (x : ext) : bool := match x_exit x with Some c => negb (c =? 0) && (Z.shiftr c 8 =? 99) | None => false end.

  (** Lines 70-96: idempotent jobs that ask for it. *)
  Definition ncs_idempotent (u : string) (e : event) (s : sys) : outcome :=
    if is (e_type e) "SWITCH_INTO_TERMINATE_STATE" || is (e_type e) "SWITCH_INTO_ERROR_STATE" then
      match job_of s (e_job e) with
      | None => (s, Some EAttr)
      | Some (r, x) =>
          if exit_99 x && has_type s (e_job e) "idempotent" && is (jresv r) "None" && is (x_type x) "PASSIVE"
             && Nat.eqb (resubmitted s (e_job e)) 0 && negb (has_event s (e_job e) "SEND_KILL_JOB") && (60 <? x_stop x - x_start x)
          then of_resubmit s (resubmit u (e_job e) s) id
          else (s, None)
      end
    else (s, None).
  (** Lines 98-137: the state of the job. *)
  Definition ncs_states (e : event) (s : sys) : outcome :=
    let t := e_type e in let id := e_job e in
    let s := if is t "SWITCH_INTO_TERMINATE_STATE" then set_job_state id "Terminated" s
             else if is t "SWITCH_INTO_ERROR_STATE" || is t "FORCE_TERMINATE_FINISHING_JOB" then set_job_state id "Error" s
             else s in
    andthen (if is_in t error_events then
               match job_of s id with
               | None => (s, Some EAttr)
               | Some (r, x) =>
                   if is (jresv r) "None" || is t "RESERVATION_NO_NODE" || (x_mld x =? 0) then (set_job_state id "Error" s, None)
                   else if negb (is t "PING_CHECKER_NODE_SUSPECTED") && negb (is t "CPUSET_ERROR") then (set_job_state id "Error" s, None)
                   else (s, None)
               end
             else (s, None))
      (fun s => (if is t "CPUSET_CLEAN_ERROR" || is t "EPILOGUE_ERROR" then set_job_state id "Terminated" s else s, None)).
  (** Lines 176-229; [cpuset]: the cpuset feature is configured. *)
  Definition ncs_hosts (cpuset : bool) (e : event) (s : sys) : res (list string * string) :=
    let t := e_type e in
    if is t "PING_CHECKER_NODE_SUSPECTED" || is t "PING_CHECKER_NODE_SUSPECTED_END_JOB" then Ok (hosts_of_event s (e_id e), "YES"%string)
    else if is_in t sr_events then Ok (hosts_of_event s (e_id e), "NO"%string)
    else match job_of s (e_job e) with
         | None => Err EAttr
         | Some (_, x) =>
             let hosts := hosts_of_job s (x_mld x) in
             if negb (is_in t lt_events) then match hosts with [] => Err EIndex | h :: _ => Ok ([h], "NO"%string) end
             else if cpuset && is t "EXTERMINATE_JOB" then Ok ([], "NO"%string) else Ok (hosts, "NO"%string)
         end.
  Definition ncs_suspect (cpuset : bool) (e : event) (s : sys) : outcome :=
    if is_in (e_type e) host_events then
      match ncs_hosts cpuset e s with
      | Err x => (s, Some x)
      | Ok (hosts, finaud) =>
          (with_suspected (fun l => l ++ ((fun h => (h, finaud)) <$> base.filter (fun h => h <> EmptyString) (remove_dups hosts))) s, None)
      end
    else (s, None).
  (** Lines 231-250 *)
  Definition ncs_server (e : event) (s : sys) : outcome :=
    (if is_in (e_type e) server_events then set_job_state (e_job e) "Error" (stop_queues s) else s, None).
  (** Lines 252-284 *)
  Definition ncs_resubmit (u : string) (e : event) (s : sys) : outcome :=
    if is_in (e_type e) resubmit_events then
      match job_of s (e_job e) with
      | None => (s, Some EAttr)
      | Some (r, x) =>
          if is (jresv r) "None" && is (x_type x) "PASSIVE" && Nat.eqb (resubmitted s (e_job e)) 0
          then of_resubmit s (resubmit u (e_job e) s) (add_event "RESUBMIT_JOB_AUTOMATICALLY" (e_job e))
          else (s, None)
      end
    else (s, None).
  (** One event, lines 66-311.  The log of suspected nodes adds an event of type LOG_SUSPECTED for no job: left out. *)
  Definition ncs_event (u : string) (cpuset : bool) (e : event) (s : sys) : outcome :=
    andthen (ncs_idempotent u e s) (fun s =>
    andthen (ncs_states e s) (fun s =>
    andthen (ncs_suspect cpuset e s) (fun s =>
    andthen (ncs_server e s) (fun s =>
    andthen (ncs_resubmit u e s) (fun s =>
    (check_event (e_type e) (e_job e) s, None)))))).
  (** The loop: the events to check, read once, in the order of their identifiers. *)
  Definition to_check (s : sys) : list event := base.filter (fun e => e_check e = "YES"%string) (evs s).
  Fixpoint ncs_events (u : string) (cpuset : bool) (l : list event) (s : sys) : outcome :=
    match l with
    | [] => (s, None)
    | e :: l' => andthen (ncs_event u cpuset e s) (ncs_events u cpuset l')
    end.
  Definition ncs (u : string) (cpuset : bool) (s : sys) : outcome := ncs_events u cpuset (to_check s) s.

  (** check_end_of_job, job_handling.py:2125-2165, for a job killed (error 3): it becomes Finishing; a best-effort
      and idempotent one that the scheduler asked to kill is resubmitted.  Left out: the end date, the exit code and
      the other errors (JobModel). *)
  Definition end_of_killed_job (u : string) (id : Z) (s : sys) : outcome :=
    match job_of s id with
    | None => (s, Some EAttr)
    | Some (r, x) =>
        if is_in (jstate r) ["Running"; "Launching"; "Suspended"; "Resuming"]%string then
          let s := set_job_state id "Finishing" s in
          if has_type s id "besteffort" && has_type s id "idempotent" && has_event s id "BESTEFFORT_KILL" then
            of_resubmit s (resubmit u id s) (fun s => add_event "RESUBMIT_JOB_AUTOMATICALLY" id (add_event "SWITCH_INTO_ERROR_STATE" id s))
          else (add_event "SWITCH_INTO_ERROR_STATE" id s, None)
        else (s, None)
    end.
End resubmission.

(** A granted change of walltime, change_walltime, job_handling.py:2864-2871: every instance of the job. *)
Definition set_walltime (j w : Z) (d : db) : db :=
  mkDb (jobs d) ((fun x => if mjob x =? j then mkMld (mid x) (mjob x) w else x) <$> mlds d) (grps d) (descs d) (types d) (deps d) (logs d)
    (nj d) (nm d) (ng d).
