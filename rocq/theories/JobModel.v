(** Model of the job table, of the state log, of the deletion requests and of the user requests on
    a job: oar/lib/job_handling.py, and of oar/modules/sarko.py, leon.py, node_change_state.py.
    Only the columns these functions read or write are kept.  Not modelled: notifications to the
    user, priorities and dates of the resources, index columns (log_job), signals to the nodes,
    messages.  No proofs. *)
From Verif Require Import Base.

Record job := mkJob { j_id : Z; j_user : string; j_state : string; j_type : string; j_queue : string;
  j_start : Z; j_stop : Z; j_suspended : string; j_mld : Z; j_reservation : string;
  j_types : list string (** names of the types of the job *) }.
(** job_state_logs, models.py:325-332; date_stop = 0: open. *)
Record slog := mkLog { l_job : Z; l_state : string; l_start : Z; l_stop : Z }.
(** frag_jobs, models.py:195-200 *)
Record frag := mkFrag { f_job : Z; f_date : Z; f_state : string }.
(** event_logs, models.py:173-181; descriptions and dates are left out. *)
Record event := mkEv { e_type : string; e_job : Z; e_check : string }.
(** moldable_job_descriptions: id, job, walltime *)
Record mld := mkMld { m_id : Z; m_job : Z; m_wall : Z }.
(** walltime_change, models.py:447-462 *)
Record wtc := mkWtc { w_job : Z; w_pending : Z; w_force : string; w_delay : string;
  w_granted : Z; w_granted_force : Z; w_granted_delay : Z }.
Record db := mkDb { jobs : list job; logs : list slog; frags : list frag; events : list event;
  mlds : list mld; wtcs : list wtc }.

Definition with_jobs (f : list job -> list job) (d : db) := mkDb (f (jobs d)) (logs d) (frags d) (events d) (mlds d) (wtcs d).
Definition with_logs (f : list slog -> list slog) (d : db) := mkDb (jobs d) (f (logs d)) (frags d) (events d) (mlds d) (wtcs d).
Definition with_frags (f : list frag -> list frag) (d : db) := mkDb (jobs d) (logs d) (f (frags d)) (events d) (mlds d) (wtcs d).
Definition with_events (f : list event -> list event) (d : db) := mkDb (jobs d) (logs d) (frags d) (f (events d)) (mlds d) (wtcs d).
Definition with_mlds (f : list mld -> list mld) (d : db) := mkDb (jobs d) (logs d) (frags d) (events d) (f (mlds d)) (wtcs d).
Definition with_wtcs (f : list wtc -> list wtc) (d : db) := mkDb (jobs d) (logs d) (frags d) (events d) (mlds d) (f (wtcs d)).
Definition with_state (s : string) (j : job) := mkJob (j_id j) (j_user j) s (j_type j) (j_queue j) (j_start j) (j_stop j) (j_suspended j) (j_mld j) (j_reservation j) (j_types j).
Definition with_stop (t : Z) (j : job) := mkJob (j_id j) (j_user j) (j_state j) (j_type j) (j_queue j) (j_start j) t (j_suspended j) (j_mld j) (j_reservation j) (j_types j).
Definition with_start (t : Z) (j : job) := mkJob (j_id j) (j_user j) (j_state j) (j_type j) (j_queue j) t (j_stop j) (j_suspended j) (j_mld j) (j_reservation j) (j_types j).
Definition with_suspended (s : string) (j : job) := mkJob (j_id j) (j_user j) (j_state j) (j_type j) (j_queue j) (j_start j) (j_stop j) s (j_mld j) (j_reservation j) (j_types j).
(** UPDATE ... WHERE *)
Definition upd {A} (P : A -> Prop) `{!forall x, Decision (P x)} (f : A -> A) (l : list A) : list A :=
  (fun x => if decide (P x) then f x else x) <$> l.

(** get_job, job_handling.py:1472-1479: [.one()], any exception gives None. *)
Definition get_job (d : db) (id : Z) : option job :=
  match filter (fun j => j_id j = id) (jobs d) with [j] => Some j | _ => None end.

(** set_job_state, job_handling.py:1693-1814. *)
Definition live_states : list string :=
  ["toLaunch"; "toError"; "toAckReservation"; "Launching"; "Running"; "Finishing"; "Waiting"; "Hold"; "Suspended"; "Resuming"]%string.
Definition accepts (id : Z) (state : string) (j : job) : Prop := j_id j = id /\ j_state j ∈ live_states /\ j_state j <> state.
Global Instance accepts_dec id state j : Decision (accepts id state j).
Proof. unfold accepts. apply _. Defined.
Definition close_log (date id : Z) : list slog -> list slog :=
  upd (fun e => l_stop e = 0 /\ l_job e = id) (fun e => mkLog (l_job e) (l_state e) (l_start e) date).
Definition is_final (s : string) : bool := bool_decide (s = "Terminated"%string) || bool_decide (s = "Error"%string).
Definition set_job_state (date id : Z) (state : string) (d : db) : db :=
  let result := length (filter (accepts id state) (jobs d)) in
  let d := with_jobs (upd (accepts id state) (with_state state)) d in
  if bool_decide (result = 1%nat) then
    let d := with_logs (close_log date id) d in
    let d := with_logs (fun l => l ++ [mkLog id state date 0]) d in
    if is_final state then
      with_jobs (upd (fun j => j_id j = id /\ j_stop j < j_start j) (fun j => with_stop (j_start j) j)) d
    else d
  else d.

(** The statements of set_job_state that touch the tables, in order, for a kill between two of
    them (1711-1736: each update is committed; the insertion of the log entry is committed by
    whatever commits next). *)
Definition set_job_state_upto (n : nat) (date id : Z) (state : string) (d : db) : db :=
  let result := length (filter (accepts id state) (jobs d)) in
  if bool_decide (result = 1%nat) then
    match n with
    | O => d
    | 1%nat => with_jobs (upd (accepts id state) (with_state state)) d
    | 2%nat => with_logs (close_log date id) (with_jobs (upd (accepts id state) (with_state state)) d)
    | _ => set_job_state date id state d
    end
  else d.

(** Submission: the job is inserted on Hold, its first log entry written, then the state is set;
    submission.py:960-1119 (add_micheline_subjob). *)
Definition submit (date : Z) (hold : bool) (j : job) (d : db) : db :=
  let s := (if hold then "Hold" else "Waiting")%string in
  with_jobs (fun l => l ++ [with_state s j]) (with_logs (fun l => l ++ [mkLog (j_id j) s date 0]) d).

(** get_job_duration_in_state, job_handling.py:1816-1831 *)
Definition duration_in_state (now id : Z) (state : string) (d : db) : Z :=
  fold_left (fun acc e => acc + ((if l_stop e =? 0 then now else l_stop e) - l_start e))
    (filter (fun e => l_job e = id /\ l_state e = state) (logs d)) 0.

(** get_job_suspended_sum_duration, job_handling.py:398-419 *)
Definition suspended_sum (now id : Z) (d : db) : Z :=
  fold_left (fun acc e => let t := (if l_stop e =? 0 then now else l_stop e) - l_start e in if 0 <? t then acc + t else acc)
    (filter (fun e => l_job e = id /\ (l_state e = "Suspended" \/ l_state e = "Resuming")%string) (logs d)) 0.

(** add_new_event, event.py:12-24 *)
Definition add_event (t : string) (id : Z) : db -> db := with_events (fun l => l ++ [mkEv t id "YES"]).

Definition admin (u : string) : bool := bool_decide (u = "oar"%string) || bool_decide (u = "root"%string).
(** The user of a request, job_handling.py:1508-1512: the argument when it is not empty, else the
    environment (OARDO_USER, then USER). *)
Definition eff_user (arg : option string) (oardo : option string) (user : string) : string :=
  match arg with
  | Some u => if bool_decide (u = ""%string) then default user oardo else u
  | None => default user oardo
  end.

(** frag_job, job_handling.py:1506-1540 *)
Definition frag_job (date : Z) (u : string) (id : Z) (d : db) : Z * db :=
  match get_job d id with
  | None => (-3, d)
  | Some j =>
      if bool_decide (u = j_user j) || admin u then
        match filter (fun f => f_job f = id) (frags d) with
        | [] => (0, add_event "FRAG_JOB_REQUEST" id (with_frags (fun l => l ++ [mkFrag id date "LEON"]) d))
        | _ => (-2, d)
        end
      else (-1, d)
  end.

(** ask_checkpoint_signal_job, job_handling.py:1543-1587 (the code; the events of the two
    branches are as in the source). *)
Definition ask_checkpoint (signal : option string) (u : string) (id : Z) (d : db) : Z * db :=
  match get_job d id with
  | None => (1, d)
  | Some j =>
      if bool_decide (j_type j = "INTERACTIVE"%string) then (3, d)
      else if bool_decide (u = j_user j) || admin u then
        if bool_decide (j_state j = "Running"%string) then
          match signal with
          | Some s => if bool_decide (s = ""%string) then (0, add_event "SIGNAL_" id d) else (0, add_event "CHECKPOINT" id d)
          | None => (0, add_event "SIGNAL_None" id d)
          end
        else (2, d)
      else (1, d)
  end.

(** hold_job, job_handling.py:1834-1893; [allowed]: USERS_ALLOWED_HOLD_RESUME = yes *)
Definition hold_job (allowed running : bool) (u : string) (id : Z) (d : db) : Z * db :=
  let event_type := (if running then "HOLD_RUNNING_JOB" else "HOLD_WAITING_JOB")%string in
  match get_job d id with
  | None => (-1, d)
  | Some j =>
      if running && negb allowed && negb (admin u) then (-4, d)
      else if bool_decide (u = j_user j) || admin u then
        if bool_decide (j_state j = "Waiting"%string) || bool_decide (j_state j = "Resuming"%string) ||
           (running && (bool_decide (j_state j = "toLaunch"%string) || bool_decide (j_state j = "Launching"%string) || bool_decide (j_state j = "Running"%string)))
        then (0, add_event event_type id d)
        else (-3, d)
      else (-2, d)
  end.

(** resume_job, job_handling.py:1896-1941 *)
Definition resume_job (allowed : bool) (u : string) (id : Z) (d : db) : Z * db :=
  match get_job d id with
  | None => (-1, d)
  | Some j =>
      if bool_decide (j_state j = "Suspended"%string) && negb allowed && negb (admin u) then (-4, d)
      else if bool_decide (u = j_user j) || admin u then
        if bool_decide (j_state j = "Hold"%string) || bool_decide (j_state j = "Suspended"%string)
        then (0, add_event "RESUME_JOB" id d)
        else (-3, d)
      else (-2, d)
  end.

(** job_fragged, job_arm_leon_timer, job_refrag, job_leon_exterminate: job_handling.py:2054-2083 *)
Definition set_frag (s : string) (id : Z) : db -> db :=
  with_frags (upd (fun f => f_job f = id) (fun f => mkFrag (f_job f) (f_date f) s)).
Definition frag_in (s : string) (d : db) (j : job) : Prop := exists f, f ∈ frags d /\ f_state f = s /\ f_job f = j_id j.
(** Job JOIN FragJob: the jobs, once per matching row (job ids are primary keys of both). *)
Definition jobs_in_frag (s : string) (d : db) : list job :=
  j ← jobs d; _ ← filter (fun f => f_state f = s /\ f_job f = j_id j) (frags d); [j].

(** Sarko.run, the timers: sarko.py:90-115.  [soft], [hard]: JOBDEL_SOFTWALLTIME and
    JOBDEL_WALLTIME, adjusted as in sarko.py:54-69. *)
Definition hard_delay (soft hard : Z) : Z := if hard <=? soft then soft + 10 else hard.
Definition sarko_timer (soft hard date : Z) (d : db) (j : job) : db :=
  if bool_decide (j_state j ∈ ["Terminated"; "Error"; "Finishing"]%string) then set_frag "FRAGGED" (j_id j) d
  else match filter (fun f => f_job f = j_id j) (frags d) with
       | f :: _ =>
           if (f_date f + soft <? date) && (date <=? f_date f + hard_delay soft hard) then set_frag "LEON" (j_id j) d
           else if f_date f + hard_delay soft hard <? date then set_frag "LEON_EXTERMINATE" (j_id j) d
           else d
       | [] => d
       end.
Definition sarko_timers (soft hard date : Z) (d : db) : db :=
  fold_left (sarko_timer soft hard date) (jobs_in_frag "TIMER_ARMED" d) d.

(** Sarko.run, the walltimes: sarko.py:118-152; the checkpoint branch (153-198) only adds events
    and is not modelled.  [u]: the user of the Sarko process.  NoResultFound is EKey. *)
Definition sarko_walltime (date : Z) (u : string) (d : db) (j : job) : res db :=
  match filter (fun m => m_id m = j_mld j) (mlds d) with
  | [m] =>
      let max_time := if bool_decide (j_suspended j = "YES"%string) then suspended_sum date (j_id j) d else m_wall m in
      if j_start j + max_time <? date then
        Ok (add_event "WALLTIME" (j_id j) (snd (frag_job date u (j_id j) d)))
      else Ok d
  | _ => Err EKey
  end.
Fixpoint sarko_walltimes (date : Z) (u : string) (l : list job) (d : db) : res db :=
  match l with
  | [] => Ok d
  | j :: l' => d <-- sarko_walltime date u d j ;; sarko_walltimes date u l' d
  end.
(** Sarko.run, sarko.py:48-152 *)
Definition sarko (soft hard date : Z) (u : string) (d : db) : res db :=
  let d := sarko_timers soft hard date d in
  sarko_walltimes date u (filter (fun j => j_state j = "Running"%string) (jobs d)) d.

(** set_finish_date, set_running_date: job_handling.py:2610-2632 *)
Definition set_finish_date (date : Z) (j : job) : db -> db :=
  with_jobs (upd (fun x => j_id x = j_id j) (with_stop (if date <? j_start j then j_start j else date))).
Definition set_running_date (date id : Z) : db -> db := with_jobs (upd (fun x => j_id x = id) (with_start date)).

(** Leon.run without argument: leon.py:101-186.  job_finishing_sequence only adds events
    (job_handling.py:2374-2580), and so does the sending of the kill signal: [evs], chosen by the
    environment. *)
Definition leon_kill (date : Z) (evs : list string) (d : db) (j : job) : db :=
  let d :=
    if bool_decide (j_state j = "Waiting"%string) || bool_decide (j_state j = "Hold"%string) then set_job_state date (j_id j) "Error" d
    else if bool_decide (j_state j ∈ ["Terminated"; "Error"; "Finishing"]%string) then d
    else if bool_decide ("noop"%string ∈ j_types j) then
      fold_left (fun d e => add_event e (j_id j) d) evs (set_job_state date (j_id j) "Terminated" (set_finish_date date j d))
    else fold_left (fun d e => add_event e (j_id j) d) evs d in
  set_frag "TIMER_ARMED" (j_id j) d.
Definition leon_exterminate (date : Z) (d : db) (j : job) : db :=
  let d := set_job_state date (j_id j) "Finishing" d in
  let d := if j_start j =? 0 then set_running_date date (j_id j) d else d in
  (* the job object is read again after the commits *)
  set_finish_date date (if j_start j =? 0 then with_start date j else j) d.
Definition jobs_to_kill (d : db) : list job :=
  filter (fun j => j_state j ∉ ["Error"; "Terminated"; "Finishing"]%string) (jobs_in_frag "LEON" d).
Definition leon (date : Z) (evs : list string) (d : db) : db :=
  let d := fold_left (leon_kill date evs) (jobs_to_kill d) d in
  fold_left (leon_exterminate date) (jobs_in_frag "LEON_EXTERMINATE" d) d.
(** Leon.run on one job, leon.py:73-99, as launched by the commander on LEONEXTERMINATE. *)
Definition leon_job (evs : list string) (id : Z) (d : db) : db :=
  match filter (fun f => f_job f = id) (frags d) with
  | [f] => if bool_decide (f_state f = "LEON_EXTERMINATE"%string) then
             fold_left (fun d e => add_event e id d) ("EXTERMINATE_JOB"%string :: evs) (set_frag "TIMER_ARMED" id d)
           else d
  | _ => d
  end.

(** check_end_of_job, job_handling.py:2100-2371: the events for an exit code of the executor, and
    whether their text reads the first host of the job (hosts[0]). *)
Definition end_events (error : Z) : list string * bool :=
  if error =? 0 then (["SWITCH_INTO_TERMINATE_STATE"]%string, false)
  else if error =? 1 then (["PROLOGUE_ERROR"]%string, false)
  else if error =? 2 then (["EPILOGUE_ERROR"]%string, false)
  else if error =? 3 then (["SWITCH_INTO_ERROR_STATE"]%string, false)
  else if error =? 5 then (["CANNOT_WRITE_NODE_FILE"]%string, false)
  else if error =? 6 then (["CANNOT_WRITE_PID_FILE"]%string, false)
  else if error =? 7 then (["USER_SHELL"]%string, true)
  else if error =? 8 then (["CANNOT_CREATE_TMP_DIRECTORY"]%string, true)
  else if error =? 10 then (["SWITCH_INTO_ERROR_STATE"; "WORKING_DIRECTOR"]%string, true)
  else if error =? 20 then (["SWITCH_INTO_ERROR_STATE"; "OUTPUT_FILES"]%string, true)
  else if error =? 12 then (["SWITCH_INTO_ERROR_STATE"; "WORKING_DIRECTORY"; "EPILOGUE_ERROR"]%string, true)
  else if error =? 22 then (["SWITCH_INTO_ERROR_STATE"; "OUTPUT_FILES"; "EPILOGUE_ERROR"]%string, false)
  else if error =? 30 then (["SSH_TRANSFER_TIMEOUT"]%string, true)
  else if error =? 31 then (["BAD_HASHTABLE_DUMP"]%string, true)
  else if error =? 33 then (["SWITCH_INTO_TERMINATE_STATE"; "EPILOGUE_ERROR"]%string, false)
  else if error =? 34 then (["SWITCH_INTO_TERMINATE_STATE"]%string, false)
  else if error =? 50 then (["LAUNCHING_OAREXEC_TIMEOUT"]%string, true)
  else if error =? 40 then (["SWITCH_INTO_TERMINATE_STATE"]%string, false)
  else if error =? 42 then (["SWITCH_INTO_TERMINATE_STATE"]%string, false)
  else if error =? 41 then (["SWITCH_INTO_TERMINATE_STATE"; "EPILOGUE_ERROR"]%string, false)
  else (["EXIT_VALUE_OAREXEC"]%string, true).
(** The rest of check_end_of_job.  [has_host]: the list of hosts is not empty; reading hosts[0] of
    an empty list raises IndexError after the state and the end date are committed.  Not modelled:
    the exit code column, the resubmission of idempotent best-effort jobs; job_finishing_sequence
    adds the events, and possibly others ([evs]). *)
Definition end_of_job (date error : Z) (has_host : bool) (evs : list string) (id : Z) (d : db) : db :=
  match get_job d id with
  | None => d
  | Some j =>
      if bool_decide (j_state j ∈ ["Running"; "Launching"; "Suspended"; "Resuming"]%string) then
        let d := set_job_state date id "Finishing" (set_finish_date date j d) in
        if (end_events error).2 && negb has_host then d
        else fold_left (fun d e => add_event e id d) ((end_events error).1 ++ evs) d
      else d
  end.

(** ** NodeChangeState.run: the events, node_change_state.py:66-311, for their effect on the jobs
    and on the events.  Not modelled: the suspicion of nodes, the stop of the queues, the
    resubmission of jobs (insertion of a new job), the healing script. *)
(** What suspend_job meets on the nodes (node_change_state.py:410-513): no cpuset configured, bad
    suspend file, done, done but the admin script failed, some nodes failed. *)
Inductive susp := SNothing | SBadFile | SDone | SScriptError | SBadNodes.

(** suspend_job_action, job_handling.py:2004-2015 (resources left out) *)
Definition suspend_action (date id : Z) (d : db) : db :=
  with_jobs (upd (fun j => j_id j = id) (with_suspended "YES")) (set_job_state date id "Suspended" d).
Definition suspend_job (date : Z) (u : string) (out : susp) (id : Z) (d : db) : db :=
  match out with
  | SNothing => d
  | SBadFile => add_event "SUSPEND_RESUME_MANAGER_FILE" id d
  | SDone => suspend_action date id d
  | SScriptError => set_job_state date id "Resuming" (add_event "SUSPEND_SCRIPT_ERROR" id (suspend_action date id d))
  | SBadNodes => snd (frag_job date u id (add_event "SUSPEND_ERROR" id d))
  end.

Definition error_events : list string :=
  ["PING_CHECKER_NODE_SUSPECTED"; "CPUSET_ERROR"; "PROLOGUE_ERROR"; "CANNOT_WRITE_NODE_FILE"; "CANNOT_WRITE_PID_FILE";
   "USER_SHELL"; "EXTERMINATE_JOB"; "CANNOT_CREATE_TMP_DIRECTORY"; "LAUNCHING_OAREXEC_TIMEOUT"; "RESERVATION_NO_NODE";
   "BAD_HASHTABLE_DUMP"; "SSH_TRANSFER_TIMEOUT"; "EXIT_VALUE_OAREXEC"]%string.
Definition server_events : list string :=
  ["SERVER_PROLOGUE_TIMEOUT"; "SERVER_PROLOGUE_EXIT_CODE_ERROR"; "SERVER_EPILOGUE_TIMEOUT"; "SERVER_EPILOGUE_EXIT_CODE_ERROR"]%string.

(** check_event, event.py:93-100 *)
Definition check_event (t : string) (id : Z) : db -> db :=
  with_events (upd (fun e => e_job e = id /\ e_type e = t /\ e_check e = "YES"%string) (fun e => mkEv (e_type e) (e_job e) "NO")).

(** The branch of the hold and resume requests, node_change_state.py:259-296.  For a noop job
    suspend_job_action is called without its [config] argument: TypeError. *)
Definition hold_resume (date : Z) (u : string) (out : susp) (t : string) (j : job) (d : db) : res db :=
  let id := j_id j in
  let is := fun s => bool_decide (j_state j = s) in
  let resume := bool_decide (t = "RESUME_JOB"%string) in
  if negb resume && is "Waiting"%string then Ok (set_job_state date id "Hold" d)
  else if negb resume && is "Resuming"%string then Ok (set_job_state date id "Suspended" d)
  else if bool_decide (t = "HOLD_WAITING_JOB"%string) && is "Running"%string then
    if bool_decide ("noop"%string ∈ j_types j) then Err EType
    else Ok (suspend_job date u out id d)
  else if resume && is "Suspended"%string then Ok (set_job_state date id "Resuming" d)
  else if resume && is "Hold"%string then Ok (set_job_state date id "Waiting" d)
  else Ok d.

Definition ncs_event (date : Z) (u : string) (out : susp) (ev : event) (d : db) : res db :=
  let t := e_type ev in let id := e_job ev in
  let switch := bool_decide (t = "SWITCH_INTO_TERMINATE_STATE"%string) in
  let switch_err := bool_decide (t = "SWITCH_INTO_ERROR_STATE"%string) in
  let oj := get_job d id in
  (* attributes of the job are read in these cases; None has none *)
  if (switch || switch_err || bool_decide (t ∈ error_events) || bool_decide (t ∈ ["HOLD_WAITING_JOB"; "HOLD_RUNNING_JOB"; "RESUME_JOB"]%string))
     && negb (bool_decide (is_Some oj)) then Err EAttr
  else
  let d := if switch then set_job_state date id "Terminated" d
           else if switch_err || bool_decide (t = "FORCE_TERMINATE_FINISHING_JOB"%string) then set_job_state date id "Error" d
           else d in
  let d := match oj with
           | Some j =>
               if bool_decide (t ∈ error_events) then
                 if bool_decide (j_reservation j = "None"%string) || bool_decide (t = "RESERVATION_NO_NODE"%string) || (j_mld j =? 0)
                 then set_job_state date id "Error" d
                 else if negb (bool_decide (j_reservation j = "None"%string)) && negb (bool_decide (t = "PING_CHECKER_NODE_SUSPECTED"%string)) && negb (bool_decide (t = "CPUSET_ERROR"%string))
                 then set_job_state date id "Error" d
                 else d
               else d
           | None => d
           end in
  let d := if bool_decide (t = "CPUSET_CLEAN_ERROR"%string) || bool_decide (t = "EPILOGUE_ERROR"%string) then set_job_state date id "Terminated" d else d in
  let d := if bool_decide (t ∈ server_events) then set_job_state date id "Error" d else d in
  d <-- (if bool_decide (t ∈ ["HOLD_WAITING_JOB"; "HOLD_RUNNING_JOB"; "RESUME_JOB"]%string) then
           match oj with Some j => hold_resume date u out t j d | None => Err EAttr end
         else Ok d) ;;
  Ok (check_event t id d).

(** NodeChangeState.run on the events to check, in the order of their ids; [out] gives what each
    suspension meets. *)
Fixpoint ncs_events (date : Z) (u : string) (out : Z -> susp) (l : list event) (d : db) : res db :=
  match l with
  | [] => Ok d
  | ev :: l' => d <-- ncs_event date u (out (e_job ev)) ev d ;; ncs_events date u out l' d
  end.
Definition node_change_state (date : Z) (u : string) (out : Z -> susp) (d : db) : res db :=
  ncs_events date u out (filter (fun e => e_check e = "YES"%string) (events d)) d.
