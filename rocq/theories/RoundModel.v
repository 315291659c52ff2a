(** The end of a round of the meta-scheduler: oar/kao/meta_sched.py:191-226 (notify_to_run_job), 611-630
    (update_gantt_visualization), 632-717 (call_external_scheduler, its result), 1040-1332 (end of meta_schedule);
    oar/lib/job_handling.py:744-771, 832-846, 1366-1413; oar/lib/tools.py:178-222.  No proofs here.
    Commits are immediate, so an exception keeps what was done before it: a step gives the new state and possibly an
    exception.  What the clients, the commander and the scripts answer is an argument.  Simplified: dates of state
    changes (one date per round), the text of log messages; an exception raised by [send] once the connection is
    open; the conversion int(port) is modelled for unsigned decimal numbers, any other text raising ValueError. *)
From Coq Require Import Ascii.
From Verif Require Import Base JobModel.
From Verif Require ReqModel.

(** The columns info_type and message of the jobs are not in JobModel and are not changed here: functions of the id.
    [told]: the texts received by the clients, with the job they are about.  [ordered]: the launch orders (OARRUN)
    received by the commander.  [treated]: to_launch_jobs_already_treated.  [asked]: the commands received by
    Almighty. *)
Record world := mkW { base : db; told : list (Z * string * string * string); ordered : list Z; treated : list Z;
  asked : list string; code : Z }.
Definition with_base (f : db -> db) (w : world) := mkW (f (base w)) (told w) (ordered w) (treated w) (asked w) (code w).
Definition with_told (x : Z * string * string * string) (w : world) := mkW (base w) (told w ++ [x]) (ordered w) (treated w) (asked w) (code w).
Definition with_order (id : Z) (w : world) := mkW (base w) (told w) (ordered w ++ [id]) (treated w ++ [id]) (asked w) (code w).
Definition with_asked (c : string) (w : world) := mkW (base w) (told w) (ordered w) (treated w) (asked w ++ [c]) (code w).
Definition with_code (c : Z) (w : world) := mkW (base w) (told w) (ordered w) (treated w) (asked w) c.

Definition step := (world * option err)%type.
Definition andthen (r : step) (k : world -> step) : step := match r with (w, None) => k w | _ => r end.
Fixpoint each {A} (f : A -> world -> step) (l : list A) (w : world) : step :=
  match l with [] => (w, None) | a :: l' => andthen (f a w) (each f l') end.

(** [info]: column info_type.  [message]: column message.  [reach id text]: the client of job [id] takes [text].
    [commander id]: the commander takes the order for [id].  [u]: the user running the scheduler. *)
Record env := mkEnv { now : Z; user : string; info : Z -> string; message : Z -> string;
  reach : Z -> string -> bool; commander : Z -> bool;
  script : option (Z -> option Z) (** JUST_BEFORE_RESUME_EXEC_FILE: None, not configured; result of a run: None is TimeoutExpired *);
  energy : option string (** ENERGY_SAVING_MODE *) }.

(** addr, port = info_type.split(":") *)
Definition addr_port (s : string) : option (string * string) :=
  match ReqModel.split_on ":" s with [a; p] => Some (a, p) | _ => None end.
Definition is_digit (c : ascii) : bool := (48 <=? Z.of_nat (nat_of_ascii c)) && (Z.of_nat (nat_of_ascii c) <=? 57).
Fixpoint all_digits (s : string) : bool := match s with EmptyString => true | String c s' => is_digit c && all_digits s' end.
Definition is_port (p : string) : bool := negb (bool_decide (p = ""%string)) && all_digits p.
(** notify_tcp_socket, tools.py:202-222; the number of bytes sent is not 0 when the connection is made (the text ends
    with a newline). *)
Definition notify_tcp (e : env) (id : Z) (a p text : string) (w : world) (k : bool -> world -> step) : step :=
  if is_port p then
    if reach e id text then k true (with_told (id, a, p, text) w) else k false w
  else (w, Some EValue).

(** get_current_not_waiting_jobs, job_handling.py:744-771: the jobs of a state, in the order of the table. *)
Definition in_state (st : string) (d : db) : list job := filter (fun j => j_state j = st) (jobs d).

(** "toError", meta_sched.py:1267-1287.  The split is done for every job. *)
Definition newline : string := String "010" EmptyString.
Definition notifies_error (j : job) : bool :=
  bool_decide (j_type j = "INTERACTIVE"%string) ||
  (bool_decide (j_type j = "PASSIVE"%string) && bool_decide (j_reservation j = "Scheduled"%string)).
Definition to_error (e : env) (j : job) (w : world) : step :=
  match addr_port (info e (j_id j)) with
  | None => (w, Some EValue)
  | Some (a, p) =>
      let set w := (with_base (set_job_state (now e) (j_id j) "Error") w, None) in
      if notifies_error j then
        notify_tcp e (j_id j) a p (message e (j_id j) +:+ newline) w (fun _ w =>
        notify_tcp e (j_id j) a p ("BAD JOB" +:+ newline) w (fun _ w => set w))
      else set w
  end.

(** "toAckReservation", 1290-1324.  When the client does not answer, add_new_event is called without its session
    (three arguments instead of four): TypeError, before anything is written. *)
Definition to_ack (e : env) (j : job) (w : world) : step :=
  match addr_port (info e (j_id j)) with
  | None => (w, Some EValue)
  | Some (a, p) =>
      notify_tcp e (j_id j) a p ("GOOD RESERVATION" +:+ newline) w (fun ok w =>
      if ok then
        let w := with_base (set_job_state (now e) (j_id j) "Waiting") w in
        ((if (j_start j - 1 <=? now e) && (code w =? 0) then with_code 1 w else w), None)
      else (w, Some EType))
  end.

(** notify_to_run_job, 191-226 *)
Definition to_launch (e : env) (id : Z) (w : world) : step :=
  ((if bool_decide (id ∈ treated w) then w else if commander e id then with_order id w else w), None).

(** get_gantt_waiting_interactive_prediction_date, job_handling.py:832-846.  [preds]: gantt_jobs_predictions
    (moldable, start). *)
Definition waiting_interactive (preds : list (Z * Z)) (d : db) : list (job * Z) :=
  j ← filter (fun j => j_state j = "Waiting" /\ j_type j = "INTERACTIVE" /\ j_reservation j = "None")%string (jobs d);
  m ← filter (fun m => m_job m = j_id j) (mlds d);
  p ← filter (fun p => p.1 = m_id m) preds; [(j, p.2)].
(** 1230-1262; [sql]: local_to_sql. *)
Definition prediction_text (sql : Z -> string) (e : env) (j : job) (start : Z) : string :=
  ("[" +:+ sql (now e) +:+ "] Start prediction: " +:+ sql start +:+ " (" +:+ message e (j_id j) +:+ ")")%string.
Definition tell_prediction (sql : Z -> string) (e : env) (x : job * Z) (w : world) : step :=
  let '(j, start) := x in
  match addr_port (info e (j_id j)) with
  | None => (w, Some EValue)
  | Some (a, p) =>
      notify_tcp e (j_id j) a p (prediction_text sql e j start) w (fun ok w =>
      if ok then (w, None)
      else (with_asked "Qdel" (with_base (fun d => snd (frag_job (now e) (user e) (j_id j) (add_event "LOST_SESSION" (j_id j) d))) w), None))
  end.

(** get_jobs_on_resuming_job_resources, job_handling.py:1366-1394: a1, a2 range over assigned_resources ([asg]:
    moldable, resource, the current ones); nothing links a2 to j2, and the fifth state ends with a space. *)
Definition busy_states : list string := ["toLaunch"; "toError"; "toAckReservation"; "Launching"; "Running "; "Finishing"]%string.
Definition others (asg : list (Z * Z)) (d : db) (id : Z) : list Z :=
  j1 ← filter (fun j => j_id j = id) (jobs d);
  j2 ← filter (fun j => id <> j_id j /\ j_state j ∈ busy_states) (jobs d);
  a1 ← filter (fun a => a.1 = j_mld j1) asg;
  a2 ← filter (fun a => a.2 = a1.2) asg; [j_id j2].
(** 1146-1224.  resume_job_action (1397-1413) calls set_job_state without its session: TypeError, before any write.
    The rest of the branch (cpusets) is not reached: it requires skip == 0. *)
Definition resume (e : env) (asg : list (Z * Z)) (j : job) (w : world) : step :=
  match others asg (base w) (j_id j) with
  | _ :: _ => (w, None)
  | [] =>
      if bool_decide ("noop"%string ∈ j_types j) then (w, Some EType)
      else match script e with
           | None => (w, Some EKey)
           | Some run =>
               let w := match run (j_id j) with None => with_base (add_event "RESUME_SCRIPT_ERROR" (j_id j)) w | Some _ => w end in
               ((if bool_decide (run (j_id j) = Some 0) then w
                 else with_asked "Qdel" (with_base (fun d => snd (frag_job (now e) (user e) (j_id j) (add_event "RESUME_SCRIPT_ERROR" (j_id j) d))) w)), None)
           end
  end.

(** 1075-1140: an unknown mode leaves nodes_2_change unbound.  What the two known modes do is in EnergyModel and does
    not touch the jobs. *)
Definition energy_step (e : env) (w : world) : step :=
  match energy e with
  | None => (w, None)
  | Some m => if bool_decide (m ∈ [""; "metascheduler_decision_making"; "batsim_scheduler_proxy_decision_making"]%string) then (w, None)
              else (w, Some EName)
  end.

(** 1071-1332: after the launches.  The jobs of each state are those read at 1142-1143, after the energy saving. *)
Definition notifications (sql : Z -> string) (e : env) (preds asg : list (Z * Z)) (w : world) : step :=
  andthen (energy_step e w) (fun w0 =>
  let by_state := fun st => in_state st (base w0) in
  andthen (each (resume e asg) (by_state "Resuming"%string) w0) (fun w =>
  andthen (each (tell_prediction sql e) (waiting_interactive preds (base w)) w) (fun w =>
  andthen (each (to_error e) (by_state "toError"%string) w) (fun w =>
  andthen (each (to_ack e) (by_state "toAckReservation"%string) w) (fun w =>
  each (to_launch e) (j_id <$> by_state "toLaunch"%string) w))))).

(** ** update_gantt_visualization, 611-630: the tables shown to the users (predictions, resources), after [n] of its
    two commits. *)
Record gantt := mkGantt { plan_pred : list (Z * Z); plan_res : list (Z * Z); shown_pred : list (Z * Z); shown_res : list (Z * Z) }.
Definition update_shown (n : nat) (g : gantt) : gantt :=
  match n with
  | O => g
  | S O => mkGantt (plan_pred g) (plan_res g) [] []
  | _ => mkGantt (plan_pred g) (plan_res g) (plan_pred g) (plan_res g)
  end.

(** ** call_external_scheduler, 655-717: what is done with the end of the scheduler.  [rc]: child.wait(), None when
    Popen raised OSError.  The result: whether the queue is stopped, and the values written in the log. *)
Definition sched_end (rc : option Z) : bool * Z * Z * bool :=
  let launched := match rc with Some _ => true | None => false end in
  let rc := default 0 rc in
  let code := Z.shiftr rc 8 in let sig := Z.land rc 127 in let core := negb (Z.land rc 128 =? 0) in
  (negb launched || negb (sig =? 0) || core || negb (code =? 0), code, sig, core).
(** stop_queue, oar/lib/queue.py:41-47: queues (name, state) *)
Definition stop_queue (name : string) (qs : list (string * string)) : list (string * string) :=
  (fun q => if bool_decide (q.1 = name) then (q.1, "notActive"%string) else q) <$> qs.
Definition after_external (name : string) (rc : option Z) (qs : list (string * string)) : list (string * string) :=
  if (sched_end rc).1.1.1 then stop_queue name qs else qs.
