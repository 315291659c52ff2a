(** The commands on jobs: oardel (oar/cli/oardel.py:32-280), oarhold (oar/cli/oarhold.py:25-100), oarresume (oar/cli/oarresume.py:22-72), the text that
    signal_oarexec runs on a host (oar/lib/tools.py:391-427), and the routes of the API that call them (oar/api/routers/job.py:440-541).  No proofs here.
    The requests on one job are those of JobModel; the exit values are those of CommandReturns (AdminModel).  Left out: the messages, the priorities of the
    resources (C145), the option -V, identifiers that are not numbers.  What the options select (the jobs of an array, of a SQL condition) is given, and so
    is whether the server and the hosts answer. *)
From Verif Require Import Base JobModel.
From Verif Require AdminModel.

Record world := mkWorld {
  w_array : Z -> list Z; (** the jobs of an array *)
  w_sql : string -> list Z; (** the jobs of a condition *)
  w_hosts : Z -> list string; (** get_job_current_hostnames *)
  w_reach : bool; (** the server answers *)
  w_signal_fails : string -> bool; (** the ssh to the host fails *)
  w_cosystem : string; w_deploy : string; (** COSYSTEM_HOSTNAME, DEPLOY_HOSTNAME *)
  w_max : Z; (** 2 * OAR_SSH_CONNECTION_TIMEOUT + SERVER_PROLOGUE_EPILOGUE_TIMEOUT *)
  w_now : Z }.
(** A signal that is sent: host, job, signal, signal of the user. *)
Record sent_signal := mkSent { g_host : string; g_job : Z; g_signal : string; g_user : option string }.
(** What a command did: the database, the exit values, the notifications, the signals. *)
Record out := mkOut { o_db : db; o_exits : list Z; o_sent : list string; o_signals : list sent_signal }.
Definition add_exit (v : Z) (o : out) : out := mkOut (o_db o) (o_exits o ++ [v]) (o_sent o) (o_signals o).
Definition on_db (f : db -> db) (o : out) : out := mkOut (f (o_db o)) (o_exits o) (o_sent o) (o_signals o).
Definition exit_status (o : out) : Z := fst (AdminModel.get_exit_value (AdminModel.mkReturns (o_exits o) 0)).
(** The command ends, or an exception after this. *)
Definition run : Type := out * option err.
Definition start_of (d : db) : out := mkOut d [] [] [].
(** notify_almighty("ChState"), the error 2 when it fails *)
Definition notify_state (w : world) (o : out) : out :=
  if w_reach w then mkOut (o_db o) (o_exits o) (o_sent o ++ ["ChState"%string]) (o_signals o) else add_exit 2 o.

(** Which jobs: oardel.py:58-76, oarhold.py:34-51.  [array]: 0 when it is not given; a condition that is empty is not given. *)
Inductive choice := Usage | Nobody | Those (ids : list Z).
Definition select (w : world) (ids : list Z) (array : Z) (sql : option string) : choice :=
  if bool_decide (ids = []) && (array =? 0) && bool_decide (sql = None) then Usage
  else match (if array =? 0 then Some ids else match w_array w array with [] => None | l => Some l end) with
       | None => Nobody
       | Some ids => match sql with None => Those ids | Some q => match w_sql w q with [] => Nobody | l => Those l end end
       end.

(** ** oardel without option: oardel.py:232-278 *)
Definition frag_exit (e : Z) : Z := if e =? -1 then 1 else if e =? -2 then 6 else if e =? -3 then 7 else 0.
Definition delete_one (w : world) (u : string) (st : out * bool) (id : Z) : out * bool :=
  let '(o, notify) := st in
  let '(e, d) := frag_job (w_now w) u id (o_db o) in
  (add_exit (frag_exit e) (on_db (fun _ => d) o), notify || (e =? -2) || negb ((e =? -1) || (e =? -2) || (e =? -3))).
Definition delete_jobs (w : world) (u : string) (ids : list Z) (d : db) : run :=
  let '(o, notify) := fold_left (delete_one w u) ids (start_of d, false) in
  (if notify then
     if w_reach w then mkOut (o_db o) (o_exits o) (o_sent o ++ ["ChState"; "Qdel"]%string) (o_signals o) else add_exit 2 o
   else o, None).

(** ** oardel -c, -s: oardel.py:78-144 *)
(** A signal of the user: a text (oardel -s), or a number (the API). *)
Inductive usignal := SText (s : string) | SNumber (n : Z).
(** The text run on the host, tools.py:403-427; [file], [sigfile]: the names of the files of the job.  A number raises TypeError. *)
Definition remote_command (file sigfile : string) (signal : string) (us : option usignal) : res string :=
  let rest := ("test -e " +:+ file +:+ " && PROC=$(cat " +:+ file +:+ ") && kill -s CONT $PROC && kill -s " +:+ signal +:+ " $PROC'")%string in
  match us with
  | None => Ok ("bash -c '" +:+ rest)%string
  | Some (SText s) => Ok ("bash -c 'echo " +:+ s +:+ " > " +:+ sigfile +:+ " && " +:+ rest)%string
  | Some (SNumber _) => Err EType
  end.
Definition signal_name (checkpoint : bool) : string := (if checkpoint then "SIGUSR2" else "SIGURG")%string.
Definition signal_host (w : world) (j : job) : res string :=
  if bool_decide ("cosystem"%string ∈ j_types j) then Ok (w_cosystem w)
  else if bool_decide ("deploy"%string ∈ j_types j) then Ok (w_deploy w)
  else match w_hosts w (j_id j) with h :: _ => Ok h | [] => Err EIndex end.
Definition signal_one (w : world) (u : string) (checkpoint : bool) (us : option usignal) (id : Z) (o : out) : run :=
  let '(e, d) := ask_checkpoint (Some (signal_name checkpoint)) u id (o_db o) in
  if 0 <? e then (add_exit (if e =? 1 then 1 else if e =? 3 then 7 else 5) o, None)
  else
    let o := on_db (fun _ => d) o in
    match get_job d id with
    | None => (o, Some EAttr)
    | Some j =>
        match signal_host w j with
        | Err e => (o, Some e)
        | Ok host =>
            match us with
            | Some (SNumber _) => (o, Some EType)
            | _ =>
                let tag := (if checkpoint then "CHECKPOINT" else "SIG")%string in
                let o := mkOut (o_db o) (o_exits o) (o_sent o) (o_signals o ++ [mkSent host id (signal_name checkpoint) (match us with Some (SText s) => Some s | _ => None end)]) in
                if w_signal_fails w host then (add_exit 3 (on_db (add_event (tag +:+ "_ERROR") id) o), None)
                else (add_exit 0 (on_db (add_event (tag +:+ "_SUCCESS") id) o), None)
            end
        end
    end.
(** A loop that an exception stops. *)
Fixpoint each (f : Z -> out -> run) (ids : list Z) (o : out) : run :=
  match ids with
  | [] => (o, None)
  | id :: ids' => match f id o with (o, None) => each f ids' o | r => r end
  end.
Definition signal_jobs (w : world) (u : string) (checkpoint : bool) (us : option usignal) (ids : list Z) (d : db) : run :=
  each (signal_one w u checkpoint us) ids (start_of d).

(** ** oardel --force-terminate-finishing-job: oardel.py:146-186.  get_job_state raises when there is no such job. *)
Definition force_one (w : world) (id : Z) (o : out) : run :=
  match get_job (o_db o) id with
  | None => (o, Some EKey)
  | Some j =>
      if bool_decide (j_state j = "Finishing"%string) then
        if w_max w <? duration_in_state (w_now w) id "Finishing" (o_db o) then (add_exit 0 (on_db (add_event "FORCE_TERMINATE_FINISHING_JOB" id) o), None)
        else (add_exit 11 o, None)
      else (add_exit 10 o, None)
  end.
(** ** oardel -b: oardel.py:188-230 *)
Definition with_types (f : list string -> list string) (j : job) : job :=
  JobModel.mkJob (j_id j) (j_user j) (j_state j) (j_type j) (j_queue j) (j_start j) (j_stop j) (j_suspended j) (j_mld j) (j_reservation j) (f (j_types j)).
Definition set_types (f : list string -> list string) (id : Z) : db -> db := with_jobs (upd (fun j => j_id j = id) (with_types f)).
Definition besteffort_one (w : world) (id : Z) (o : out) : run :=
  match get_job (o_db o) id with
  | None => (o, Some EAttr)
  | Some j =>
      if bool_decide (j_state j = "Running"%string) then
        if bool_decide ("besteffort"%string ∈ j_types j) then
          (on_db (fun d => add_event "DELETE_BESTEFFORT_JOB_TYPE" id (set_types (filter (fun t => t <> "besteffort"%string)) id d)) o, None)
        else (on_db (fun d => add_event "ADD_BESTEFFORT_JOB_TYPE" id (set_types (fun l => l ++ ["besteffort"%string]) id d)) o, None)
      else (add_exit 0 o, None)
  end.
Definition admin_jobs (f : Z -> out -> run) (w : world) (u : string) (ids : list Z) (d : db) : run :=
  if admin u then match each f ids (start_of d) with (o, None) => (notify_state w o, None) | r => r end
  else (add_exit 8 (start_of d), None).

(** ** oardel *)
Record delopts := mkDel { d_checkpoint : bool; d_signal : option usignal; d_besteffort : bool; d_force : bool }.
Definition oardel (w : world) (u : string) (ids : list Z) (array : Z) (sql : option string) (p : delopts) (d : db) : run :=
  match select w ids array sql with
  | Usage => (add_exit 1 (start_of d), None)
  | Nobody => (add_exit 0 (start_of d), None)
  | Those ids =>
      if d_checkpoint p || bool_decide (is_Some (d_signal p)) then signal_jobs w u (d_checkpoint p) (d_signal p) ids d
      else if d_force p then admin_jobs (force_one w) w u ids d
      else if d_besteffort p then admin_jobs (besteffort_one w) w u ids d
      else delete_jobs w u ids d
  end.

(** ** oarhold, oarresume: stop at the first refusal.  [cpuset]: JOB_RESOURCE_MANAGER_PROPERTY_DB_FIELD is set; [allowed]: USERS_ALLOWED_HOLD_RESUME. *)
Definition job_types (d : db) (id : Z) : list string := match get_job d id with Some j => j_types j | None => [] end.
Fixpoint hold_jobs (allowed cpuset running : bool) (u : string) (ids : list Z) (o : out) : out * bool :=
  match ids with
  | [] => (o, true)
  | id :: ids' =>
      if running && (negb cpuset || bool_decide ("cosystem"%string ∈ job_types (o_db o) id) || bool_decide ("deploy"%string ∈ job_types (o_db o) id)) then (add_exit 2 o, false)
      else let '(e, d) := hold_job allowed running u id (o_db o) in
           if e =? 0 then hold_jobs allowed cpuset running u ids' (add_exit 0 (on_db (fun _ => d) o)) else (add_exit 1 o, false)
  end.
Definition tell_state (w : world) (o : out) : out := if w_reach w then mkOut (o_db o) (o_exits o) (o_sent o ++ ["ChState"%string]) (o_signals o) else o.
Definition oarhold (w : world) (allowed cpuset running : bool) (u : string) (ids : list Z) (array : Z) (sql : option string) (d : db) : out :=
  match select w ids array sql with
  | Usage => add_exit 1 (start_of d)
  | Nobody => add_exit 0 (start_of d)
  | Those ids => let '(o, all) := hold_jobs allowed cpuset running u ids (start_of d) in if all : bool then tell_state w o else o
  end.
Fixpoint resume_jobs (allowed : bool) (u : string) (ids : list Z) (o : out) : out * bool :=
  match ids with
  | [] => (o, true)
  | id :: ids' =>
      let '(e, d) := resume_job allowed u id (o_db o) in
      if e =? 0 then resume_jobs allowed u ids' (add_exit 0 (on_db (fun _ => d) o)) else (add_exit 1 o, false)
  end.
(** When nothing is selected oarresume goes on with no job; with both options the condition decides. *)
Definition oarresume (w : world) (allowed : bool) (u : string) (ids : list Z) (array : Z) (sql : option string) (d : db) : out :=
  if bool_decide (ids = []) && (array =? 0) && bool_decide (sql = None) then add_exit 1 (start_of d)
  else let ids := match sql with Some q => w_sql w q | None => if array =? 0 then ids else w_array w array end in
       let '(o, all) := resume_jobs allowed u ids (start_of d) in if all : bool then tell_state w o else o.

(** ** The API, job.py:440-541 *)
Definition api_signal (w : world) (u : string) (id : Z) (signal : option Z) (d : db) : run :=
  match signal with
  | Some 0 | None => oardel w u [id] 0 None (mkDel true None false false) d
  | Some n => oardel w u [id] 0 None (mkDel false (Some (SNumber n)) false false) d
  end.
(** POST /jobs/id/word/new *)
Definition api_hold (w : world) (allowed cpuset : bool) (u : string) (word : string) (id : Z) (d : db) : out :=
  oarhold w allowed cpuset (bool_decide (word = "rhold"%string)) u [id] 0 None d.
