(** What resubmission and the treatment of events should do. *)
From Verif Require Import Base HierarchyModel SubmitModel SubmitSpec ResubModel.

(** The request of a job as the database holds it: for each instance its walltime and its groups. *)
Definition request (d : db) (j : Z) : list (Z * list sgroup) := (fun x => (snd (fst x), snd x)) <$> moldables_of d j.
(** The same alternatives, each with the same groups, in any order. *)
Definition same_up_to_order (q q' : list (Z * list sgroup)) : Prop :=
  exists k, k ≡ₚ q /\ Forall2 (fun a b => fst a = fst b /\ snd a ≡ₚ snd b) k q'.
Definition types_of (d : db) (j : Z) : list string := snd <$> base.filter (fun t => fst t = j) (types d).
Definition states_of (s : sys) (j : Z) : list string := jstate <$> base.filter (fun r => jid r = j) (jobs (rq s)).

(** A job over, or nearly. *)
Definition over : list string := ["Finishing"; "Terminated"; "Error"]%string.
Definition known : list string :=
  ["toLaunch"; "toError"; "toAckReservation"; "Launching"; "Running"; "Finishing"; "Waiting"; "Hold"; "Suspended"; "Resuming";
   "Finishing"; "Terminated"; "Error"]%string.
Definition is_over (s : sys) (j : Z) : Prop :=
  (exists r, r ∈ jobs (rq s) /\ jid r = j) /\ forall r, r ∈ jobs (rq s) -> jid r = j -> jstate r ∈ over.
(** Some current job of another user than [u] has this key. *)
Definition key_used_by_other (s : sys) (u priv pub : string) : Prop :=
  priv <> EmptyString /\ exists k r x, (k, priv, pub) ∈ keys s /\ r ∈ jobs (rq s) /\ x ∈ exts s /\ jid r = k /\ x_job x = k /\
    jstate r ∈ ["Waiting"; "Hold"; "toLaunch"; "toError"; "toAckReservation"; "Launching"; "Running"; "Suspended"; "Resuming"]%string /\
    x_user x <> u.

(** Everything that can happen around the automatic resubmissions: jobs submitted, resubmitted by users, launched,
    ended, events added ...: a job that is over stays so, and the trace of a resubmission is kept. *)
Definition keeps (s s' : sys) : Prop :=
  (forall j, is_over s j -> is_over s' j) /\
  (forall x, x ∈ exts s -> exists x', x' ∈ exts s' /\ x_of x' = x_of x).

(** ** Histories of a database of jobs: submissions, resubmissions, any change outside the requests. *)
Section life.
  Variable dw : Z.
  Inductive life : sys -> list ask -> Prop :=
  | li_begin s asks : history dw (fun l => l) (rq s) asks -> life s asks
  | li_job s asks p array_id index cmd t j : life s asks -> proper (p_req p) -> array_id < nj (rq s) ->
      add_subjob dw (fun l => l) p array_id index cmd (rq s) = Ok (t, j) ->
      life (with_rq (fun d => default d (last t)) s) (asks ++ [mkAsk j (p_props p) (p_req p)])
  | li_array s asks p gs w cmds t js : life s asks -> p_req p = [(gs, w)] -> proper (p_req p) ->
      add_array dw (fun l => l) p gs w cmds (rq s) = Ok (t, js) ->
      life (with_rq (fun d => default d (last t)) s) (asks ++ ((fun j => mkAsk j (p_props p) (p_req p)) <$> js))
  | li_resubmit s asks u id n s' : life s asks -> resubmit (fun l => l) (fun l => l) (fun l => l) u id s = Ok (0, n, s') ->
      life s' (asks ++ ((fun a => mkAsk n (a_props a) (a_req a)) <$> base.filter (fun a => a_job a = id) asks))
  (* states, events, nodes, ...: the requests, the identifiers and the properties of the jobs stay *)
  | li_change s s' asks : life s asks -> mlds (rq s') = mlds (rq s) -> grps (rq s') = grps (rq s) -> descs (rq s') = descs (rq s) ->
      nj (rq s') = nj (rq s) -> nm (rq s') = nm (rq s) -> ng (rq s') = ng (rq s) ->
      Forall2 (fun r r' => jid r' = jid r /\ jprops r' = jprops r /\ jarray r' = jarray r) (jobs (rq s)) (jobs (rq s')) ->
      life s' asks.
End life.

(** ** Nodes blamed by an event *)
Definition named_by_event : list string :=
  ["PING_CHECKER_NODE_SUSPECTED"; "PING_CHECKER_NODE_SUSPECTED_END_JOB"; "CPUSET_ERROR"; "CPUSET_CLEAN_ERROR"; "SUSPEND_ERROR"; "RESUME_ERROR"]%string.
Definition whole_job : list string := ["PROLOGUE_ERROR"; "EPILOGUE_ERROR"; "FORCE_TERMINATE_FINISHING_JOB"]%string.
Definition first_host : list string :=
  ["CANNOT_WRITE_NODE_FILE"; "CANNOT_WRITE_PID_FILE"; "USER_SHELL"; "CANNOT_CREATE_TMP_DIRECTORY"; "SSH_TRANSFER_TIMEOUT";
   "BAD_HASHTABLE_DUMP"; "LAUNCHING_OAREXEC_TIMEOUT"; "EXIT_VALUE_OAREXEC"]%string.
Definition host_of_job (s : sys) (j : Z) (h : string) : Prop :=
  exists r x, job_of s j = Some (r, x) /\ (x_mld x, h) ∈ assigned s.

(** ** Runs: what happens to the database, and the list of the automatic resubmissions, in order. *)
Section runs.
  Variable rm : list mldrow -> list mldrow.
  Variable rg : list grprow -> list grprow.
  Variable rd : list descrow -> list descrow.
  Variable u : string.
  (** The jobs with a new row made from them by a step from [s] to [s']. *)
  Definition made (s s' : sys) (id : Z) : list Z := if Nat.eqb (length (exts s')) (length (exts s)) then [] else [id].
  (** Identifiers given by the database are new. *)
  Definition new_ids (s : sys) : Prop := forall r, r ∈ jobs (rq s) -> jid r < nj (rq s).
  Inductive run (s0 : sys) : list Z -> sys -> Prop :=
  | run_here : run s0 [] s0
  (* the parts of the treatment of an event that may resubmit, for any event, treated once, twice, or cut short *)
  | run_idempotent l s e : run s0 l s -> run s0 (l ++ made s (fst (ncs_idempotent rm rg rd u e s)) (e_job e)) (fst (ncs_idempotent rm rg rd u e s))
  | run_error l s e : run s0 l s -> run s0 (l ++ made s (fst (ncs_resubmit rm rg rd u e s)) (e_job e)) (fst (ncs_resubmit rm rg rd u e s))
  (* the end of a job killed *)
  | run_end l s id : run s0 l s -> run s0 (l ++ made s (fst (end_of_killed_job rm rg rd u id s)) id) (fst (end_of_killed_job rm rg rd u id s))
  (* anything else *)
  | run_other l s s' : run s0 l s -> keeps s s' -> new_ids s' -> run s0 l s'.
End runs.

(** ** Who is run again after an event *)
(** Errors of the system before or while the job is started, and the two scripts of the server. *)
Definition system_errors : list string :=
  ["SERVER_PROLOGUE_TIMEOUT"; "SERVER_PROLOGUE_EXIT_CODE_ERROR"; "SERVER_EPILOGUE_TIMEOUT"; "PING_CHECKER_NODE_SUSPECTED"; "CPUSET_ERROR";
   "PROLOGUE_ERROR"; "CANNOT_WRITE_NODE_FILE"; "CANNOT_WRITE_PID_FILE"; "USER_SHELL"; "CANNOT_CREATE_TMP_DIRECTORY"; "LAUNCHING_OAREXEC_TIMEOUT"]%string.
(** The job asked for it: exit status 99, after more than a minute, and not killed. *)
Definition asked_again (s : sys) (id : Z) (x : ext) : Prop :=
  (exists c, x_exit x = Some c /\ 99 * 256 <= c < 100 * 256) /\ (id, "idempotent"%string) ∈ types (rq s) /\
  (forall e, e ∈ evs s -> e_job e = id -> e_type e <> "SEND_KILL_JOB"%string) /\ x_start x + 60 < x_stop x.
Definition run_again (s : sys) (e : event) : Prop :=
  exists r x, job_of s (e_job e) = Some (r, x) /\ jresv r = "None"%string /\ x_type x = "PASSIVE"%string /\
    (forall y, y ∈ exts s -> x_of y <> e_job e) /\
    (e_type e ∈ system_errors \/
     (e_type e = "SWITCH_INTO_TERMINATE_STATE"%string \/ e_type e = "SWITCH_INTO_ERROR_STATE"%string) /\ asked_again s (e_job e) x).

(** Host [h] is blamed by event [e]; [cpuset]: the cpusets of the nodes are managed, and tell which nodes are dead. *)
Definition blamed (cpuset : bool) (s : sys) (e : event) (h : string) : Prop :=
  h <> EmptyString /\
  ((e_type e ∈ named_by_event /\ (e_id e, h) ∈ ehosts s) \/
   ((e_type e ∈ whole_job \/ (e_type e = "EXTERMINATE_JOB"%string /\ cpuset = false)) /\ host_of_job s (e_job e) h)).
(** The check of the nodes themselves failed. *)
Definition ping_events : list string := ["PING_CHECKER_NODE_SUSPECTED"; "PING_CHECKER_NODE_SUSPECTED_END_JOB"]%string.

(** ** Events that need their job to be treated *)
Definition server_scripts : list string :=
  ["SERVER_PROLOGUE_TIMEOUT"; "SERVER_PROLOGUE_EXIT_CODE_ERROR"; "SERVER_EPILOGUE_TIMEOUT"; "SERVER_EPILOGUE_EXIT_CODE_ERROR"]%string.
Definition about_job : list string :=
  (["SWITCH_INTO_TERMINATE_STATE"; "SWITCH_INTO_ERROR_STATE"; "RESERVATION_NO_NODE"; "EXTERMINATE_JOB"]%string ++ system_errors ++ named_by_event ++ whole_job ++ first_host).
(** The database holds what is needed: the job, its key, and a node of the job when the first one is blamed. *)
Definition ready (s : sys) (e : event) : Prop :=
  e_type e ∈ about_job ->
    (exists r x, job_of s (e_job e) = Some (r, x)) /\ (exists k, base.filter (fun k => fst (fst k) = e_job e) (keys s) = [k]) /\
    (e_type e ∈ first_host -> exists h, host_of_job s (e_job e) h).
(** Identifiers not given yet are not used. *)
Definition fresh_ids (s : sys) : Prop :=
  (forall r, r ∈ jobs (rq s) -> jid r < nj (rq s)) /\ (forall x, x ∈ exts s -> x_job x < nj (rq s)) /\
  (forall k, k ∈ keys s -> fst (fst k) < nj (rq s)).
(** Event number [i] is still to be treated. *)
Definition pending (s : sys) (i : Z) : Prop := exists e, e ∈ evs s /\ e_id e = i /\ e_check e = "YES"%string.
