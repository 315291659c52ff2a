(** Launch of a job on its nodes: oar/modules/bipbip.py:46-640, oar/lib/job_handling.py:2100-2585 (check_end_of_job,
    job_finishing_sequence), oar/lib/tools.py:225-338 (pingchecker), 535-618 (manage_remote_commands),
    oar/lib/event.py:12-47.  No proofs here.  The outside world (what the nodes, the prologues and the client answer)
    is an argument; what the launcher does is a trace, in order.  Simplified: texts of the messages and of the
    events, ssh keys, the data sent to the nodes; the columns of the job not read to decide. *)
From Coq Require Import Ascii.
From Verif Require Import Base.
From Verif Require JobModel.

(** What the launcher does.  [ASet]: set_job_state, committed.  [AEvent]: an event is committed, with its hosts
    (None: event without hosts).  [AArchive]: the resources of these hosts leave the job.  [ACpuset "init" hs],
    [ACpuset "clean" hs]: manage_remote_commands on these hosts.  [APing]: pingchecker.  [APrologue]: the server
    prologue is started.  [AEpilogue]: the server epilogue.  [AExec head]: oarexec, with the command of the job, is
    sent to [head].  [ANotify]: a message to the client of an interactive job.  [AAlmighty]: a command sent to
    Almighty. *)
Inductive act :=
| ASet (st : string) | AEvent (ty : string) (hosts : option (list string)) | AArchive (hosts : list string)
| ACpuset (action : string) (hosts : list string) | APing (hosts : list string) | APrologue | AEpilogue
| AExec (head : string) | ANotify (msg : string) | AAlmighty (cmd : string).
(** A run: the actions, the exit code, the exception that stopped it. *)
Record run := mkRun { trace : list act; code : Z; raised : option err }.
Definition stop (c : Z) : run := mkRun [] c None.
Definition crash (c : Z) (e : err) : run := mkRun [] c (Some e).
Definition tell (l : list act) (r : run) : run := mkRun (l ++ trace r) (code r) (raised r).

(** The job as read at bipbip.py:103-108 and 185. *)
Record ljob := mkLjob { l_state : string; l_type : string; l_resv : string; l_types : list string;
  l_hosts : list string; l_challenge : string }.
(** The result of a script: exit code 0, another, TimeoutExpired, OSError. *)
Inductive script := SOk | SBad | STimeout | SOs.
(** [cnodes]: the keys of get_cpuset_values (1416-1453), None when JOB_RESOURCE_MANAGER_PROPERTY_DB_FIELD is not
    configured.  [init], [clean]: manage_remote_commands; None is the tag 0.  [ping]: pingchecker; None is (0, []).
    [prologue]: None when no server prologue is configured, else the results of its two runs.  [exec_ok]:
    launch_oarexec.  [client]: notify_interactif_user "GOOD JOB". *)
Record world := mkWorld { cnodes : option (list string); init : option (list string);
  clean : option (list string); ping : list string -> option (list string); prologue : option (script * script);
  exec_ok : bool; client : bool; cosystem_host : string; deploy_host : string }.
(** What job_finishing_sequence meets: epilogue, keys of get_cpuset_values, clean, ping (when activated). *)
Record finworld := mkFin { f_epilogue : option script; f_cnodes : option (list string); f_clean : option (list string);
  f_ping : option (list string -> option (list string)) }.

Definition interactive (j : ljob) : bool :=
  bool_decide (l_type j = "INTERACTIVE"%string /\ l_resv j = "None"%string).
Definition has_type (t : string) (j : ljob) : bool := bool_decide (t ∈ l_types j).

(** ** The end of a job *)
(** The events are tuples: (type, text) or (type, text, hosts), where hosts may be None. *)
Inductive tup := Pair (ty : string) | Triple (ty : string) (hosts : option (list string)).
(** Lines 2572-2578 and event.py:12-47: the events are recorded one by one; hosts that is not a list raises
    TypeError, before the commit of the event. *)
Fixpoint record (evs : list tup) : list act * option err :=
  match evs with
  | [] => ([], None)
  | Pair ty :: r => let '(l, e) := record r in (AEvent ty None :: l, e)
  | Triple ty (Some hs) :: r => let '(l, e) := record r in (AEvent ty (Some hs) :: l, e)
  | Triple ty None :: _ => ([], Some EType)
  end.
(** Lines 2375-2406 *)
Definition epilogue_events (o : option script) : list act * list tup :=
  match o with
  | None => ([], [])
  | Some SOk => ([AEpilogue], [])
  | Some SOs => ([], [])
  | Some SBad => ([AEpilogue], [Triple "SERVER_EPILOGUE_EXIT_CODE_ERROR" None])
  | Some STimeout => ([AEpilogue], [Triple "SERVER_EPILOGUE_TIMEOUT" None])
  end.
(** Lines 2408-2530 *)
Definition clean_events (f : finworld) (types : list string) : list act * list tup :=
  if bool_decide ("deploy" ∈ types \/ "cosystem" ∈ types \/ "noop" ∈ types)%string then ([], [])
  else match f_cnodes f with
       | Some (h :: hs) =>
           ([ACpuset "clean" (h :: hs)],
            match f_clean f with
            | None => [Pair "CPUSET_MANAGER_FILE"]
            | Some [] => []
            | Some bad => [Triple "CPUSET_CLEAN_ERROR" (Some bad)]
            end)
       | _ => ([], [])
       end.
(** Lines 2535-2570 *)
Definition ping_events (f : finworld) (types hosts : list string) : list act * list tup :=
  match f_ping f with
  | None => ([], [])
  | Some p =>
      if bool_decide ("deploy" ∈ types \/ "noop" ∈ types)%string then ([], [])
      else ([APing hosts],
            match p hosts with
            | None => [Triple "PING_CHECKER_NODE_SUSPECTED_END_JOB" (Some hosts)]
            | Some [] => []
            | Some bad => [Triple "PING_CHECKER_NODE_SUSPECTED_END_JOB" (Some bad)]
            end)
  end.
(** job_finishing_sequence, 2374-2585.  The exception leaves the function before the last message. *)
Definition finishing (f : finworld) (types hosts : list string) (events : list tup) : list act * option err :=
  let '(a1, e1) := epilogue_events (f_epilogue f) in
  let '(a2, e2) := clean_events f types in
  let '(a3, e3) := ping_events f types hosts in
  let all := events ++ e1 ++ e2 ++ e3 in
  let '(l, e) := record all in
  (a1 ++ a2 ++ a3 ++ l ++
   match e, all with None, _ :: _ => [AAlmighty "ChState"] | _, _ => [] end, e).

(** The exit codes after which Almighty is told "Term" (notify_almighty_term). *)
Definition notify_term (error : Z) : bool := bool_decide (error ∈ [0; 34; 40; 42; 41]).
(** check_end_of_job, 2100-2371.  The events of an exit code: JobModel.end_events (all pairs); their text may read
    hosts[0].  The resubmission of killed jobs (2151-2173) is in ResubModel. *)
Definition end_states : list string := ["Running"; "Launching"; "Suspended"; "Resuming"]%string.
Definition check_end (f : finworld) (st : string) (types hosts : list string) (error c : Z) : run :=
  if bool_decide (st ∈ end_states) then
    tell [ASet "Finishing"]
      (if (JobModel.end_events error).2 && bool_decide (hosts = []) then crash c EIndex
       else let '(l, e) := finishing f types hosts (Pair <$> (JobModel.end_events error).1) in
            match e with
            | Some e => tell l (crash c e)
            | None => tell (l ++ (if notify_term error then [AAlmighty "Term"] else []) ++ [AAlmighty "BipBip"]) (stop c)
            end)
  else tell [AAlmighty "BipBip"] (stop c).

(** ** The launch *)
(** call_server_prologue, 584-640: the actions and the new exit code; the returned value is ignored at 398 and
    525, so it is not in the result.  OSError is only logged. *)
Definition call_prologue (j : ljob) (o : option script) (c : Z) : list act * Z :=
  match o with
  | None => ([], c)
  | Some SOk => ([APrologue], c)
  | Some SOs => ([], c)
  | Some SBad =>
      ([APrologue; AEvent "SERVER_PROLOGUE_EXIT_CODE_ERROR" None; AAlmighty "ChState"] ++
       (if interactive j then [ANotify "ERROR: SERVER PROLOGUE returned a bad value"] else []), 2)
  | Some STimeout =>
      ([APrologue; AEvent "SERVER_PROLOGUE_TIMEOUT" None; AAlmighty "ChState"] ++
       (if interactive j then [ANotify "ERROR: SERVER PROLOGUE timeouted"] else []), 2)
  end.

(** Lines 412-420: where the command is started. *)
Definition head_node (j : ljob) (w : world) (hosts : list string) : string :=
  if has_type "cosystem" j || bool_decide (hosts = []) then cosystem_host w
  else if has_type "deploy" j then deploy_host w
  else default ""%string (hd_error hosts).

(** Lines 398-582: the prologues, then the command. *)
Definition start (f : finworld) (j : ljob) (w : world) (hosts : list string) : run :=
  let '(a1, c1) := call_prologue j (fst <$> prologue w) 0 in
  let '(a2, c2) := call_prologue j (snd <$> prologue w) c1 in
  tell (a1 ++ a2)
    (if has_type "noop" j then tell [ASet "Running"] (stop c2)
     else tell [AExec (head_node j w hosts)]
       (if exec_ok w then
          tell [ASet "Running"]
            (if interactive j then
               tell [ANotify "GOOD JOB"] (if client w then stop c2 else tell [AAlmighty "Qdel"] (stop c2))
             else stop c2)
        else tell (if interactive j then [ANotify "ERROR: an error occured on the first job node"] else [])
               (check_end f "Launching" (l_types j) hosts 50 c2))).

(** Lines 347-396: some nodes do not answer; [k] is the rest of the launch. *)
Definition suspects (j : ljob) (ty : string) (hosts bad : list string) (k : run) : run :=
  if interactive j then
    tell [ANotify "ERROR: some resources did not respond"; AEvent ty (Some bad); AAlmighty "ChState"] (stop 2)
  else if bool_decide (l_resv j = "None"%string) then tell [AEvent ty (Some bad); AAlmighty "ChState"] (stop 2)
  else if bool_decide (base.filter (fun h => h ∉ bad) hosts = []) then
    (* add_new_event called without the session, 370-376: TypeError *)
    crash 0 EType
  else tell [AEvent ty (Some bad); AAlmighty "ChState"] k.

(** Lines 331-396: the ping, unless some nodes are already bad. *)
Definition check_nodes (f : finworld) (j : ljob) (w : world) (hosts bad : list string) : run :=
  match bad with
  | _ :: _ => suspects j "CPUSET_ERROR" hosts bad (start f j w hosts)
  | [] => tell [APing hosts]
            (match ping w hosts with
             | None => match hosts with
                       | [] => start f j w hosts
                       | _ => suspects j "PING_CHECKER_NODE_SUSPECTED" hosts hosts (start f j w hosts)
                       end
             | Some [] => start f j w hosts
             | Some bad => suspects j "PING_CHECKER_NODE_SUSPECTED" hosts bad (start f j w hosts)
             end)
  end.

(** Lines 209-325: the cpuset part. *)
Definition cpuset_part (f : finworld) (j : ljob) (w : world) : run :=
  match cnodes w with
  | Some (n :: ns) =>
      let all := n :: ns in
      tell [ACpuset "init" all]
        (match init w with
         | None => tell [AEvent "CPUSET_MANAGER_FILE" None] (check_nodes f j w (l_hosts j) [])
         | Some bad =>
             if bool_decide (bad <> [] /\ length bad < length all)%nat then
               if bool_decide (l_resv j = "None"%string) then
                 let rest := base.filter (fun h => h ∉ bad) all in
                 tell [ACpuset "clean" rest] (check_nodes f j w (l_hosts j) (bad ++ default [] (clean w)))
               else tell [AEvent "CPUSET_ERROR" (Some bad); AArchive bad; AAlmighty "ChState"]
                      (check_nodes f j w (base.filter (fun h => h ∉ bad) (l_hosts j)) [])
             else check_nodes f j w (l_hosts j) bad
         end)
  | _ => check_nodes f j w (l_hosts j) []
  end.

(** BipBip.run without a report, 165-582. *)
Definition launch (f : finworld) (j : ljob) (w : world) : run :=
  if bool_decide (l_state j = "toLaunch"%string) then
    tell (ASet "Launching" :: (if interactive j then [ANotify "Starting..."] else []))
      (if negb (has_type "deploy" j) && negb (has_type "cosystem" j) && negb (bool_decide (l_hosts j = []))
       then cpuset_part f j w else start f j w (l_hosts j))
  else stop 1.

(** BipBip.__init__ and run with a report of oarexec, 61-69 and 110-163: [args] are the arguments after the job
    identifier, [int] is int() of a text.  A missing argument is None, and its concatenation a TypeError. *)
Definition bipbip (int : string -> option Z) (f : finworld) (j : ljob) (w : world) (args : list string) : run :=
  match args with
  | v :: r =>
      if bool_decide (v <> ""%string) && bool_decide (l_state j ∈ end_states) then
        match r with
        | [] => crash 0 EType
        | script :: r' =>
            match int v with
            | None => stop 2
            | Some error =>
                match r' with
                | c :: _ => if bool_decide (c = l_challenge j)
                            then check_end f (l_state j) (l_types j) (l_hosts j) error 0
                            else tell [AEvent "BIPBIP_CHALLENGE" None] (stop 2)
                | [] => crash 0 EType
                end
            end
        end
      else launch f j w
  | [] => launch f j w
  end.

(** ** The answers of the nodes *)
Definition word (c : ascii) : bool :=
  let n := N_of_ascii c in
  ((48 <=? n) && (n <=? 57) || (65 <=? n) && (n <=? 90) || (97 <=? n) && (n <=? 122) || (n =? 95))%N.
Definition digit (c : ascii) : bool := let n := N_of_ascii c in ((48 <=? n) && (n <=? 57))%N.
(** [\w\.\-\d], ASCII letters only. *)
Definition host_char (c : ascii) : bool := word c || Ascii.eqb c "."%char || Ascii.eqb c "-"%char.
Fixpoint str_all (p : ascii -> bool) (s : string) : bool :=
  match s with EmptyString => true | String c r => p c && str_all p r end.
(** The longest prefix in a class, and the rest. *)
Fixpoint span (p : ascii -> bool) (s : string) : string * string :=
  match s with
  | EmptyString => (EmptyString, EmptyString)
  | String c r => if p c then let '(a, b) := span p r in (String c a, b) else (EmptyString, s)
  end.
Fixpoint strip (pre s : string) : option string :=
  match pre, s with
  | EmptyString, _ => Some s
  | String a p, String b r => if Ascii.eqb a b then strip p r else None
  | _, _ => None
  end.
Fixpoint contains (x s : string) : bool :=
  match strip x s with
  | Some _ => true
  | None => match s with EmptyString => false | String _ r => contains x r end
  end.
(** ^STATUS ([\w\.\-\d]+) (\d+)$ : tools.py:245 and 609. *)
Definition status_line (s : string) : option (string * string) :=
  match strip "STATUS " s with
  | None => None
  | Some r =>
      let '(h, r) := span host_char r in
      match strip " " r with
      | Some d => if bool_decide (h <> ""%string /\ d <> ""%string) && str_all digit d then Some (h, d) else None
      | None => None
      end
  end.
Definition status_ok (s : string) : option string :=
  match status_line s with Some (h, d) => if String.eqb d "0" then Some h else None | None => None end.
(** ^([\w\.\-]+)\s:\sBAD\s.*$ : 260 (\s is only the space and the tabulation here). *)
Definition space (c : ascii) : bool := Ascii.eqb c " "%char || Ascii.eqb c "009"%char.
Definition strip1 (p : ascii -> bool) (s : string) : option string :=
  match s with String c r => if p c then Some r else None | EmptyString => None end.
Definition andthen {A} (o : option string) (k : string -> option A) : option A :=
  match o with Some s => k s | None => None end.
Definition sentinelle_line (s : string) : option string :=
  let '(h, r) := span host_char s in
  match andthen (andthen (andthen (andthen (strip1 space r) (strip ":")) (strip1 space)) (strip "BAD")) (strip1 space) with
  | Some _ => if bool_decide (h <> ""%string) then Some h else None
  | None => None
  end.
(** ^\s*([\w\.\-]+)\s*$ : 278 *)
Definition generic_line (s : string) : option string :=
  let '(h, r) := span host_char (snd (span space s)) in
  if bool_decide (h <> ""%string) && str_all space r then Some h else None.
(** ^\s*([\w\.\d-]+)\s*( .* )$ and "alive" in the rest: 287-289 *)
Definition fping_line (s : string) : option string :=
  let '(h, r) := span host_char (snd (span space s)) in
  if bool_decide (h <> ""%string) && contains "alive" (snd (span space r)) then Some h else None.
(** ^Host:\s(\d+\.\d+\.\d+\.\d+).*/open/.*$ : 269 *)
Definition number (s : string) : option (string * string) :=
  let '(n, r) := span digit s in if bool_decide (n = ""%string) then None else Some (n, r).
Definition nmap_line (s : string) : option string :=
  match andthen (strip "Host:" s) (strip1 space) with
  | None => None
  | Some r =>
      match number r with
      | None => None
      | Some (a, r) =>
      match andthen (strip "." r) number with
      | None => None
      | Some (b, r) =>
      match andthen (strip "." r) number with
      | None => None
      | Some (c, r) =>
      match andthen (strip "." r) number with
      | None => None
      | Some (d, r) => if contains "/open/" r then Some (a ++ "." ++ b ++ "." ++ c ++ "." ++ d)%string else None
      end end end end
  end.

(** The keys of {h: True for h in hosts}. *)
Fixpoint keys_of (hosts : list string) : list string :=
  match hosts with [] => [] | h :: r => h :: base.filter (fun x => x <> h) (keys_of r) end.
(** pingchecker_exec_command, 299-338, once the command has ended with the lines [out].  [answer]: filter_output.
    With [add], the variable bad_hosts has no value: UnboundLocalError at the first host read (EName). *)
Fixpoint read_lines (answer : string -> res (option string)) (add : bool) (out : list string)
    (bad : list string) : res (list string) :=
  match out with
  | [] => Ok (if add then [] else bad)
  | l :: r =>
      match answer l with
      | Err e => Err e
      | Ok None => read_lines answer add r bad
      | Ok (Some h) =>
          if add then Err EName
          else read_lines answer add r (if bool_decide (h ∈ bad) then base.filter (fun x => x <> h) bad else bad)
      end
  end.
(** The configured method, 232-292.  [MNmap resolve]: socket.gethostbyname. *)
Inductive method := MTaktuk | MSentinelle | MNmap (resolve : string -> string) | MGeneric | MFping | MNone.
(** {socket.gethostbyname(h): h for h in hosts}: the last host wins; an address not in it is a KeyError. *)
Definition by_address (resolve : string -> string) (hosts : list string) (ip : string) : option string :=
  last (base.filter (fun h => resolve h = ip) hosts).
Definition pingchecker (m : method) (hosts out : list string) : res (list string) :=
  match m with
  | MTaktuk => read_lines (fun l => Ok (status_ok l)) false out (keys_of hosts)
  | MSentinelle => read_lines (fun l => Ok (sentinelle_line l)) true out []
  | MNmap resolve =>
      read_lines (fun l => match nmap_line l with
                           | None => Ok None
                           | Some ip => match by_address resolve hosts ip with Some h => Ok (Some h) | None => Err EKey end
                           end) false out (keys_of hosts)
  | MGeneric => read_lines (fun l => Ok (generic_line l)) true out []
  | MFping => read_lines (fun l => Ok (fping_line l)) true out []
  | MNone => Err EName
  end.
(** manage_remote_commands, 581-616, once taktuk has ended with the lines [out]. *)
Definition remote (hosts out : list string) : res (list string) :=
  read_lines (fun l => Ok (status_ok l)) false out (keys_of hosts).
