(** What is said about the commands on jobs. *)
From Verif Require Import Base JobModel CmdModel.

Definition proper_jobs (d : db) : Prop := NoDup (j_id <$> jobs d).
(** [u] may act on the job. *)
Definition may (u : string) (j : job) : Prop := u = j_user j \/ u = "oar"%string \/ u = "root"%string.
Definition administrator (u : string) : Prop := u = "oar"%string \/ u = "root"%string.
(** The job [id] is there, [u] may act on it, and nobody asked to delete it before. *)
Definition deletable (u : string) (d : db) (id : Z) : Prop := (exists j, j ∈ jobs d /\ j_id j = id /\ may u j) /\ forall f, f ∈ frags d -> f_job f <> id.
(** Only the requests of deletion and the events may differ. *)
Definition same_jobs (d d' : db) : Prop := jobs d' = jobs d /\ logs d' = logs d /\ mlds d' = mlds d /\ wtcs d' = wtcs d.
(** A signal can be sent to the job [j]. *)
Definition signalable (u : string) (d : db) (j : job) : Prop := j ∈ jobs d /\ may u j /\ j_state j = "Running"%string /\ j_type j <> "INTERACTIVE"%string.
(** The host of the job for the signals. *)
Definition host_of (w : world) (j : job) (h : string) : Prop :=
  ("cosystem"%string ∈ j_types j /\ h = w_cosystem w) \/
  ("cosystem"%string ∉ j_types j /\ "deploy"%string ∈ j_types j /\ h = w_deploy w) \/
  ("cosystem"%string ∉ j_types j /\ "deploy"%string ∉ j_types j /\ exists r, w_hosts w (j_id j) = h :: r).
(** The job can be held, resumed, by [u]. *)
Definition holdable (allowed running : bool) (u : string) (d : db) (id : Z) : Prop :=
  exists j, j ∈ jobs d /\ j_id j = id /\ may u j /\ (running = true -> allowed = true \/ administrator u) /\
    (j_state j = "Waiting"%string \/ j_state j = "Resuming"%string \/ (running = true /\ (j_state j = "toLaunch"%string \/ j_state j = "Launching"%string \/ j_state j = "Running"%string))).
Definition resumable (allowed : bool) (u : string) (d : db) (id : Z) : Prop :=
  exists j, j ∈ jobs d /\ j_id j = id /\ may u j /\ (j_state j = "Hold"%string \/ (j_state j = "Suspended"%string /\ (allowed = true \/ administrator u))).
(** The job is in the state Finishing for longer than [w_max]. *)
Definition stuck (w : world) (d : db) (id : Z) : Prop :=
  exists j, j ∈ jobs d /\ j_id j = id /\ j_state j = "Finishing"%string /\ w_max w < duration_in_state (w_now w) id "Finishing" d.
(** The job with the type besteffort, or without it if it had it. *)
Definition toggled (j j' : job) : Prop :=
  j' = with_types (fun _ => j_types j') j /\
  ("besteffort"%string ∈ j_types j' <-> "besteffort"%string ∉ j_types j) /\ (forall t, t <> "besteffort"%string -> t ∈ j_types j' <-> t ∈ j_types j).
(** Only events may be added. *)
Definition only_events (d d' : db) : Prop := same_jobs d d' /\ frags d' = frags d /\ exists evs, events d' = events d ++ evs.
(** The signal [g] is what was asked for one of the jobs [ids]. *)
Definition good_signal (w : world) (u : string) (d : db) (signal : string) (text : option string) (ids : list Z) (g : sent_signal) : Prop :=
  g_job g ∈ ids /\ g_signal g = signal /\ g_user g = text /\ exists j, signalable u d j /\ j_id j = g_job g /\ host_of w j (g_host g).
(** A running job can be suspended: the cpusets are set, and the job is not of a type without them. *)
Definition suspendable (cpuset running : bool) (d : db) (id : Z) : Prop :=
  running = true -> cpuset = true /\ forall j, j ∈ jobs d -> j_id j = id -> "cosystem"%string ∉ j_types j /\ "deploy"%string ∉ j_types j.
(** [o]: the requests of the list [ids], in order, up to the first job without [ok]. *)
Definition stops_at_first (w : world) (ok : Z -> Prop) (event : string) (ids : list Z) (d : db) (o : out) : Prop :=
  exists l r, ids = l ++ r /\ only_events d (o_db o) /\ events (o_db o) = events d ++ ((fun id => mkEv event id "YES") <$> l) /\ Forall ok l /\ o_signals o = [] /\
    ((r = [] /\ exit_status o = 0 /\ o_sent o = if w_reach w then ["ChState"%string] else []) \/
     (exists id r', r = id :: r' /\ ~ ok id /\ exit_status o <> 0 /\ o_sent o = [])).
