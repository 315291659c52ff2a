(** Vocabulary of C136-C143: the end of a round. *)
From Coq Require Import Ascii.
From Verif Require Import Base JobModel RoundModel.
From Verif Require Import ReqSpec.

(** The client of a job waits at host:port. *)
Definition at_address (e : env) (id : Z) (host port : string) : Prop :=
  info e id = host +:+ String ":" port /\ lacks [":"%char] host /\ lacks [":"%char] port.
Fixpoint digits (s : string) : Prop := match s with EmptyString => True | String c s' => (48 <= nat_of_ascii c <= 57)%nat /\ digits s' end.
Definition number (s : string) : Prop := s <> ""%string /\ digits s.
Definition has_client (e : env) (id : Z) : Prop := exists host port, at_address e id host port /\ number port.

(** The clients told that their job is refused: interactive jobs and batch reservations. *)
Definition waits_for_verdict (j : job) : Prop :=
  j_type j = "INTERACTIVE"%string \/ j_type j = "PASSIVE"%string /\ j_reservation j = "Scheduled"%string.
(** An interactive job waiting, with the start predicted for it. *)
Definition predicted (preds : list (Z * Z)) (d : db) (j : job) (start : Z) : Prop :=
  j ∈ jobs d /\ j_state j = "Waiting"%string /\ j_type j = "INTERACTIVE"%string /\ j_reservation j = "None"%string /\
  exists m, m ∈ mlds d /\ m_job m = j_id j /\ (m_id m, start) ∈ preds.
(** What the code takes for a job using the resources of the resuming job. *)
Definition contended (asg : list (Z * Z)) (d : db) (j : job) : Prop :=
  (exists r, (j_mld j, r) ∈ asg) /\
  exists j2, j2 ∈ jobs d /\ j_id j2 <> j_id j /\ j_state j2 ∈ ["toLaunch"; "toError"; "toAckReservation"; "Launching"; "Running "; "Finishing"]%string.

(** Nothing stops the round. *)
Record smooth (e : env) (preds asg : list (Z * Z)) (d : db) : Prop := {
  sm_energy : forall m, energy e = Some m -> m = ""%string \/ m = "metascheduler_decision_making"%string \/ m = "batsim_scheduler_proxy_decision_making"%string;
  sm_resume : forall j, j ∈ jobs d -> j_state j = "Resuming"%string -> contended asg d j \/ ("noop"%string ∉ j_types j /\ script e <> None);
  sm_predicted : forall j t, predicted preds d j t -> has_client e (j_id j);
  sm_refused : forall j, j ∈ jobs d -> j_state j = "toError"%string -> (exists a p, at_address e (j_id j) a p) /\ (waits_for_verdict j -> has_client e (j_id j));
  sm_accepted : forall j, j ∈ jobs d -> j_state j = "toAckReservation"%string -> has_client e (j_id j) /\ reach e (j_id j) ("GOOD RESERVATION" +:+ newline) = true }.

(** The answer sent to a client, when it takes it. *)
Definition delivered (e : env) (id : Z) (text : string) : list (Z * string * string * string) :=
  match addr_port (info e id) with
  | Some (a, p) => if reach e id text then [(id, a, p, text)] else []
  | None => []
  end.
(** The row of a job after the verdicts are given. *)
Definition answered (j : job) : job :=
  if bool_decide (j_state j = "toError"%string) then
    mkJob (j_id j) (j_user j) "Error" (j_type j) (j_queue j) (j_start j) (Z.max (j_stop j) (j_start j)) (j_suspended j) (j_mld j) (j_reservation j) (j_types j)
  else if bool_decide (j_state j = "toAckReservation"%string) then
    mkJob (j_id j) (j_user j) "Waiting" (j_type j) (j_queue j) (j_start j) (j_stop j) (j_suspended j) (j_mld j) (j_reservation j) (j_types j)
  else j.

Global Instance waits_dec j : Decision (waits_for_verdict j).
Proof. unfold waits_for_verdict. apply _. Defined.
(** The texts sent for the refused jobs, for the accepted reservations. *)
Definition refusal (e : env) (j : job) : list (Z * string * string * string) :=
  if decide (waits_for_verdict j) then delivered e (j_id j) (message e (j_id j) +:+ newline) ++ delivered e (j_id j) ("BAD JOB" +:+ newline) else [].
Definition acceptance (e : env) (j : job) : list (Z * string * string * string) := delivered e (j_id j) ("GOOD RESERVATION" +:+ newline).
Definition of_state (st : string) (d : db) : list job := filter (fun j => j_state j = st) (jobs d).
(** Rounds one after the other, each a new process; between them nothing changes the tables. *)
Fixpoint rounds (sql : Z -> string) (es : list env) (preds asg : list (Z * Z)) (w : world) : world :=
  match es with
  | [] => w
  | e :: es' => let w' := fst (notifications sql e preds asg w) in
      rounds sql es' preds asg (mkW (base w') (told w') (ordered w') [] (asked w') 0)
  end.

(** Histories of the tables of the plan: the scheduler writes a plan, or the copy for the users is made, cut after
    [n] commits (2 or more: not cut). *)
Inductive plan_step := Plan (p r : list (Z * Z)) | Show (n : nat).
Definition plan_one (g : gantt) (s : plan_step) : gantt :=
  match s with Plan p r => mkGantt p r (shown_pred g) (shown_res g) | Show n => update_shown n g end.
Definition plan_run (h : list plan_step) : gantt := fold_left plan_one h (mkGantt [] [] [] []).

(** The text that tells the client of job [j] when it should start. *)
Definition announce (sql : Z -> string) (e : env) (j : job) (start : Z) : string :=
  ("[" +:+ sql (now e) +:+ "] Start prediction: " +:+ sql start +:+ " (" +:+ message e (j_id j) +:+ ")")%string.
(** The script run before job [j] is resumed fails. *)
Definition script_fails (e : env) (asg : list (Z * Z)) (d : db) (id : Z) : Prop :=
  exists j run, j ∈ jobs d /\ j_state j = "Resuming"%string /\ j_id j = id /\ ~ contended asg d j /\ script e = Some run /\ run id <> Some 0.
(** The client of the interactive job does not answer. *)
Definition session_lost (sql : Z -> string) (e : env) (preds : list (Z * Z)) (d : db) (id : Z) : Prop :=
  exists j t, predicted preds d j t /\ j_id j = id /\ reach e id (announce sql e j t) = false.

