(** Specification for the Gantt tables: what "accepted", "running", "free to be planned again" mean. *)
From Verif Require Import Base GanttModel.
Definition job_of (d : gdb) (m : Z) (j : gjob) : Prop := j ∈ gjobs d /\ exists x, x ∈ gmlds d /\ m_id x = m /\ m_job x = q_id j.
(** An accepted reservation that has not started, with its place in the Gantt. *)
Definition accepted (d : gdb) (m : Z) : Prop :=
  exists j, job_of d m j /\ (q_state j = "Waiting"%string \/ q_state j = "toAckReservation"%string) /\ q_resv j = "Scheduled"%string /\
  (exists t, (m, t) ∈ gpred d) /\ (exists r, (m, r) ∈ gres d).
(** A job that holds resources. *)
Definition active (d : gdb) (j : gjob) : Prop :=
  j ∈ gjobs d /\ (q_state j = "Running" \/ q_state j = "toLaunch" \/ q_state j = "Launching" \/ q_state j = "Finishing" \/ q_state j = "Suspended" \/ q_state j = "Resuming")%string /\
  exists r, (q_mld j, r) ∈ gasg d.
Definition usable (l : list ores) (id : Z) : Prop := exists x, x ∈ l /\ o_id x = id /\ (o_state x = "Alive"%string \/ o_state x = "Absent"%string).
(** The resources the scheduler takes as those of a loaded job. *)
Definition counted_on (l : list ores) (j : ljob) (id : Z) : Prop := exists k x, k ∈ l_res j /\ 0 <= k /\ l !! Z.to_nat k = Some x /\ o_id x = id.
(** The rows of a job follow each other. *)
Definition grouped (rows : list lrow) : Prop :=
  exists css : list (Z * list lrow), rows = mjoin css.*2 /\ NoDup css.*1 /\ (forall c, c ∈ css -> c.2 <> [] /\ forall x, x ∈ c.2 -> q_id (w_job x) = c.1).
(** One prediction for each job. *)
Definition one_place (d : gdb) : Prop := forall m1 t1 m2 t2 j, (m1, t1) ∈ gpred d -> (m2, t2) ∈ gpred d -> job_of d m1 j -> job_of d m2 j -> m1 = m2 /\ t1 = t2.
Definition is_besteffort (j : gjob) : Prop := exists v, ("besteffort"%string, v) ∈ q_texts j.
