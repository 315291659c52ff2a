(** Vocabulary of C147-C151. *)
From Verif Require Import Base ListModel.

Definition wf (d : db) : Prop := NoDup (j_id <$> jobs d) /\ forall a, a ∈ asgs d -> a_mld a <> 0.
(** The job satisfies what was asked. *)
Record asked (q : req) (j : job) : Prop := {
  as_user : q_user q <> ""%string -> j_user j = q_user q;
  as_states : q_states q <> [] -> j_state j ∈ q_states q;
  as_array : q_array q <> 0 -> j_array j = q_array q;
  as_ids : q_ids q <> [] -> j_id j ∈ q_ids q;
  as_cond : forall c, q_cond q = Some c -> c j = true }.
(** Ascending identifiers, each once. *)
Definition ascending (l : list job) : Prop := StronglySorted (fun a b => j_id a < j_id b) l.
(** The job has, or had, resources (and a description). *)
Definition has_resources (d : db) (j : job) (index : list string) : Prop :=
  (exists a, a ∈ asgs d /\ a_mld a = j_mld j /\ a_index a ∈ index) /\ exists m, m ∈ mlds d /\ m_job m = j_id j.
(** The job has a place in the plan shown to users. *)
Definition planned (d : db) (j : job) (start wall : Z) : Prop :=
  exists m r, m ∈ mlds d /\ m_job m = j_id j /\ (m_id m, start) ∈ visu_p d /\ (m_id m, r) ∈ visu_r d /\ wall = m_wall m.
Definition plain (q : req) : Prop := q_from q = None /\ q_to q = None.
Definition only_ids (ids : list Z) : req := mkReq "" None None [] ids 0 None.
Definition no_option : req := mkReq "" None None [] [] 0 None.
Definition window (a b : Z) : req := mkReq "" (Some a) (Some b) [] [] 0 None.

(** The states of a job (oar/lib/models.py, Job.state), and those the lists show without options. *)
Definition all_states : list string := ["Waiting"; "Hold"; "toLaunch"; "toError"; "toAckReservation"; "Launching"; "Running"; "Suspended"; "Resuming";
  "Finishing"; "Terminated"; "Error"]%string.
Definition shown (s : string) : Prop := s ∈ all_states /\ s <> "toError"%string /\ s <> "Terminated"%string /\ s <> "Error"%string.
