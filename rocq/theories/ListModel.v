(** The lists of jobs of oarstat and of the REST API: oar/lib/basequery.py:58-157 (filter_jobs_for_user), 166-199
    (get_jobs_for_user), 223-241, 305-320 (resources of jobs); oar/api/routers/job.py:44-63, 90-137 (index), 140-172
    (show), 183-206 (get_resources); oar/cli/oarstat.py:715-737.  No proofs here.
    Simplified: columns not used by the filters; the SQL condition given by the user is a condition on the row of the
    job; the pages of the API are in the model of C72. *)
From Verif Require Import Base.

Record job := mkJob { j_id : Z; j_user : string; j_state : string; j_array : Z; j_start : Z; j_stop : Z; j_sub : Z;
  j_mld : Z (** assigned_moldable_job; 0: none *) }.
Record mld := mkMld { m_id : Z; m_job : Z; m_wall : Z }.
Record asg := mkAsg { a_mld : Z; a_res : Z; a_index : string }.
(** [visu_p], [visu_r]: gantt_jobs_predictions_visu (moldable, start), gantt_jobs_resources_visu (moldable, resource);
    [rs]: resources (id, network_address). *)
Record db := mkDb { jobs : list job; mlds : list mld; asgs : list asg; visu_p : list (Z * Z); visu_r : list (Z * Z);
  rs : list (Z * string) }.
(** The arguments of get_jobs_for_user; an empty text, list or number 0 is no argument for user, states, job_ids,
    array_id (tests "if user", "if states", ...). *)
Record req := mkReq { q_user : string; q_from : option Z; q_to : option Z; q_states : list string; q_ids : list Z;
  q_array : Z; q_cond : option (job -> bool) }.

Definition nonempty {A} (l : list A) : bool := match l with [] => false | _ => true end.
Definition given (t : option Z) : bool := match t with Some z => negb (z =? 0) | None => false end.
Definition nine_states : list string :=
  ["Finishing"; "Running"; "Resuming"; "Suspended"; "Launching"; "toLaunch"; "Waiting"; "Hold"; "toAckReservation"]%string.
(** 62-83: the states and the indexes of the assigned resources looked at *)
Definition by_key (q : req) : bool := nonempty (q_ids q) || negb (q_array q =? 0).
Definition states_of (q : req) : list string :=
  if negb (nonempty (q_states q)) && negb (by_key q) then
    nine_states ++ (if given (q_from q) || given (q_to q) then ["Terminated"; "Error"]%string else [])
  else q_states q.
Definition indexes_of (q : req) : list string :=
  if by_key q then ["CURRENT"; "LOG"]%string
  else if negb (nonempty (q_states q)) then
    (if given (q_from q) || given (q_to q) then ["CURRENT"; "LOG"]%string else ["CURRENT"%string])
  else ["LOG"%string].
(** 113-122 *)
Definition commons (q : req) (j : job) : bool :=
  (bool_decide (q_user q = ""%string) || bool_decide (j_user j = q_user q)) &&
  (negb (nonempty (states_of q)) || bool_decide (j_state j ∈ states_of q)) &&
  ((q_array q =? 0) || (j_array j =? q_array q)) &&
  (negb (nonempty (q_ids q)) || bool_decide (j_id j ∈ q_ids q)) &&
  match q_cond q with None => true | Some c => c j end.
Definition if_given (t : option Z) (f : Z -> bool) : bool := match t with None => true | Some z => f z end.
(** q1, 128-140, with 86-95 and 104-106: [m] ranges over the descriptions of the job, not only the assigned one. *)
Definition q1 (d : db) (q : req) (j : job) : bool :=
  existsb (fun a => existsb (fun m =>
    (j_mld j =? a_mld a) && (bool_decide (a_index a ∈ indexes_of q) || (j_mld j =? 0)) && (m_job m =? j_id j) &&
    if_given (q_from q) (fun t => (t <=? j_stop j) ||
      ((j_stop j =? 0) && ((bool_decide (j_state j = "Running"%string) && (t <=? j_start j + m_wall m)) ||
        bool_decide (j_state j ∈ ["Suspended"; "Resuming"]%string)))) &&
    if_given (q_to q) (fun t => j_start j <? t)) (mlds d)) (asgs d) && commons q j.
(** q2, 142-152, with 96-100, 107-108 *)
Definition q2 (d : db) (q : req) (j : job) : bool :=
  existsb (fun p => existsb (fun m =>
    existsb (fun r => p.1 =? r.1) (visu_r d) && (p.1 =? m_id m) && (j_id j =? m_job m) &&
    if_given (q_from q) (fun t => t <=? p.2 + m_wall m) && if_given (q_to q) (fun t => p.2 <? t)) (mlds d)) (visu_p d) && commons q j.
(** q3, 154-155, with 101-102, 109-110 *)
Definition q3 (q : req) (j : job) : bool :=
  (j_stop j =? 0) && if_given (q_from q) (fun t => t <=? j_sub j) && if_given (q_to q) (fun t => j_sub j <=? t) && commons q j.
(** 157-161 and 199: the outer join adds at most one description; ordered by identifier *)
Definition by_id (a b : job) : Prop := j_id a <= j_id b.
Global Instance by_id_dec a b : Decision (by_id a b).
Proof. unfold by_id. apply _. Defined.
Definition list_jobs (d : db) (q : req) : list job :=
  merge_sort by_id (filter (fun j => q1 d q j || q2 d q j || q3 q j = true) (jobs d)).

(** GET /jobs/{id}/resources: basequery.py:305-320 does not use the identifier. *)
Definition rows_of (d : db) : list (Z * (Z * string)) :=
  j ← jobs d; a ← filter (fun a => a_mld a = j_mld j) (asgs d); r ← filter (fun r => r.1 = a_res a) (rs d); [(j_id j, r)].
Definition one_job_resources (d : db) (id : Z) : list (Z * string) := (rows_of d).*2.
(** GET /jobs/{id}?details: get_assigned_jobs_resources, 223-241 *)
Definition job_resources (d : db) (id : Z) : list (Z * string) := (filter (fun x => x.1 = id) (rows_of d)).*2.
(** attach_nodes, job.py:51-60 *)
Definition add_node (acc : list string) (n : string) : list string := if bool_decide (n ∈ acc) then acc else acc ++ [n].
Definition job_nodes (d : db) (id : Z) : list string := fold_left add_node (job_resources d id).*2 [].
(** GET /jobs/{id}: show, job.py:140-172.  job.asdict() is called before the test "job is None": AttributeError, which
    the server answers with status 500. *)
Definition show (d : db) (id : Z) : Z * option job :=
  match filter (fun j => j_id j = id) (jobs d) with j :: _ => (200, Some j) | [] => (500, None) end.
