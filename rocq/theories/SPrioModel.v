(** The priority of resources occupied by best-effort or time-sharing jobs (column resources.scheduler_priority, first
    key of the order in which resources are chosen): oar/lib/resource_handling.py:321-413
    (update_current_scheduler_priority), called by set_job_state (oar/lib/job_handling.py:1753-1754, 1795) and by
    oardel --besteffort (oar/cli/oardel.py:188-232).  No proofs here.
    Simplified: the types of a job are their names (job_handling.py:1609-1621 splits "name=value"); of a job, its
    state, types and assigned moldable description; the columns of a resource are texts or NULL, its identifier
    apart; the names of SCHEDULER_PRIORITY_HIERARCHY_ORDER are columns (otherwise getattr raises). *)
From Coq Require Import Ascii.
From Verif Require Import Base.
From Verif Require ReqModel.

Record rsc := mkR { r_id : Z; r_cols : string -> option string }.
Record jrow := mkJ { j_id : Z; j_state : string; j_types : list string; j_mld : Z }.
(** [prio]: column scheduler_priority, by identifier.  [asg]: assigned_resources with index CURRENT (moldable, resource).  [evs]: event_logs (type, job). *)
Record db := mkDb { rs : list rsc; prio : Z -> Z; jobs : list jrow; asg : list (Z * Z); evs : list (string * Z) }.

Definition is_id (f : string) : bool := bool_decide (f = "resource_id"%string) || bool_decide (f = "id"%string).
(** getattr(Resource, f): the column, 371-376 *)
Definition column (f : string) (r : rsc) : option (Z + string) :=
  if is_id f then Some (inl (r_id r)) else inr <$> r_cols r f.
(** sched_priority.split("/"), the empty names left out: 371-374 *)
Definition levels (order : string) : list string := filter (fun f => f <> ""%string) (ReqModel.split_on "/" order).
(** 380-386: the resources of the job *)
Definition held (d : db) (m : Z) : list rsc := filter (fun r => (m, r_id r) ∈ asg d) (rs d).
(** Resource.f.in_(resources): NULL is in no list. *)
Definition among (f : string) (l : list rsc) (r : rsc) : bool :=
  match column f r with None => false | Some v => bool_decide (Some v ∈ (column f <$> l)) end.
Definition raise_level (f : string) (l all : list rsc) (incr : Z) (p : Z -> Z) : Z -> Z :=
  fun i => if bool_decide (i ∈ (r_id <$> filter (fun r => among f l r = true) all)) then p i + incr else p i.
(** 370-402.  The queries of each level read columns that are not changed: [l] is computed once. *)
Fixpoint raise (fs : list string) (index value coeff : Z) (l all : list rsc) (p : Z -> Z) : Z -> Z :=
  match fs with
  | [] => p
  | f :: fs' => raise fs' (index + 1) value coeff l all (raise_level f l all (value * (index + 1) * coeff) p)
  end.
Definition START : string := "SCHEDULER_PRIORITY_UPDATED_START".
Definition STOP : string := "SCHEDULER_PRIORITY_UPDATED_STOP".
Definition shares (types : list string) : bool :=
  bool_decide ("besteffort"%string ∈ types) || bool_decide ("timesharing"%string ∈ types).
Definition coefficient (types : list string) : Z :=
  if bool_decide ("besteffort"%string ∈ types) && negb (bool_decide ("timesharing"%string ∈ types)) then 10 else 1.
(** update_current_scheduler_priority, 321-413.  [order]: SCHEDULER_PRIORITY_HIERARCHY_ORDER, None if not configured.
    When the job has no resource the loop returns at its first turn; without level nothing is updated but the event
    is added. *)
Definition update_priority (order : option string) (start : bool) (j : jrow) (d : db) : db :=
  match order with
  | None => d
  | Some o =>
      let started := bool_decide ((START, j_id j) ∈ evs d) in
      if shares (j_types j) && (if start then negb started else started) then
        let fs := levels o in
        let l := held d (j_mld j) in
        if negb (bool_decide (fs = [])) && bool_decide (l = []) then d
        else mkDb (rs d) (raise fs 0 (if start then 2 else -2) (coefficient (j_types j)) l (rs d) (prio d)) (jobs d) (asg d)
               (evs d ++ [(if start then START else STOP, j_id j)])
      else d
  end.

Definition set_row (id : Z) (f : jrow -> jrow) (d : db) : db :=
  mkDb (rs d) (prio d) ((fun j => if bool_decide (j_id j = id) then f j else j) <$> jobs d) (asg d) (evs d).
Definition with_state (s : string) (j : jrow) : jrow := mkJ (j_id j) s (j_types j) (j_mld j).
Definition with_types (f : list string -> list string) (j : jrow) : jrow := mkJ (j_id j) (j_state j) (f (j_types j)) (j_mld j).
Definition get (id : Z) (d : db) : option jrow :=
  match filter (fun j => j_id j = id) (jobs d) with [j] => Some j | _ => None end.

(** prepare_job_to_be_launched, meta_sched.py:231-255, for a waiting job placed on resources [ids]. *)
Definition launch (order : option string) (id : Z) (ids : list Z) (d : db) : db :=
  match get id d with
  | Some j => if bool_decide (j_state j = "Waiting"%string) then
                let d := mkDb (rs d) (prio d) (jobs d) (asg d ++ ((fun r => (j_mld j, r)) <$> ids)) (evs d) in
                update_priority order true j (set_row id (with_state "toLaunch") d)
              else d
  | None => d
  end.
Definition active_states : list string := ["toLaunch"; "Launching"; "Running"; "Finishing"; "Suspended"; "Resuming"]%string.
(** set_job_state, job_handling.py:1711-1752, for the states that do not change priorities. *)
Definition move (id : Z) (s : string) (d : db) : db :=
  match get id d with
  | Some j => if bool_decide (j_state j ∈ active_states) && bool_decide (s ∈ ["Launching"; "Running"; "Finishing"; "Suspended"; "Resuming"]%string)
              then set_row id (with_state s) d else d
  | None => d
  end.
(** set_job_state, 1755-1798, for Terminated and Error; log_job (1684-1689) then takes the assigned resources out of
    the current ones. *)
Definition finish (order : option string) (id : Z) (d : db) : db :=
  match get id d with
  | Some j => if bool_decide (j_state j <> "Terminated"%string) then
                let d := update_priority order false j (set_row id (with_state "Terminated") d) in
                mkDb (rs d) (prio d) (jobs d) (filter (fun a => a.1 <> j_mld j) (asg d)) (evs d)
              else d
  | None => d
  end.
(** oardel --besteffort, oardel.py:188-232, of an administrator. *)
Definition toggle (order : option string) (id : Z) (d : db) : db :=
  match get id d with
  | Some j => if bool_decide (j_state j = "Running"%string) then
                if bool_decide ("besteffort"%string ∈ j_types j) then
                  set_row id (with_types (filter (fun t => t <> "besteffort"%string))) (update_priority order false j d)
                else
                  let j := with_types (fun l => l ++ ["besteffort"%string]) j in
                  update_priority order true j (set_row id (with_types (fun l => l ++ ["besteffort"%string])) d)
              else d
  | None => d
  end.
(** A kill of the process between the commit of the final state (1717) and the update of the priorities. *)
Definition finish_cut (id : Z) (d : db) : db := set_row id (with_state "Terminated") d.
(** oarnodesetting changes a column of a resource. *)
Definition set_column (id : Z) (f v : string) (d : db) : db :=
  mkDb ((fun r => if bool_decide (r_id r = id) then mkR (r_id r) (fun g => if bool_decide (g = f) then Some v else r_cols r g) else r) <$> rs d)
    (prio d) (jobs d) (asg d) (evs d).

Inductive op := Launch (id : Z) (ids : list Z) | Move (id : Z) (s : string) | Finish (id : Z) | Toggle (id : Z)
  | FinishCut (id : Z) | SetColumn (id : Z) (f v : string).
Definition step (order : option string) (d : db) (o : op) : db :=
  match o with
  | Launch id ids => launch order id ids d
  | Move id s => move id s d
  | Finish id => finish order id d
  | Toggle id => toggle order id d
  | FinishCut id => finish_cut id d
  | SetColumn id f v => set_column id f v d
  end.
Definition run (order : option string) (d : db) (h : list op) : db := fold_left (step order) h d.
