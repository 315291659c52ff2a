(** The FIFO scheduler: schedule_fifo_cycle and main, oar/kao/kamelot_fifo.py:20-128; find_resource_hierarchies_job of oar/kao/scheduling_basic.py:10-31;
    get_waiting_jobs, oar/lib/job_handling.py:117-137; save_assigns, job_handling.py:641-683.  No proofs here.
    A job has the requests that get_data_jobs gives to it (C101).  Left out: the messages of the jobs; a start_time of -1, which no waiting job has
    before this scheduler (it would not be saved). *)
From Verif Require Import Base HierarchyModel SchedModel.

(** A row of jobs: [f_start] is the column start_time; [f_rqts]: job.mld_res_rqts. *)
Record fjob := mkFjob { f_id : Z; f_state : string; f_queue : string; f_resv : string; f_start : Z; f_rqts : list rqt }.
(** A job of get_scheduled_jobs: its state and its resources (attribute res_set). *)
Record sjob := mkSjob { s_id : Z; s_state : string; s_res : procset }.

(** get_waiting_jobs, job_handling.py:123-131 *)
Definition id_le (a b : fjob) : Prop := f_id a <= f_id b.
Global Instance id_le_dec a b : Decision (id_le a b).
Proof. unfold id_le. apply _. Defined.
Definition waiting (queue : string) (jobs : list fjob) : list fjob :=
  merge_sort id_le (base.filter (fun j => f_state j = "Waiting"%string /\ f_queue j = queue /\ f_resv j = "None"%string) jobs).

(** list(ProcSet): in order *)
Definition in_order (x : procset) : list Z := merge_sort Z.le (elements x).
(** l[:n] *)
Definition upto (n : Z) (l : list Z) : list Z := if 0 <=? n then take (Z.to_nat n) l else take (length l - Z.to_nat (- n)) l.

(** scheduling_basic.py:10-31: all the groups together, none is required *)
Fixpoint basic_loop (itvs : procset) (groups : list rgroup) (hy : hierarchy) (result : procset) : res procset :=
  match groups with
  | [] => Ok result
  | (l, constraints) :: groups' =>
      levels <-- get_levels hy l ;;
      r <-- find_scattered (constraints ∩ itvs) levels ;;
      basic_loop itvs groups' hy (result ∪ r)
  end.

(** kamelot_fifo.py:84-96: only the first number of the first group is looked at *)
Definition by_number (free : procset) (groups : list rgroup) : res procset :=
  match groups with
  | [] => Err EIndex
  | (levels, constraints) :: _ =>
      match levels with
      | [] => Err EIndex
      | (_, n) :: _ =>
          let ids := in_order (constraints ∩ free) in
          Ok (if Z.of_nat (length ids) <? n then ∅ else list_to_set (upto n ids))
      end
  end.

(** kamelot_fifo.py:56-59: the jobs have no attribute res_itvs *)
Fixpoint remove_running (scheduled : list sjob) (free : procset) : res procset :=
  match scheduled with
  | [] => Ok free
  | s :: l => if bool_decide (s_state s = "Running"%string) then Err EAttr else remove_running l free
  end.

(** An assignment: the job, the moldable id, the resources. *)
Record assigned := mkAssigned { a_job : fjob; a_mld : Z; a_res : procset }.
(** kamelot_fifo.py:65-107 *)
Fixpoint fifo_loop (hierarchy_use : bool) (hy : hierarchy) (jobs : list fjob) (free : procset) : res (list assigned) :=
  match jobs with
  | [] => Ok []
  | j :: jobs' =>
      match f_rqts j with
      | [] => Err EIndex
      | rq :: _ =>
          x <-- (if hierarchy_use then basic_loop free (r_groups rq) hy ∅ else by_number free (r_groups rq)) ;;
          if nonempty x then r <-- fifo_loop hierarchy_use hy jobs' (free ∖ x) ;; Ok (mkAssigned j (r_mld rq) x :: r)
          else Ok []
      end
  end.

(** schedule_fifo_cycle: what is written, or the exception before anything is *)
Definition fifo_cycle (hierarchy_use : bool) (hy : hierarchy) (all : procset) (queue : string) (jobs : list fjob) (scheduled : list sjob) : res (list assigned) :=
  match waiting queue jobs with
  | [] => Ok []
  | l => free <-- remove_running scheduled all ;; fifo_loop hierarchy_use hy l free
  end.
(** main, kamelot_fifo.py:113-128: the arguments of the command (queue and date) are not looked at *)
Definition fifo_main (argv : list string) (hy : hierarchy) (all : procset) (jobs : list fjob) (scheduled : list sjob) : res (list assigned) :=
  fifo_cycle false hy all "default" jobs scheduled.
(** save_assigns: gantt_jobs_predictions and gantt_jobs_resources; [o2i]: resource_set.rid_o2i *)
Definition predictions (l : list assigned) : list (Z * Z) := (fun a => (a_mld a, f_start (a_job a))) <$> l.
Definition gantt_resources (o2i : Z -> Z) (l : list assigned) : list (Z * Z) := l ≫= fun a => (fun r => (a_mld a, o2i r)) <$> in_order (a_res a).
