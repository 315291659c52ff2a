(** A cycle of the basic scheduler: schedule_cycle, oar/kao/kamelot_basic.py:14-89.  No proofs here.
    Left out: the messages; a job of get_data_jobs has the requests of C101; the jobs of get_scheduled_jobs are those of C52, in its order (C06). *)
From Verif Require Import Base SlotModel HierarchyModel LoadModel SchedModel FifoModel BasicModel.

(** sorted(resource_set.available_upto.keys()), kamelot_basic.py:42; [upto]: the dates, all different, and their resources *)
Definition date_le (a b : Z * procset) : Prop := fst a <= fst b.
Global Instance date_le_dec a b : Decision (date_le a b).
Proof. unfold date_le. apply _. Defined.
(** The slot set of the cycle, kamelot_basic.py:32-73; [q]: the quotas are enabled *)
Definition cycle_slots (env : qenv) (q : bool) (all : procset) (now : Z) (upto : list (Z * procset)) (scheduled : list job) : res slotset :=
  ss <-- (match upto with [] => Ok (ss_of_pair q all now) | _ => split_slots_jobs env (ss_of_pair q all now) (avail_pseudo <$> merge_sort date_le upto) true end) ;;
  match scheduled with [] => Ok ss | _ => split_slots_jobs env ss scheduled true end.
(** kamelot_basic.py:20-89: [ids], [jobs]: the waiting jobs; what save_assigns is given *)
Definition basic_cycle (env : qenv) (hy : hierarchy) (q : bool) (all : procset) (now : Z) (upto : list (Z * procset)) (scheduled : list job) (ids : list Z) (jobs : gmap Z wjob) : res (gmap Z wjob) :=
  match ids with
  | [] => Ok jobs
  | _ =>
      ss <-- cycle_slots env q all now upto scheduled ;;
      '(_, jobs') <-- bschedule env hy ids ss jobs ;;
      Ok jobs'
  end.
