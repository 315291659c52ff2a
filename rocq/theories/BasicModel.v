(** The basic scheduler: oar/kao/scheduling_basic.py:34-146, called by schedule_cycle of oar/kao/kamelot_basic.py:14-89 with the slot set "default" only
    (find_resource_hierarchies_job of this module is [FifoModel.basic_loop]).  No proofs here.
    Left out: the cache of the slot set (it is only ever written with 0, the value used without it: scheduling_basic.py:45-48 and 59-60); a key_cache without
    the moldable id of the job.  A container makes a Slot that nothing keeps (scheduling_basic.py:136-146). *)
From Verif Require Import Base SlotModel HierarchyModel LoadModel SchedModel FifoModel.

(** find_first_suitable_contiguous_slots, scheduling_basic.py:50-57: the loop; [last]: what itvs, slot_begin and slot_end are bound to *)
Fixpoint bsearch (hy : hierarchy) (m : gmap Z slot) (groups : list rgroup) (ws : list (slot * slot)) (last : option (procset * Z * Z)) : res (option (procset * Z * Z)) :=
  match ws with
  | [] => Ok last
  | (sl, sr) :: ws' =>
      x <-- intersec_itvs_slots m (sid sl) (sid sr) ;;
      r <-- basic_loop x groups hy ∅ ;;
      if nonempty r then Ok (Some (r, sid sl, sid sr)) else bsearch hy m groups ws' (Some (r, sid sl, sid sr))
  end.
(** scheduling_basic.py:34-62; without any window slot_begin has no value *)
Definition bfind (hy : hierarchy) (ss : slotset) (rq : rqt) : res (procset * Z * Z) :=
  ws <-- traverse_with_width (slots ss) (r_wall rq) 0 ;;
  o <-- bsearch hy (slots ss) (r_groups rq) ws None ;;
  match o with Some y => Ok y | None => Err EName end.

(** The loop over the alternatives, scheduling_basic.py:87-102 *)
Fixpoint bassign_loop (hy : hierarchy) (ss : slotset) (rqs : list rqt) (finish : Z) (bst : option best) : res (option best) :=
  match rqs with
  | [] => Ok bst
  | rq :: rqs' =>
      '(x, l, _) <-- bfind hy ss rq ;;
      s <-- dget l (slots ss) ;;
      let t_finish := sb s + r_wall rq - 1 in
      if t_finish <? finish then
        '(el, er) <-- get_encompassing_slots (slots ss) (sb s) t_finish 0 ;;
        bassign_loop hy ss rqs' t_finish (Some (t_finish, sb s, x, rq, el, er))
      else bassign_loop hy ss rqs' finish bst
  end.
(** assign_resources_mld_job_split_slots, scheduling_basic.py:65-115: the slot set after, and the job *)
Definition assign_basic (env : qenv) (hy : hierarchy) (ss : slotset) (w : wjob) : res (slotset * wjob) :=
  _ <-- dget 1 (slots ss) ;;
  b <-- bassign_loop hy ss (w_rqts w) (2 ^ 32 - 1) None ;;
  match b with
  | None => Err EType
  | Some (_, st, x, rq, l, r) =>
      let w' := placed w st x rq in
      ss' <-- split_slots env ss l r (w_job w') true ;;
      Ok (ss', w')
  end.
(** schedule_id_jobs_ct, scheduling_basic.py:118-146: the jobs in the order of the list; the only slot set is "default" (kamelot_basic.py:75) *)
Fixpoint bschedule (env : qenv) (hy : hierarchy) (ids : list Z) (ss : slotset) (jobs : gmap Z wjob) : res (slotset * gmap Z wjob) :=
  match ids with
  | [] => Ok (ss, jobs)
  | i :: ids' =>
      w <-- dget i jobs ;;
      if bool_decide (default "default"%string (type_value "inner" (jtypes (w_job w))) = "default"%string) then
        '(ss', w') <-- assign_basic env hy ss w ;;
        bschedule env hy ids' ss' (<[ i := w' ]> jobs)
      else Err EKey
  end.
