(** Model of the acceptance of advance reservations: check_reservation_jobs, oar/kao/meta_sched.py:352-474.
    No proofs. *)
From Verif Require Import Base SlotModel HierarchyModel QuotasModel LoadModel SchedModel.

(** What is decided for a reservation: the state of the job and, when it is accepted, its place. *)
Inductive answer := TooOld | Refused | Accepted (st : Z) (x : procset) (rq : rqt).

(** The body of the loop, 376-468.  The start asked for is the start_time of the job; walltimes
    include the security time [sec] (get_data_jobs).  [qc]: Some when quotas are enabled; the
    reservation always goes to the slot set "default" (400).  Messages are not modelled. *)
Definition resv_one (env : qenv) (qc : option qconf) (hy : hierarchy) (sec now : Z) (ss : slotset) (w : wjob) : res (slotset * answer) :=
  match w_rqts w with
  | [] => Err EIndex
  | rq :: _ =>
      let wall := r_wall rq in
      if start_time (w_job w) + wall <=? now then Ok (ss, TooOld)
      else
        let st := if start_time (w_job w) <? now then now else start_time (w_job w) in
        '(l, r) <-- get_encompassing_slots (slots ss) st (st + wall - sec) 0 ;;
        a <-- avail (slots ss) l r (w_job w) ;;
        x <-- find_resource_hierarchies_job a (r_groups rq) hy ;;
        ok <-- match qc with
               | None => Ok true
               | Some cf => v <-- check_slots_quotas cf (slots ss) l r (w_job w) (nb_counted cf x) wall ;;
                            Ok (match v with QOk => true | _ => false end)
               end ;;
        if negb ok || negb (nonempty x) then Ok (ss, Refused)
        else
          '(l, r) <-- get_encompassing_range (slots ss) st (st + wall) ;;
          ss <-- split_slots env ss l r (with_sched (w_job w) st wall x) true ;;
          Ok (ss, Accepted st x rq)
  end.
(** The loop over the reservations, in the order of their identifiers (376). *)
Fixpoint resv_loop (env : qenv) (qc : option qconf) (hy : hierarchy) (sec now : Z) (ws : list wjob) (ss : slotset) : res (slotset * list answer) :=
  match ws with
  | [] => Ok (ss, [])
  | w :: ws =>
      '(ss, a) <-- resv_one env qc hy sec now ss w ;;
      '(ss, l) <-- resv_loop env qc hy sec now ws ss ;;
      Ok (ss, a :: l)
  end.
