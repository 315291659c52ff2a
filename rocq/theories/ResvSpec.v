(** Specification of reservations. *)
From Verif Require Import Base SlotModel SlotSpec HierarchyModel HierarchySpec SchedModel SchedSpec.
(** The date a reservation is placed at: the announced start, or now when that is past. *)
Definition place (now : Z) (w : wjob) : Z := Z.max now (start_time (w_job w)).
(** An ordinary reservation: its first alternative is a request the scheduler understands; it ends
    after now and within the slot set. *)
Definition ordinary (hy : hierarchy) (sec now : Z) (ss : slotset) (w : wjob) (rq : rqt) : Prop :=
  head (w_rqts w) = Some rq /\ plain (w_job w) /\ known_request hy rq /\ 0 <= sec <= r_wall rq /\
  begin_ ss <= now /\ now < start_time (w_job w) + r_wall rq /\ place now w + r_wall rq <= end_ ss.
(** The request, for the announced walltime: from the start to the announced end, included. *)
Definition announced (sec : Z) (rq : rqt) : rqt := mkRqt (r_mld rq) (r_wall rq - sec + 1) (r_groups rq).
(** [x] is made of one served part for each group of the request, among the resources of [X]. *)
Definition served_by (hy : hierarchy) (groups : list rgroup) (X : Z -> Prop) (x : procset) : Prop :=
  exists F parts, (forall r, r ∈ F <-> X r) /\ x = ⋃ parts /\
    Forall2 (fun (g : rgroup) y => exists ls, levels_of hy (fst g) ls /\ served (snd g ∩ F) ls y) groups parts.
