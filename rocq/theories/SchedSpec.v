(** What it means for a request to be satisfiable at a date.  Nothing here refers to the search. *)
From Verif Require Import Base SlotModel SlotSpec HierarchyModel HierarchySpec QuotasModel LoadModel SchedModel.

(** A request the scheduler understands: some resource groups, on known levels, and a walltime. *)
Definition known_request (hy : hierarchy) (rq : rqt) : Prop :=
  r_groups rq <> [] /\ 0 < r_wall rq /\
  Forall (fun g : rgroup => exists ls, levels_of hy (fst g) ls /\ proper_levels ls) (r_groups rq).

(** The set [X] of resources is enough for every group. *)
Definition satisfiable (hy : hierarchy) (groups : list rgroup) (X : procset) : Prop :=
  Forall (fun g : rgroup => exists ls x, levels_of hy (fst g) ls /\ served (snd g ∩ X) ls x) groups.

(** At date [t] some resources enough for the request are free for the whole walltime. *)
Definition can_start (hy : hierarchy) (ss : slotset) (rq : rqt) (t : Z) : Prop :=
  begin_ ss <= t /\ t + r_wall rq - 1 <= end_ ss /\
  exists X, (forall r u, r ∈ X -> t <= u < t + r_wall rq -> free_at ss u r) /\
            satisfiable hy (r_groups rq) X.

(** The date [t0] the search starts from: the beginning of the slot that contains [min], or the
    beginning of the slot set when [min] is negative (no constraint) or outside the slot set. *)
Definition origin (ss : slotset) (min t0 : Z) : Prop :=
  ((min < 0 \/ min < begin_ ss \/ end_ ss < min) /\ t0 = begin_ ss) \/
  (0 <= min /\ exists i s, slots ss !! i = Some s /\ sb s <= min <= se s /\ t0 = sb s).

(** Keys stand for requests: [req_of k] is the (walltime, groups) a key stands for, and a job with
    keys has one for each of its alternatives (set_jobs_cache_keys, job_handling.py:190-206). *)
Definition keys_for (req_of : string -> Z * list rgroup) (w : wjob) : Prop :=
  w_keys w <> ∅ -> plain (w_job w) /\
  forall rq, rq ∈ w_rqts w -> exists k, w_keys w !! r_mld rq = Some k /\ req_of k = (r_wall rq, r_groups rq).

(** The same job without search keys, the same slot sets with empty caches. *)
Definition nokeys (w : wjob) : wjob :=
  mkWjob (w_job w) (w_rqts w) (w_deps w) ∅ (w_noq w) (w_wall w) (w_mld w).

Definition erase (sss : csets) : csets := (fun x : string * (slotset * cache) => (x.1, (x.2.1, ∅))) <$> sss.

(** The slot set a job is scheduled in. *)
Definition set_of (w : wjob) : string := default "default"%string (type_value "inner" (jtypes (w_job w))).

(** [job_holds w t r]: the placed job [w] holds resource [r] at instant [t]. *)
Definition job_holds (w : wjob) (t r : Z) : Prop :=
  exists wall, w_wall w = Some wall /\ start_time (w_job w) <= t < start_time (w_job w) + wall /\ r ∈ res_set (w_job w).

(** When a job ends; just its start when it has no walltime. *)
Definition stop_of (w : wjob) : Z :=
  match w_wall w with Some x => start_time (w_job w) + x | None => start_time (w_job w) end.

