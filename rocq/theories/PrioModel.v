(** The order in which a round considers the waiting jobs and the queues.
    oar/kao/kamelot.py:25-143, oar/kao/karma.py, oar/kao/multifactor_priority.py,
    oar/lib/job_handling.py:117-137, oar/lib/queue.py:17-27, oar/kao/meta_sched.py:923-960.
    Numbers are exact rationals where the code uses floats.  The texts of the configuration
    (perl_hash_2_dict, yaml, float()) are read beforehand.  No proofs here. *)
From Verif Require Import Base.
From Coq Require Export QArith Qminmax.
Local Open Scope Z_scope.

Definition Qlt_bool (x y : Q) : bool := negb (Qle_bool y x).

(** Python's sorted(l, key=k): stable, by increasing key.  sorted(l, key=k, reverse=True) is
    stable too: elements with equal keys keep their order. *)
Fixpoint ins_up {A} (k : A -> Q) (x : A) (l : list A) : list A :=
  match l with
  | [] => [x]
  | y :: l' => if Qlt_bool (k y) (k x) then y :: ins_up k x l' else x :: l
  end.
Definition sorted_by {A} (k : A -> Q) (l : list A) : list A := foldr (ins_up k) [] l.
Fixpoint ins_down {A} (k : A -> Q) (x : A) (l : list A) : list A :=
  match l with
  | [] => [x]
  | y :: l' => if Qlt_bool (k x) (k y) then y :: ins_down k x l' else x :: l
  end.
Definition sorted_rev {A} (k : A -> Q) (l : list A) : list A := foldr (ins_down k) [] l.

(** A job of the database, with the attributes the sorting reads.  [w_size], [w_work], [w_qos],
    [w_nice] are not columns of the table jobs (models.py:368-406): None is the AttributeError. *)
Record wj := mkWj {
  w_id : Z; w_user : string; w_project : string; w_queue : string; w_state : string;
  w_resv : string; w_submission : Z;
  w_work : option Q; w_size : option Q; w_qos : option Q; w_nice : option Q }.

(** A row of the table accounting, as in karma.py:22-101. *)
Record acc := mkAcc { a_user : string; a_project : string; a_queue : string; a_type : string;
  a_wstart : Z; a_wstop : Z; a_cons : Z }.

(** The sums of karma.py:22-101.  [sum_where f]: sum of the consumption of the rows selected, None
    when there is none (GROUP BY returns no row). *)
Definition sum_where (f : acc -> bool) (t : list acc) : option Q :=
  match base.filter (fun a => f a = true) t with
  | [] => None
  | l => Some (inject_Z (fold_right (fun a s => a_cons a + s) 0 l))
  end.
(** karma.py:22-43 and 48-74: strict upper bound on the end of the window. *)
Definition in_window (queues : list string) (ws we : Z) (a : acc) : bool :=
  bool_decide (a_queue a ∈ queues) && (ws <=? a_wstart a) && (a_wstop a <? we).
(** karma.py:77-101: large upper bound. *)
Definition in_window_user (queues : list string) (ws we : Z) (a : acc) : bool :=
  bool_decide (a_queue a ∈ queues) && (ws <=? a_wstart a) && (a_wstop a <=? we).

(** The fair sharing part of the configuration, karma.py:112-121.  Project targets are numbers
    (float()); user targets are kept as texts by perl_hash_2_dict, karma.py:11-18. *)
Record kconf := mkKconf { k_window : Z; k_proj_targets : list (string * Q);
  k_user_targets : list (string * string);
  k_coef_proj : Q; k_coef_user : Q; k_coef_ask : Q }.

Fixpoint assoc {A} (n : string) (l : list (string * A)) : option A :=
  match l with [] => None | (m, v) :: l' => if bool_decide (m = n) then Some v else assoc n l' end.

(** A division of floats. *)
Definition qdiv (x y : Q) : res Q := if Qeq_bool y 0 then Err EZeroDiv else Ok (x / y)%Q.

(** evaluate_jobs_karma, karma.py:107-186, for one job.  Line 160 divides a text by a number:
    TypeError for every user who has a target. *)
Definition karma (c : kconf) (queues : list string) (now : Z) (t : list acc) (j : wj) : res Q :=
  let w := in_window queues (now - k_window c) now in
  let wu := in_window_user queues (now - k_window c) now in
  let sum_asked := default 1%Q (sum_where (fun a => w a && bool_decide (a_type a = "ASKED"%string)) t) in
  let sum_used := default 1%Q (sum_where (fun a => w a && bool_decide (a_type a = "USED"%string)) t) in
  let proj_used := default 0%Q (sum_where (fun a => w a && bool_decide (a_type a = "USED"%string)
                      && bool_decide (a_project a = w_project j)) t) in
  let user_used := default 0%Q (sum_where (fun a => wu a && bool_decide (a_type a = "USED"%string)
                      && bool_decide (a_user a = w_user j)) t) in
  let user_asked := default 0%Q (sum_where (fun a => wu a && bool_decide (a_type a = "ASKED"%string)
                      && bool_decide (a_user a = w_user j)) t) in
  let proj_target := default 0%Q (assoc (w_project j) (k_proj_targets c)) in
  user_target <-- (match assoc (w_user j) (k_user_targets c) with
                   | Some _ => Err EType
                   | None => Ok 0%Q end) ;;
  p <-- qdiv proj_used sum_used ;;
  u <-- qdiv user_used sum_used ;;
  a <-- qdiv user_asked sum_asked ;;
  Ok (k_coef_proj c * (p - proj_target / 100) + k_coef_user c * (u - user_target / 100)
      + k_coef_ask c * (a - user_target / 100))%Q.

(** The loop over the jobs: the first exception ends the round. *)
Fixpoint eval_all {A} (f : A -> res Q) (l : list A) : res (list (A * Q)) :=
  match l with
  | [] => Ok []
  | x :: l' => k <-- f x ;; r <-- eval_all f l' ;; Ok ((x, k) :: r)
  end.

(** karma_jobs_sorting, karma.py:189-197. *)
Definition karma_sorting (c : kconf) (queues : list string) (now : Z) (t : list acc) (l : list wj) : res (list wj) :=
  r <-- eval_all (karma c queues now t) l ;; Ok (fst <$> sorted_by snd r).

(** The priority configuration, multifactor_priority.py:33-73. *)
Record pconf := mkPconf { p_age_w : Q; p_age_coef : Q; p_queue_w : Q; p_queue_coefs : list (string * Q);
  p_work_w : Q; p_work_big : bool; p_size_w : Q; p_size_big : bool; p_karma_w : Q; p_qos_w : Q; p_nice_w : Q }.

Definition attr {A} (o : option A) : res A := match o with Some a => Ok a | None => Err EAttr end.

(** evaluate_jobs_priority, multifactor_priority.py:78-110, for one job whose karma is known.
    [nb_default]: plt.nb_default_resources, an attribute Platform does not define. *)
Definition priority (c : pconf) (nb_default : option Q) (now : Z) (j : wj) (karma : Q) : res Q :=
  let p0 := (p_age_w c * Qmax 1 (p_age_coef c * inject_Z (now - w_submission j)))%Q in
  let p1 := if Qlt_bool 0 (p_queue_w c)
            then match assoc (w_queue j) (p_queue_coefs c) with
                 | Some q => (p0 + p_queue_w c * q)%Q | None => p0 end
            else p0 in
  p2 <-- (if Qlt_bool 0 (p_work_w c) then
            w <-- attr (w_work j) ;;
            i <-- qdiv 1 (Qmin 1 w) ;;
            Ok (if p_work_big c then p1 + p_work_w c * (1 - i) else p1 + p_work_w c * i)%Q
          else Ok p1) ;;
  p3 <-- (if Qlt_bool 0 (p_size_w c) then
            s <-- attr (w_size j) ;; n <-- attr nb_default ;;
            d <-- qdiv s n ;;
            Ok (if p_size_big c then p2 + p_size_w c * d else p2 + p_size_w c * (1 - d))%Q
          else Ok p2) ;;
  k <-- qdiv 1 (1 + karma)%Q ;;
  let p4 := (p3 + p_karma_w c * k)%Q in
  p5 <-- (if Qlt_bool 0 (p_qos_w c) then q <-- attr (w_qos j) ;; Ok (p4 + p_qos_w c * q)%Q else Ok p4) ;;
  (if Qlt_bool 0 (p_nice_w c) then n <-- attr (w_nice j) ;; Ok (p5 + p_nice_w c * Qmax 1 n)%Q else Ok p5).

(** multifactor_jobs_sorting, multifactor_priority.py:113-121.  All karmas are computed first. *)
Definition multifactor_sorting (c : pconf) (kc : kconf) (nb_default : option Q) (queues : list string) (now : Z)
    (t : list acc) (l : list wj) : res (list wj) :=
  ks <-- eval_all (karma kc queues now t) l ;;
  r <-- eval_all (fun p => priority c nb_default now (fst p) (snd p)) ks ;;
  Ok (fst <$> (fst <$> sorted_rev snd r)).

(** jobs_sorting, kamelot.py:42-75.  [Custom f]: a plugin. *)
Inductive policy := ById | Fairshare | Multifactor (c : pconf) (nb_default : option Q).
Definition jobs_sorting (pol : policy) (kc : kconf) (queues : list string) (now : Z) (t : list acc) (l : list wj) : res (list wj) :=
  match pol with
  | ById => Ok l
  | Fairshare => karma_sorting kc queues now t l
  | Multifactor c nb => multifactor_sorting c kc nb queues now t l
  end.

(** get_max_job_per_queues_group, kamelot.py:25-39; [v] is the result of int(), None when the
    option is unset or not an integer. *)
Definition max_job (v : option Z) : option Z :=
  match v with Some n => if 0 <? n then Some n else None | None => None end.

(** get_waiting_jobs, job_handling.py:117-137, on the rows of the table jobs by increasing id. *)
Definition get_waiting_jobs (queues : list string) (reservation : string) (jobs : list wj) : list wj :=
  base.filter (fun j => w_state j = "Waiting"%string /\ w_queue j ∈ queues /\ w_resv j = reservation) jobs.

(** The jobs of a round, in the order they are scheduled: kamelot.py:90-126 and 160-223. *)
Definition round_jobs (pol : policy) (kc : kconf) (limit : option Z) (queues : list string) (now : Z)
    (t : list acc) (jobs : list wj) : res (list wj) :=
  match get_waiting_jobs queues "None" jobs with
  | [] => Ok []
  | l => o <-- jobs_sorting pol kc queues now t l ;;
         match max_job limit with
         | Some n => if n <? Z.of_nat (length o) then Ok (take (Z.to_nat n) o) else Ok o
         | None => Ok o
         end
  end.

(** A row of the table queues. *)
Record queue := mkQueue { q_name : string; q_prio : Z; q_active : bool }.
Fixpoint ins_queue (x : queue) (l : list queue) : list queue :=
  match l with
  | [] => [x]
  | y :: l' => if q_prio x <? q_prio y then y :: ins_queue x l' else x :: l
  end.
(** ORDER BY priority DESC.  The order of equal priorities is left to the database: here that of
    the table, and the theorems hold for every table. *)
Definition by_priority (l : list queue) : list queue := foldr ins_queue [] l.
(** itertools.groupby on the priority. *)
Fixpoint group_by (l : list queue) : list (list queue) :=
  match l with
  | [] => []
  | x :: l' =>
      match group_by l' with
      | (y :: g) :: gs => if q_prio x =? q_prio y then (x :: y :: g) :: gs else [x] :: (y :: g) :: gs
      | gs => [x] :: gs
      end
  end.
(** get_queues_groupby_priority, queue.py:17-27. *)
Definition queue_groups (l : list queue) : list (list queue) := group_by (by_priority l).
(** The active queues of each group, meta_sched.py:923-948. *)
Definition served_groups (l : list queue) : list (list queue) :=
  (fun g => base.filter (fun q => q_active q = true) g) <$> queue_groups l.
