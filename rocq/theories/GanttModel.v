(** Model of the Gantt tables around a scheduling round: oar/kao/meta_sched.py (start of the round,
    waiting reservations, best-effort jobs to kill, launch) and the functions of
    oar/lib/job_handling.py and oar/lib/resource.py it uses.  Sets of resources are lists: their order
    does not matter.  No proofs. *)
From Verif Require Import Base.

(** * Resources, resource.py:15-129 *)
(** The rows in the order of SCHEDULER_RESOURCE_ORDER; the index of a row is the number the scheduler
    works with.  Only identifiers below MAX_NB_RESOURCES. *)
Record ores := mkOres { o_id : Z; o_state : string }.
Definition in_use (r : ores) : Prop := o_state r = "Alive"%string \/ o_state r = "Absent"%string.
Global Instance in_use_dec r : Decision (in_use r).
Proof. unfold in_use. apply _. Defined.
(** rid_i2o and rid_o2i, resource.py:28-29 and 93-94: arrays of 0 filled for the resources in use. *)
Definition i2o (l : list ores) (id : Z) : Z :=
  match list_find (fun r => o_id r = id /\ in_use r) l with Some (n, _) => Z.of_nat n | None => 0 end.
Definition o2i (l : list ores) (k : Z) : Z :=
  match l !! Z.to_nat k with Some r => if decide (in_use r) then o_id r else 0 | None => 0 end.
(** roid_itvs and absent_roid_itvs, 122-124 *)
Definition is_roid (l : list ores) (k : Z) : Prop := 0 <= k /\ match l !! Z.to_nat k with Some r => in_use r | None => False end.
Definition is_absent (l : list ores) (k : Z) : Prop := 0 <= k /\ match l !! Z.to_nat k with Some r => o_state r = "Absent"%string | None => False end.
Global Instance is_roid_dec l k : Decision (is_roid l k).
Proof. unfold is_roid. destruct (l !! Z.to_nat k); apply _. Defined.
Global Instance is_absent_dec l k : Decision (is_absent l k).
Proof. unfold is_absent. destruct (l !! Z.to_nat k); apply _. Defined.

(** * Tables *)
(** jobs; [q_texts]: the texts of job_types, split at "=". *)
Record gjob := mkGjob { q_id : Z; q_state : string; q_resv : string; q_start : Z; q_mld : Z; q_queue : string;
  q_user : string; q_name : string; q_ckpt : Z; q_texts : list (string * string) }.
(** moldable_job_descriptions; [m_cur]: its index is CURRENT *)
Record gmld := mkGmld { m_id : Z; m_job : Z; m_wall : Z; m_cur : bool }.
(** gantt_jobs_predictions (description, start), gantt_jobs_resources (description, resource),
    assigned_resources (description, resource) *)
Record gdb := mkGdb { gjobs : list gjob; gmlds : list gmld; gpred : list (Z * Z); gres : list (Z * Z); gasg : list (Z * Z) }.

(** get_jobs_types, job_handling.py:140-187: what goes to [job.types].  The types with a branch of
    their own do not. *)
Definition special : list string := ["timesharing"; "placeholder"; "allow"; "assign"; "find"; "no_quotas"]%string.
Definition q_types (j : gjob) : list (string * string) := filter (fun p => p.1 ∉ special) (q_texts j).

(** * Start of a round *)
(** get_waiting_moldable_of_reservations_already_scheduled, job_handling.py:1210-1228 *)
Definition kept_resv (d : gdb) : list Z :=
  m_id <$> filter (fun m => existsb (fun j => (q_id j =? m_job m) && (bool_decide (q_state j = "Waiting"%string) || bool_decide (q_state j = "toAckReservation"%string)) &&
                              bool_decide (q_resv j = "Scheduled"%string)) (gjobs d) = true /\
                  existsb (fun p => p.1 =? m_id m) (gpred d) = true /\ existsb (fun p => p.1 =? m_id m) (gres d) = true) (gmlds d).
(** gantt_flush_tables, 1232-1249; an empty list removes everything, as the filter does. *)
Definition flush (keep : list Z) (d : gdb) : gdb :=
  mkGdb (gjobs d) (gmlds d) (filter (fun p => p.1 ∈ keep) (gpred d)) (filter (fun p => p.1 ∈ keep) (gres d)) (gasg d).
(** get_jobs_in_multiple_states, 1252-1289: description, start and resources of the jobs that have
    resources.  The rows come ordered by job: the loop makes one group of each job. *)
Definition current_states : list string := ["Running"; "toLaunch"; "Launching"; "Finishing"; "Suspended"; "Resuming"]%string.
Definition rids_of (rows : list (Z * Z)) (m : Z) : list Z := snd <$> filter (fun p => p.1 = m) rows.
Definition current_jobs (l : list ores) (d : gdb) : list (Z * Z * list Z) :=
  (fun j => (q_mld j, q_start j, remove_dups (i2o l <$> rids_of (gasg d) (q_mld j)))) <$>
  filter (fun j => q_state j ∈ current_states /\ rids_of (gasg d) (q_mld j) <> []) (gjobs d).
(** save_assigns, 641-683: the two tables.  Messages are not modelled, nor the call with nothing to insert. *)
Definition save_assigns (l : list ores) (js : list (Z * Z * list Z)) (d : gdb) : gdb :=
  let js := filter (fun x => -1 < x.1.2) js in
  mkGdb (gjobs d) (gmlds d) (gpred d ++ (fst <$> js)) (gres d ++ (js ≫= fun x => (fun k => (x.1.1, o2i l k)) <$> x.2)) (gasg d).
(** gantt_init_with_running_jobs, meta_sched.py:104-131 *)
Definition gantt_init (l : list ores) (d : gdb) : gdb :=
  save_assigns l (current_jobs l d) (flush (kept_resv d) d).

(** * Jobs read from the Gantt *)
Record lrow := mkLrow { w_job : gjob; w_mld : Z; w_start : Z; w_wall : Z; w_rid : Z }.
(** [l_wall]: with the security time; [l_res]: scheduler's numbers *)
Record ljob := mkLjob { l_job : gjob; l_mld : Z; l_start : Z; l_wall : Z; l_res : list Z }.
(** The joins of job_handling.py:532-549 and 577-591; [P]: the conditions of each. *)
Definition gantt_rows (P : gjob -> gmld -> Z -> bool) (d : gdb) : list lrow :=
  p ← gpred d; m ← filter (fun m => m_id m = p.1) (gmlds d); j ← filter (fun j => q_id j = m_job m) (gjobs d); r ← filter (fun r => r.1 = p.1) (gres d);
  if P j m p.2 then [mkLrow j p.1 p.2 (m_wall m) r.2] else [].
Definition launch_rows (date : Z) : gdb -> list lrow := gantt_rows (fun j _ st => (st <=? date) && bool_decide (q_state j = "Waiting"%string)).
Definition resv_rows (queue : string) : gdb -> list lrow :=
  gantt_rows (fun j m _ => m_cur m && bool_decide (q_queue j = queue) && bool_decide (q_resv j = "Scheduled"%string) && bool_decide (q_state j = "Waiting"%string)).
(** extract_scheduled_jobs, job_handling.py:423-471 (LoadModel.v follows the loop itself): one job for
    each run of rows of the same job.  None of these jobs is suspended. *)
Definition lstart (l : list ores) (sec : Z) (x : lrow) : ljob := mkLjob (w_job x) (w_mld x) (w_start x) (w_wall x + sec) [i2o l (w_rid x)].
Definition ladd (l : list ores) (x : lrow) (j : ljob) : ljob := mkLjob (l_job j) (l_mld j) (l_start j) (l_wall j) (l_res j ++ [i2o l (w_rid x)]).
Fixpoint runs (l : list ores) (sec : Z) (cur : ljob) (rows : list lrow) : list ljob :=
  match rows with
  | [] => [cur]
  | x :: rows => if q_id (w_job x) =? q_id (l_job cur) then runs l sec (ladd l x cur) rows else cur :: runs l sec (lstart l sec x) rows
  end.
Definition extract (l : list ores) (sec : Z) (rows : list lrow) : list ljob :=
  match rows with [] => [] | x :: rows => runs l sec (lstart l sec x) rows end.
(** Python dictionaries in insertion order. *)
Fixpoint dput {A} (k : Z) (v : A) (l : list (Z * A)) : list (Z * A) :=
  match l with [] => [(k, v)] | (k', v') :: l => if k =? k' then (k, v) :: l else (k', v') :: dput k v l end.
Fixpoint dfind {A} (k : Z) (l : list (Z * A)) : option A :=
  match l with [] => None | (k', v) :: l => if k =? k' then Some v else dfind k l end.
(** rid2jid, job_handling.py:460, and the jobs by identifier, 442 and 468 *)
Definition rid2jid (l : list ores) (rows : list lrow) : list (Z * Z) := fold_left (fun a x => dput (i2o l (w_rid x)) (q_id (w_job x)) a) rows [].
Definition by_id (js : list ljob) : list (Z * ljob) := fold_left (fun a j => dput (q_id (l_job j)) j a) js [].

(** * Best-effort jobs to kill *)
(** is_timesharing_for_two_jobs, job_handling.py:1345-1362 *)
Definition ts_of (j : gjob) : option string := snd <$> head (filter (fun p => p.1 = "timesharing"%string) (q_types j)).
Definition share (j1 j2 : gjob) : bool :=
  match ts_of j1, ts_of j2 with
  | Some t1, Some t2 =>
      (bool_decide (t1 = "*,*"%string) && bool_decide (t2 = "*,*"%string)) ||
      (bool_decide (q_user j1 = q_user j2) && bool_decide (q_name j1 = q_name j2)) ||
      (bool_decide (q_user j1 = q_user j2) && bool_decide (t1 = "user,*"%string) && bool_decide (t2 = "user,*"%string)) ||
      (bool_decide (q_name j1 = q_name j2) && bool_decide (t1 = "*,name"%string) && bool_decide (t1 = "*,name"%string))
  | _, _ => false
  end.
(** besteffort_rid2job, meta_sched.py:163-169 *)
Definition be_map (sched : list ljob) : list (Z * gjob) :=
  fold_left (fun a j => if existsb (fun p => bool_decide (p.1 = "besteffort"%string)) (q_types (l_job j))
                        then fold_left (fun a k => dput k (l_job j) a) (l_res j) a else a) sched [].
(** check_besteffort_jobs_to_kill, meta_sched.py:477-556: the jobs to kill.  For a job with a checkpoint,
    get_job_events is called with one argument (event.py:60 wants two). *)
Fixpoint to_kill (be : list (Z * gjob)) (jobs : list (Z * ljob)) (items : list (Z * Z)) (fragged : list Z) : res (list Z) :=
  match items with
  | [] => Ok fragged
  | (k, jid) :: items =>
      match dfind k be with
      | None => to_kill be jobs items fragged
      | Some b =>
          match dfind jid jobs with
          | None => Err EKey
          | Some j =>
              if share b (l_job j) then to_kill be jobs items fragged
              else if bool_decide (q_id b ∈ fragged) then to_kill be jobs items fragged
              else if 0 <? q_ckpt b then Err EType
              else to_kill be jobs items (fragged ++ [q_id b])
          end
      end
  end.

(** * Launch *)
(** set_moldable_job_max_time and set_gantt_job_start_time, job_handling.py:1309-1328 *)
Definition set_wall (m w : Z) (d : gdb) : gdb := mkGdb (gjobs d) ((fun x => if m_id x =? m then mkGmld (m_id x) (m_job x) w (m_cur x) else x) <$> gmlds d) (gpred d) (gres d) (gasg d).
Definition set_pred (m t : Z) (d : gdb) : gdb := mkGdb (gjobs d) (gmlds d) ((fun p => if p.1 =? m then (m, t) else p) <$> gpred d) (gres d) (gasg d).
(** The job, meta_sched.py:231-255: start, description and state. *)
Definition set_launched (id now m : Z) (d : gdb) : gdb :=
  mkGdb ((fun j => if q_id j =? id then mkGjob (q_id j) "toLaunch" (q_resv j) now m (q_queue j) (q_user j) (q_name j) (q_ckpt j) (q_texts j) else j) <$> gjobs d)
    (gmlds d) (gpred d) (gres d) (gasg d ++ filter (fun p => p.1 = m) (gres d)).
(** handle_jobs_to_launch, 559-608, with notify_to_run_job, 191-228 (the commander answers): [sent] holds
    the messages, each is also noted in to_launch_jobs_already_treated. *)
Definition launch_one (now : Z) (s : gdb * list Z) (j : ljob) : gdb * list Z :=
  let d := s.1 in
  let d := if bool_decide (q_resv (l_job j) = "Scheduled"%string) && (l_start j <? now)
           then set_pred (l_mld j) now (set_wall (l_mld j) (l_wall j - (now - l_start j)) d) else d in
  let d := set_launched (q_id (l_job j)) now (l_mld j) d in
  (d, if bool_decide (q_id (l_job j) ∈ s.2) then s.2 else s.2 ++ [q_id (l_job j)]).
(** The filter, 985-997 *)
Definition ready (l : list ores) (now : Z) (j : ljob) : Prop := l_start j <= now /\ filter (is_absent l) (l_res j) = [].
Global Instance ready_dec l now j : Decision (ready l now j).
Proof. unfold ready. apply _. Defined.
(** The end of meta_schedule, 966-1024.  [rows]: the answer of the database, in any order; [sched]: the
    jobs loaded at the start.  Result: tables, launches sent, deletions asked. *)
Definition finish_round (l : list ores) (sec now : Z) (rows : list lrow) (sched : list ljob) (d : gdb) : res (gdb * list Z * list Z) :=
  let js := extract l sec rows in
  k <-- to_kill (be_map sched) (by_id js) (rid2jid l rows) [] ;;
  if bool_decide (k = []) then let s := fold_left (launch_one now) (filter (ready l now) js) (d, []) in Ok (s.1, s.2, [])
  else Ok (d, [], k).

(** * Waiting reservations *)
(** remove_gantt_resource_job, job_handling.py:1332-1342 *)
Definition remove_gantt (l : list ores) (m : Z) (ks : list Z) (d : gdb) : gdb :=
  if bool_decide (ks = []) then d
  else mkGdb (gjobs d) (gmlds d) (gpred d) (filter (fun p => ~ (p.1 = m /\ p.2 ∉ (o2i l <$> ks))) (gres d)) (gasg d).
Definition set_error (id : Z) (d : gdb) : gdb :=
  mkGdb ((fun j => if q_id j =? id then mkGjob (q_id j) "Error" (q_resv j) (q_start j) (q_mld j) (q_queue j) (q_user j) (q_name j) (q_ckpt j) (q_texts j) else j) <$> gjobs d)
    (gmlds d) (gpred d) (gres d) (gasg d).
(** handle_waiting_reservation_jobs, meta_sched.py:258-349, for one job.  While it waits for missing
    resources the message adds a number to a text (304-315).  Events and messages are not modelled. *)
Definition wait_resv (l : list ores) (timeout now : Z) (j : ljob) (d : gdb) : res gdb :=
  if l_start j + l_wall j <? now then Ok (set_error (q_id (l_job j)) d)
  else
    let missing := filter (fun k => ~ is_roid l k) (l_res j) in
    let avail := filter (is_roid l) (l_res j) in
    if bool_decide (avail = []) && (l_start j <? now) then Ok (set_pred (l_mld j) (now + 1) d)
    else if l_start j <? now then
      if now <? l_start j + timeout then if bool_decide (missing = []) then Ok d else Err EType
      else Ok (remove_gantt l (l_mld j) missing d)
    else Ok d.
Fixpoint wait_all (l : list ores) (timeout now : Z) (js : list ljob) (d : gdb) : res gdb :=
  match js with [] => Ok d | j :: js => d <-- wait_resv l timeout now j d ;; wait_all l timeout now js d end.
