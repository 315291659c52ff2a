(** Model of the placement of waiting jobs: oar/kao/scheduling.py:87-549.
    Pure transcription, no proofs.  Not modelled: the extension points job.find / job.assign,
    the timing output, and the calendar of temporal quotas inside the search (Quotas.calendar is
    None here). *)
From Verif Require Import Base SlotModel HierarchyModel QuotasModel LoadModel.

(** One moldable alternative (moldable id, walltime, resource groups): scheduling.py:142. *)
Record rqt := mkRqt { r_mld : Z; r_wall : Z; r_groups : list rgroup }.

(** A waiting job.  [w_job]: its attributes; start_time is the column of the database (0 for a
    waiting job) until it is placed.  [w_wall]: the attribute walltime, absent until placed.
    [w_keys]: job.key_cache.  [w_mld]: moldable_id. *)
Record wjob := mkWjob {
  w_job : job;
  w_rqts : list rqt;
  w_deps : list (Z * string * option Z);
  w_keys : gmap Z string;
  w_noq : bool;
  w_wall : option Z;
  w_mld : Z
}.

(** SlotSet.cache *)
Notation cache := (gmap string Z).

(** What a pair of slots offers to the job: scheduling.py:186-189 and 276-281. *)
Definition avail (m : gmap Z slot) (l r : Z) (j : job) : res procset :=
  if jts j || (jph j =? ALLOW) then intersec_ts_ph_itvs_slots m l r j else intersec_itvs_slots m l r.

(** The number of resources counted for quotas, scheduling.py:209. *)
Definition nb_counted (cf : qconf) (x : procset) : Z := Z.of_nat (size (x ∩ default_itvs (q_env cf))).

(** The loop over the windows.  [qc]: Some when quotas are enabled and apply to the job
    (scheduling.py:165-221), None otherwise (scheduling.py:269-299). *)
Fixpoint search_loop (qc : option qconf) (hy : hierarchy) (m : gmap Z slot) (j : job) (rq : rqt)
    (ws : list (slot * slot)) : res (option (procset * Z * Z)) :=
  match ws with
  | [] => Ok None
  | (sl, sr) :: ws' =>
      x <-- avail m (sid sl) (sid sr) j ;;
      r <-- find_resource_hierarchies_job x (r_groups rq) hy ;;
      if nonempty r then
        match qc with
        | None => Ok (Some (r, sid sl, sid sr))
        | Some cf =>
            v <-- check_slots_quotas cf m (sid sl) (sid sr) j (nb_counted cf r) (r_wall rq) ;;
            match v with
            | QOk => Ok (Some (r, sid sl, sid sr))
            | _ => search_loop qc hy m j rq ws'
            end
        end
      else search_loop qc hy m j rq ws'
  end.

(** Where the search starts: scheduling.py:150-160 and 254-264. *)
Definition start_id (ss : slotset) (ch : cache) (w : wjob) (rq : rqt) (min_start : Z) : res Z :=
  s <-- first (slots ss) ;;
  if min_start <? 0 then
    if bool_decide (w_keys w = ∅) then Ok (sid s)
    else
      match w_keys w !! r_mld rq with
      | None => Err EKey
      | Some k => match ch !! k with Some i => Ok i | None => Ok (sid s) end
      end
  else slot_id_at (slots ss) min_start 0.

(** find_first_suitable_contiguous_slots, scheduling.py:122-331: the answer and the cache.
    Only the version without quotas writes the cache (scheduling.py:307-313). *)
Definition find_first (qc : option qconf) (hy : hierarchy) (ss : slotset) (ch : cache) (w : wjob) (rq : rqt)
    (min_start : Z) : res (option (procset * Z * Z) * cache) :=
  i <-- start_id ss ch w rq min_start ;;
  ws <-- traverse_with_width (slots ss) (r_wall rq) i ;;
  let qc := if w_noq w then None else qc in
  o <-- search_loop qc hy (slots ss) (w_job w) rq ws ;;
  match o, qc with
  | Some (_, l, _), None =>
      if negb (bool_decide (w_keys w = ∅)) && (min_start <? 0) then
        match w_keys w !! r_mld rq with
        | None => Err EKey
        | Some k => Ok (o, <[ k := l ]> ch)
        end
      else Ok (o, ch)
  | _, _ => Ok (o, ch)
  end.

(** The best alternative so far: finish time, start, resources, alternative, slots. *)
Definition best : Type := Z * Z * procset * rqt * Z * Z.

(** The loop of assign_resources_mld_job_split_slots, scheduling.py:357-385. *)
Fixpoint assign_loop (qc : option qconf) (hy : hierarchy) (ss : slotset) (w : wjob) (min_start : Z)
    (rqs : list rqt) (ch : cache) (finish : Z) (bst : option best) (found : bool)
    : res (option best * bool * cache) :=
  match rqs with
  | [] => Ok (bst, found, ch)
  | rq :: rqs' =>
      '(o, ch) <-- find_first qc hy ss ch w rq min_start ;;
      match o with
      | None => assign_loop qc hy ss w min_start rqs' ch finish bst found
      | Some (x, l, _) =>
          s <-- dget l (slots ss) ;;
          let t_finish := sb s + r_wall rq - 1 in
          if t_finish <? finish then
            '(el, er) <-- get_encompassing_slots (slots ss) (sb s) t_finish 0 ;;
            assign_loop qc hy ss w min_start rqs' ch t_finish (Some (t_finish, sb s, x, rq, el, er)) true
          else assign_loop qc hy ss w min_start rqs' ch finish bst true
      end
  end.

(** The job after a failed search (scheduling.py:388-393) ... *)
Definition unplaced (w : wjob) : wjob :=
  let j := w_job w in
  mkWjob (with_sched j (-1) (walltime j) ∅) (w_rqts w) (w_deps w) (w_keys w) (w_noq w) (w_wall w) (-1).
(** ... and after a successful one (scheduling.py:395-399). *)
Definition placed (w : wjob) (st : Z) (x : procset) (rq : rqt) : wjob :=
  mkWjob (with_sched (w_job w) st (r_wall rq) x) (w_rqts w) (w_deps w) (w_keys w) (w_noq w)
    (Some (r_wall rq)) (r_mld rq).

(** assign_resources_mld_job_split_slots, scheduling.py:334-408.  When some alternative was
    found but none finishes before 2^32-1, unpacking the empty ProcSet raises ValueError
    (EType here, as the other errors about the shape of values). *)
Definition assign (env : qenv) (qc : option qconf) (hy : hierarchy) (ss : slotset) (ch : cache) (w : wjob)
    (min_start : Z) : res (slotset * cache * wjob) :=
  _ <-- dget 1 (slots ss) ;;
  '(bst, found, ch) <-- assign_loop qc hy ss w min_start (w_rqts w) ch (2 ^ 32 - 1) None false ;;
  if negb found then Ok (ss, ch, unplaced w)
  else
    match bst with
    | None => Err EType
    | Some (_, st, x, rq, l, r) =>
        let w' := placed w st x rq in
        ss' <-- split_slots env ss l r (w_job w') true ;;
        Ok (ss', ch, w')
    end.

(** Dependencies: scheduling.py:441-474.  None: skip the job. *)
Fixpoint deps_loop (jobs : gmap Z wjob) (deps : list (Z * string * option Z)) (m : Z) : option Z :=
  match deps with
  | [] => Some m
  | (d, state, code) :: deps' =>
      if bool_decide (state = "Error"%string) then deps_loop jobs deps' m
      else if bool_decide (state = "Waiting"%string) then
        match jobs !! d with
        | None => None
        | Some wd =>
            let stop := match w_wall wd with Some x => start_time (w_job wd) + x | None => start_time (w_job wd) end in
            deps_loop jobs deps' (if m <? stop then stop else m)
        end
      else if bool_decide (state = "Terminated"%string)
              && (bool_decide (code = Some 0) || bool_decide (code = None)) then deps_loop jobs deps' m
      else None
  end.

(** Slot sets with their caches, by name. *)
Notation csets := (list (string * (slotset * cache))).
Fixpoint c_get {A} (n : string) (l : list (string * A)) : option A :=
  match l with
  | [] => None
  | (m, s) :: l' => if bool_decide (m = n) then Some s else c_get n l'
  end.
Fixpoint c_set {A} (n : string) (v : A) (l : list (string * A)) : list (string * A) :=
  match l with
  | [] => [(n, v)]
  | (m, s) :: l' => if bool_decide (m = n) then (m, v) :: l' else (m, s) :: c_set n v l'
  end.

Definition skipped (w : wjob) : wjob :=
  let j := w_job w in
  mkWjob (with_sched j (-1) (walltime j) (res_set j)) (w_rqts w) (w_deps w) (w_keys w) (w_noq w) (w_wall w) (w_mld w).

(** The container step, scheduling.py:510-538.  [q]: quotas enabled.  Reading the walltime of
    an unplaced job raises AttributeError. *)
Definition open_container (env : qenv) (q : bool) (idstr : Z -> string) (sec : Z) (w : wjob) (sss : csets) : res csets :=
  let j := w_job w in
  if has_type "container" j then
    let n := container_name idstr j in
    wall <-- attr (w_wall w) ;;
    match c_get n sss with
    | Some (ss, ch) =>
        ss' <-- split_slots_jobs env ss
                  [mkJob 0 (start_time j) (wall - sec) (res_set j) (jts j) None None (if jts j then 1 else 0) None
                     "" "" "default" "" []] false ;;
        Ok (c_set n (ss', ch) sss)
    | None =>
        Ok (sss ++ [(n, (ss_of_slot (mkSlot 1 0 0 (start_time j) (start_time j + wall - sec)
                                       (fresh_content q (res_set j))), ∅))])
    end
  else Ok sss.

(** schedule_id_jobs_ct, scheduling.py:411-549.  A missing slot set raises KeyError (the [next]
    of scheduling.py:493 does nothing). *)
Fixpoint schedule_jobs (env : qenv) (qc : option qconf) (hy : hierarchy) (idstr : Z -> string) (sec : Z)
    (ids : list Z) (sss : csets) (jobs : gmap Z wjob) : res (csets * gmap Z wjob) :=
  match ids with
  | [] => Ok (sss, jobs)
  | id :: ids' =>
      w <-- dget id jobs ;;
      match deps_loop jobs (w_deps w) (-1) with
      | None => schedule_jobs env qc hy idstr sec ids' sss (<[ id := skipped w ]> jobs)
      | Some min_start =>
          let n := default "default"%string (type_value "inner" (jtypes (w_job w))) in
          match c_get n sss with
          | None => Err EKey
          | Some (ss, ch) =>
              '(ss', ch', w') <-- assign env qc hy ss ch w min_start ;;
              sss <-- open_container env (bool_decide (is_Some qc)) idstr sec w' (c_set n (ss', ch') sss) ;;
              schedule_jobs env qc hy idstr sec ids' sss (<[ id := w' ]> jobs)
          end
      end
  end.
