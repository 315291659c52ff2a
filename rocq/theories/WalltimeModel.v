(** Model of walltime changes: oar/lib/walltime.py and oar/kao/walltime_change.py, with
    get_jobs_with_walltime_change, get_possible_job_end_time_in_interval and change_walltime of
    oar/lib/job_handling.py.  No proofs. *)
From Verif Require Import Base JobModel TimeModel.

(** ** Configuration values, get_conf, walltime.py:23-38.  A value is an integer or a float of at
    most 1 (a fraction of the walltime); a string is evaluated and may give one value per queue
    ("_" being the default).  A queue without value leaves the text itself, which is no number:
    None (TypeError where it is used). *)
Inductive cval := CInt (z : Z) | CFrac (num den : Z).
Inductive conf := CPlain (v : cval) | CByQueue (l : list (string * cval)).
Definition assoc {A} (k : string) (l : list (string * A)) : option A := snd <$> head (filter (fun x => fst x = k) l).
Definition conf_value (c : conf) (queue : string) : option cval :=
  match c with
  | CPlain v => Some v
  | CByQueue l => match assoc queue l with Some v => Some v | None => assoc "_" l end
  end.
(** int(walltime * value) truncates; a zero walltime (false in Python) is not possible here. *)
Definition cval_of (walltime : Z) (v : cval) : Z := match v with CInt z => z | CFrac n d => Z.quot (walltime * n) d end.
Definition get_conf (c : conf) (queue : string) (walltime : Z) : option Z := cval_of walltime <$> conf_value c queue.
(** WALLTIME_ALLOWED_USERS_...: "*" or a list of names, already resolved for the queue. *)
Inductive users := UAll | UOnly (l : list string).
Definition user_in (u : string) (c : users) : bool :=
  match c with UAll => true | UOnly l => bool_decide (u ∈ (["root"; "oar"]%string ++ l)) end.

(** ** request, walltime.py:152-347 *)
(** The regular expression ^([-+]?)(\d+)(?::(\d+)(?::(\d+))?)?$ *)
Definition number (s : string) : option Z := match s with EmptyString => None | _ => digits_val 0 s end.
Definition parse_hms (s : string) : option Z :=
  match split_colon s with
  | [h] => h ← number h; Some (hms_to_duration h 0 0)
  | [h; m] => h ← number h; m ← number m; Some (hms_to_duration h m 0)
  | [h; m; s] => h ← number h; m ← number m; s ← number s; Some (hms_to_duration h m s)
  | _ => None
  end.
(** The change asked for, in seconds. *)
Definition parse_change (walltime : Z) (s : string) : option Z :=
  match s with
  | String c s' =>
      if bool_decide (c = "-"%char) then Z.opp <$> parse_hms s'
      else if bool_decide (c = "+"%char) then parse_hms s'
      else (fun t => t - walltime) <$> parse_hms s
  | EmptyString => None
  end.
Record rconf := mkRconf { enabled : option string; max_increase : conf; min_for_change : Z; force_users : users; delay_users : users }.
Definition yes_no (b : bool) : string := if b then "YES" else "NO".
(** update_walltime_change_request, walltime.py:360-388: None is written as 0, "NO". *)
Definition update_request (id pending : Z) (force delay : string) (granted gf gd : Z) : db -> db :=
  with_wtcs (upd (fun w => w_job w = id) (fun w => mkWtc (w_job w) pending force delay granted gf gd)).
(** [force], [delay]: the options, true for "yes" in any case. *)
Definition request (cf : rconf) (now id : Z) (user new_walltime : string) (force delay : bool) (d : db) : res (Z * db) :=
  if negb (bool_decide (enabled cf = Some "YES"%string)) then Ok (5, d)
  else match get_job d id with
  | None => Ok (4, d)
  | Some job =>
    if negb (bool_decide (j_user job = user)) && negb (bool_decide (user ∈ ["root"; "oar"]%string)) then Ok (3, d)
    else if negb (bool_decide (j_state job = "Running"%string)) then Ok (3, d)
    else match filter (fun m => m_id m = j_mld job) (mlds d) with
    | [m] =>
      match get_conf (max_increase cf) (j_queue job) (m_wall m) with
      | None => Err EType
      | Some maxi =>
        match parse_change (m_wall m) new_walltime with
        | None => Ok (1, d)
        | Some change =>
          if bool_decide (user = ""%string) then Ok (1, d)
          else if force && negb (user_in user (force_users cf)) then Ok (3, d)
          else if delay && negb (user_in user (delay_users cf)) then Ok (3, d)
          else if m_wall m <? min_for_change cf then Ok (3, d)
          else if bool_decide ("container"%string ∈ j_types job) && (change <? 0) then Ok (3, d)
          else
            let remaining := j_start job + m_wall m + suspended_sum now id d - now in
            let change := if remaining <? - change then - remaining else change in
            let over := fun granted => negb (maxi =? -1) && (maxi <? granted + change) && negb (bool_decide (user ∈ ["root"; "oar"]%string)) in
            let f := yes_no (force && (0 <? change)) in let dl := yes_no (delay && (0 <? change)) in
            match filter (fun w => w_job w = id) (wtcs d) with
            | [w] => if over (w_granted w) then Ok (3, d) else Ok (0, update_request id change f dl 0 0 0 d)
            | _ => if over 0 then Ok (3, d) else Ok (0, with_wtcs (fun l => l ++ [mkWtc id change f dl 0 0 0]) d)
            end
        end
      end
    | _ => Err EKey
    end
  end.

(** ** The processing of the requests, walltime_change.py:18-151 *)
(** A prediction of the Gantt joined with its job: start, resource, whether the job is an advance
    reservation, its types as they are stored, its user and name. *)
Record pred := mkPred { p_start : Z; p_res : Z; p_reservation : bool; p_types : list string; p_user : string; p_name : string }.
Record wenv := mkWenv { rids : Z -> list Z (** resources assigned to a moldable id *);
  preds : list pred; types : Z -> list (string * string) (** types of a job *);
  jname : Z -> string; security : Z; apply_conf : conf; incr_conf : conf }.

(** The predictions left out, get_possible_job_end_time_in_interval 2801-2830.  For
    timesharing=user,* or name,* the query contains the bare name: the database refuses it (EName).
    For timesharing=user,name the name is compared with the text "$job_name". *)
Definition excluded (tys : list (string * string)) (user : string) : res (pred -> bool) :=
  let has t p := bool_decide (t ∈ p_types p) in
  let be := has "besteffort"%string in
  match assoc "allowed" tys with
  | Some v => Ok (fun p => has ("placeholder=" +:+ v)%string p || be p)
  | None =>
      match assoc "timesharing" tys with
      | None => Ok be
      | Some v =>
          if bool_decide (v ∈ ["user,*"; "*,user"; "name,*"; "*,name"]%string) then Err EName
          else if bool_decide (v ∈ ["name,user"; "user,name"]%string) then
            Ok (fun p => (has "timesharing=user,name"%string p || has "timesharing=name,user"%string p) &&
                         bool_decide (p_name p = "$job_name"%string) && bool_decide (p_user p = user) || be p)
          else if bool_decide (v = "*,*"%string) then Ok (fun p => has "timesharing=*,*"%string p || be p)
          else Ok be
      end
  end.
(** get_possible_job_end_time_in_interval, job_handling.py:2781-2861 *)
Definition possible_end (env : wenv) (from to : Z) (res : list Z) (delay : bool) (excl : pred -> bool) : Z :=
  let starts := p_start <$> filter (fun p => (if delay then p_reservation p else true) = true /\
      from < p_start p <= to + security env /\ excl p = false /\ p_res p ∈ res) (preds env) in
  fold_left (fun first s => if (first =? 0) || (s - security env <? first) then s - security env - 1 else first) starts to.

(** change_walltime, job_handling.py:2864-2871: every moldable of the job; the event is added as
    one to check (add_new_event ignores its argument). *)
Definition change_walltime (id w : Z) (d : db) : db :=
  add_event "WALLTIME" id (with_mlds (upd (fun m => m_job m = id) (fun m => mkMld (m_id m) (m_job m) w)) d).

(** get_jobs_with_walltime_change, job_handling.py:2713-2778 *)
Definition to_process (env : wenv) (d : db) : list (job * mld * wtc) :=
  j ← filter (fun j => j_state j = "Running"%string) (jobs d);
  m ← filter (fun m => m_id m = j_mld j) (mlds d);
  w ← filter (fun w => w_job w = j_id j /\ w_pending w <> 0) (wtcs d);
  match rids env (m_id m) with [] => [] | _ => [(j, m, w)] end.

(** The end date of the container of an inner job (get_running_job, job_handling.py:1482-1492):
    NoResultFound when it is not running (EKey), ValueError when the type is not a number. *)
Definition container_end (d : db) (v : string) : res Z :=
  match int_of v with
  | None => Err EType
  | Some cid =>
      match j ← filter (fun j => j_id j = cid /\ j_state j = "Running"%string) (jobs d);
            m ← filter (fun m => m_id m = j_mld j) (mlds d); [j_start j + m_wall m] with
      | [e] => Ok e
      | _ => Err EKey
      end
  end.

(** One turn of the loop: what is granted now; None: nothing ([continue]). *)
Definition grant (env : wenv) (now : Z) (d : db) (j : job) (m : mld) (w : wtc) : res (option Z) :=
  let susp := suspended_sum now (j_id j) d in
  let fit := w_pending w in
  if 0 <? fit then
    match get_conf (apply_conf env) (j_queue j) (m_wall m - w_granted w), get_conf (incr_conf env) (j_queue j) (m_wall m - w_granted w) with
    | Some apply_time, Some increment =>
        let forced := bool_decide (w_force w = "YES"%string) in
        let delay := j_start j + m_wall m + susp - apply_time - now in
        if negb forced && (0 <? apply_time) && (0 <? delay) then Ok None
        else
          let fit := if negb forced && (0 <? increment) && (increment <? fit) then increment else fit in
          let from := j_start j + m_wall m + susp in
          to <-- (match assoc "inner" (types env (j_id j)) with
                  | Some v => e <-- container_end d v ;; Ok (if e <? from + fit then e else from + fit)
                  | None => Ok (from + fit)
                  end) ;;
          excl <-- excluded (types env (j_id j)) (j_user j) ;;
          let fit := possible_end env from to (rids env (m_id m)) (bool_decide (w_delay w = "YES"%string)) excl - from in
          Ok (if fit <=? 0 then None else Some fit)
    | _, _ => Err EType
    end
  else if fit <? 0 then
    let remaining := j_start j + m_wall m + susp - now in
    Ok (Some (if remaining <? - fit then - remaining else fit))
  else Ok (Some fit).

Definition process_one (env : wenv) (now : Z) (x : job * mld * wtc) (d : db) : res db :=
  let '(j, m, w) := x in
  g <-- grant env now d j m w ;;
  match g with
  | None => Ok d
  | Some fit =>
      let yes s := bool_decide (s = "YES"%string) in
      let d := update_request (j_id j) (w_pending w - fit) "NO" "NO" (w_granted w + fit)
                 (if yes (w_force w) && (0 <? fit) then w_granted_force w + fit else 0)
                 (if yes (w_delay w) && (0 <? fit) then w_granted_delay w + fit else 0) d in
      Ok (change_walltime (j_id j) (m_wall m + fit) d)
  end.
Fixpoint process_list (env : wenv) (now : Z) (l : list (job * mld * wtc)) (d : db) : res db :=
  match l with [] => Ok d | x :: l' => d <-- process_one env now x d ;; process_list env now l' d end.
Definition process (env : wenv) (now : Z) (d : db) : res db := process_list env now (to_process env d) d.

(** The call by the meta-scheduler, meta_sched.py:872-875: the test is on "yes" and the call has
    one argument out of three (TypeError). *)
Definition meta_process (cf : rconf) (d : db) : res db :=
  if bool_decide (enabled cf = Some "yes"%string) then Err EType else Ok d.
