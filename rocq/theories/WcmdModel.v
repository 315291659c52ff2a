(** oarwalltime (oar/cli/oarwalltime.py:14-131), the state of a walltime change (oar/lib/walltime.py:58-149), and the main functions of the external
    schedulers kamelot (oar/kao/kamelot.py:262-290).  No proofs here.  The requests are those of WalltimeModel, the exit values those of CommandReturns
    (AdminModel).  Left out: the option -V, the messages, identifiers that are no numbers. *)
From Verif Require Import Base JobModel TimeModel WalltimeModel.
From Verif Require AdminModel QfileModel.

(** ** oarwalltime *)
(** What the command did: the database, its exit values, the notifications; or the exception it ended with. *)
Record done_by := mkDone { c_db : db; c_exits : list Z; c_sent : list string; c_error : option err }.
Definition status_of (o : done_by) : Z := fst (AdminModel.get_exit_value (AdminModel.mkReturns (c_exits o) 0)).
(** usage(1) sets the final value; the help is the same as an error 1 here. *)
Definition stop (d : db) (v : Z) : done_by := mkDone d [v] [] None.
(** The regular expression ^[-+]?\d+(?::\d+(?::\d+)?)?$ of oarwalltime.py:39 (the digits are those of ASCII). *)
Definition well_formed (s : string) : bool := match parse_change 0 s with Some _ => true | None => false end.
(** walltime.get, walltime.py:58-149, up to what the command does with it.  [None]: the change, false; [Some None]: no walltime yet.
    The moldable has no attribute moldable_walltime (AttributeError).  A job without a moldable does not run; the configuration has its values. *)
Definition change_status (cf : rconf) (id : Z) (d : db) : res (option (option Z)) :=
  if negb (bool_decide (enabled cf = Some "YES"%string)) then Ok None
  else match get_job d id with
  | None => Ok None
  | Some j => if j_mld j =? 0 then Ok (Some None)
      else match filter (fun m => m_id m = j_mld j) (mlds d) with [_] => Err EAttr | _ => Err EKey end
  end.
(** [s]: the new walltime, empty when it is not given; the user is known. *)
Definition oarwalltime (cf : rconf) (now id : Z) (user s : string) (force delay : bool) (d : db) : done_by :=
  if id =? 0 then stop d 1
  else if bool_decide (s = ""%string) && (delay || force) then stop d 1
  else if negb (bool_decide (s = ""%string)) && negb (well_formed s) then stop d 1
  else if bool_decide (s = ""%string) then
    match change_status cf id d with
    | Err e => mkDone d [] [] (Some e)
    | Ok None => stop d 2
    | Ok (Some None) => stop d 0
    | Ok (Some (Some _)) => mkDone d [] [] (Some EAttr) (* ", ".granted_with *)
    end
  else match request cf now id user s force delay d with
  | Err e => mkDone d [] [] (Some e)
  | Ok (c, d') => mkDone d' [c] (if c =? 0 then ["Walltime"%string] else []) None
  end.

(** ** kamelot *)
(** How the cycle is called: the date (None: that of the system), the queues; the default of schedule_cycle is ["default"] (kamelot.py:151). *)
Record call := mkCall { k_now : option Z; k_queues : list string }.
(** int(float(text)), kamelot.py:280 *)
Definition date_of (t : string) : res Z :=
  match QfileModel.float_of t with QfileModel.Number f => Ok (QfileModel.truncate f) | _ => Err EValue end.
(** main, kamelot.py:262-290.  resource_set() without the session: ResourceSet(None, None) cannot read the configuration (TypeError).  [quotas]: QUOTAS=yes. *)
Definition kamelot (quotas : bool) (argv : list string) : res call :=
  if quotas then Err EType
  else match argv with
  | _ :: q :: t :: _ => now <-- date_of t ;; Ok (mkCall (Some now) [q])
  | [_; q] => Ok (mkCall None [q])
  | _ => Ok (mkCall None ["default"%string])
  end.
(** call_external_scheduler, meta_sched.py:663-675: the command, the queue, the date, the date as a text *)
Definition scheduler_argv (path queue : string) (now : Z) (sql : string) : list string := [path; queue; str now; sql].
