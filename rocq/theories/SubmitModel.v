(** Writing a submission in the database and reading it back in the scheduler:
    oar/lib/submission.py:901-1522 and oar/lib/job_handling.py:209-394.  No proofs here. *)
From Verif Require Import Base HierarchyModel.

(** ** The tables.  Columns not used here are left out; the index columns are all "CURRENT". *)
Record jobrow := mkJob { jid : Z; jstate : string; jarray : Z; jindex : Z; jcmd : string;
                         jprops : option string; jresv : string }.
Record mldrow := mkMld { mid : Z; mjob : Z; mwall : Z }.
Record grprow := mkGrp { gid : Z; gmld : Z; gprop : string }.
Record descrow := mkDesc { dgrp : Z; dtype : string; dval : Z; dord : Z }.
(** [nj], [nm], [ng]: the next identifiers given by the database. *)
Record db := mkDb { jobs : list jobrow; mlds : list mldrow; grps : list grprow; descs : list descrow;
                    types : list (Z * string); deps : list (Z * Z); logs : list (Z * string);
                    nj : Z; nm : Z; ng : Z }.
Definition empty_db : db := mkDb [] [] [] [] [] [] [] 1 1 1.

(** ORDER BY: a stable sort. *)
Fixpoint insert_by {A} (key : A -> Z) (x : A) (l : list A) : list A :=
  match l with [] => [x] | y :: l' => if key x <=? key y then x :: y :: l' else y :: insert_by key x l' end.
Fixpoint sort_by {A} (key : A -> Z) (l : list A) : list A :=
  match l with [] => [] | x :: l' => insert_by key x (sort_by key l') end.

(** ** The request, once parsed and validated: for each moldable instance its groups (condition, levels) and the
    walltime if given.  The values are integers by then: the estimate has read them with int(). *)
Definition sgroup : Type := string * list (string * Z).
Definition smold : Type := list sgroup * option Z.
(** The parameters of a submission used here. *)
Record params := mkParams { p_req : list smold; p_props : option string; p_types : list string;
                            p_deps : list Z; p_hold : bool; p_resv : bool; p_queue : string }.

Section submission.
  (** DEFAULT_JOB_WALLTIME. *)
  Variable dw : Z.
  (** The order in which the database gives identifiers asked for without ORDER BY: [ro l], where [l] is the
      order of insertion. *)
  Variable ro : list Z -> list Z.

  (** "if not walltime": also for 0. *)
  Definition walltime_of (w : option Z) : Z := match w with Some t => if t =? 0 then dw else t | None => dw end.

  Definition insert_job (p : params) (resv : string) (array_id array_index : Z) (cmd : string) (d : db) : db :=
    mkDb (jobs d ++ [mkJob (nj d) "Hold" array_id array_index cmd (p_props p) resv])
         (mlds d) (grps d) (descs d) (types d) (deps d) (logs d) (nj d + 1) (nm d) (ng d).
  Definition set_jobs (f : jobrow -> jobrow) (d : db) : db :=
    mkDb (f <$> jobs d) (mlds d) (grps d) (descs d) (types d) (deps d) (logs d) (nj d) (nm d) (ng d).
  (** UPDATE jobs SET array_id = ... WHERE id = ... *)
  Definition set_array (j a : Z) : db -> db :=
    set_jobs (fun r => if jid r =? j then mkJob (jid r) (jstate r) a (jindex r) (jcmd r) (jprops r) (jresv r) else r).
  Definition set_state (sel : jobrow -> bool) (s : string) : db -> db :=
    set_jobs (fun r => if sel r then mkJob (jid r) s (jarray r) (jindex r) (jcmd r) (jprops r) (jresv r) else r).

  (** INSERT of several rows: consecutive identifiers. *)
  Definition insert_mlds (l : list (Z * Z)) (d : db) : db :=
    mkDb (jobs d) (mlds d ++ zip_with (fun i '(j, w) => mkMld i j w) (seqZ (nm d) (Z.of_nat (length l))) l)
         (grps d) (descs d) (types d) (deps d) (logs d) (nj d) (nm d + Z.of_nat (length l)) (ng d).
  Definition insert_grps (l : list (Z * string)) (d : db) : db :=
    mkDb (jobs d) (mlds d) (grps d ++ zip_with (fun i '(m, p) => mkGrp i m p) (seqZ (ng d) (Z.of_nat (length l))) l)
         (descs d) (types d) (deps d) (logs d) (nj d) (nm d) (ng d + Z.of_nat (length l)).
  Definition insert_descs (l : list descrow) (d : db) : db :=
    mkDb (jobs d) (mlds d) (grps d) (descs d ++ l) (types d) (deps d) (logs d) (nj d) (nm d) (ng d).
  Definition insert_types (l : list (Z * string)) (d : db) : db :=
    mkDb (jobs d) (mlds d) (grps d) (descs d) (types d ++ l) (deps d) (logs d) (nj d) (nm d) (ng d).
  Definition insert_deps (l : list (Z * Z)) (d : db) : db :=
    mkDb (jobs d) (mlds d) (grps d) (descs d) (types d) (deps d ++ l) (logs d) (nj d) (nm d) (ng d).
  Definition insert_logs (l : list (Z * string)) (d : db) : db :=
    mkDb (jobs d) (mlds d) (grps d) (descs d) (types d) (deps d) (logs d ++ l) (nj d) (nm d) (ng d).

  (** The rows of the levels of a group, numbered from 0. *)
  Definition desc_rows (g : Z) (levels : list (string * Z)) : list descrow :=
    zip_with (fun k '(t, v) => mkDesc g t v k) (seqZ 0 (Z.of_nat (length levels))) levels.
  (** submission.py:1075-1087: the levels of each group, under the identifiers read back. *)
  Fixpoint add_levels (gs : list sgroup) (ids : list Z) (d : db) : res db :=
    match gs, ids with
    | [], _ => Ok d
    | (_, levels) :: gs', g :: ids' => add_levels gs' ids' (insert_descs (desc_rows g levels) d)
    | _ :: _, [] => Err EIndex
    end.
  (** Lines 1041-1087, for one moldable instance. *)
  Definition add_groups (m : Z) (gs : list sgroup) (d : db) : res db :=
    let d1 := insert_grps ((fun g => (m, fst g)) <$> gs) d in
    let ids := if Nat.eqb (length gs) 1 then [ng d]
               else ro (gid <$> base.filter (fun g => gmld g = m) (grps d1)) in
    add_levels gs ids d1.
  Fixpoint add_moldables (req : list smold) (ids : list Z) (d : db) : res db :=
    match req, ids with
    | [], _ => Ok d
    | (gs, _) :: req', m :: ids' => d' <-- add_groups m gs d ;; add_moldables req' ids' d'
    | _ :: _, [] => Err EIndex
    end.
  (** Lines 1010-1087. *)
  Definition add_description (job : Z) (req : list smold) (d : db) : res db :=
    let d1 := insert_mlds ((fun m => (job, walltime_of (snd m))) <$> req) d in
    let ids := if Nat.eqb (length req) 1 then [nm d]
               else ro (mid <$> base.filter (fun m => mjob m = job) (mlds d1)) in
    add_moldables req ids d1.

  (** add_micheline_subjob, lines 901-1119, once the estimate has accepted the request.  The result lists the
      states of the database at each commit, then the identifier of the job. *)
  Definition add_subjob (p : params) (array_id array_index : Z) (cmd : string) (d : db) : res (list db * Z) :=
    let job := nj d in
    let d1 := insert_job p (if p_resv p then "toSchedule" else "None")%string (if 0 <? array_id then array_id else 0)
                array_index cmd d in
    let d1 := if 0 <? array_id then d1 else set_array job job d1 in
    d2 <-- add_description job (p_req p) d1 ;;
    let d3 := insert_types ((fun t => (job, t)) <$> p_types p) d2 in
    let d4 := insert_deps ((fun x => (job, x)) <$> p_deps p) d3 in
    let t1 := if 0 <? array_id then [] else [d1] in
    if p_hold p then Ok (t1 ++ [insert_logs [(job, "Hold"%string)] d4], job)
    else let d5 := insert_logs [(job, "Waiting"%string)] d4 in
         Ok (t1 ++ [d5; set_state (fun r => jid r =? job) "Waiting" d5], job).

  (** Lines 1291-1308: the levels of the groups of every job of an array, under the identifiers in order. *)
  Fixpoint array_descs (n : nat) (gs : list sgroup) (ids : list Z) : res (list descrow) :=
    match n with
    | O => Ok []
    | S n' =>
        (fix one (l : list sgroup) (ids : list Z) : res (list descrow) :=
           match l, ids with
           | [], _ => array_descs n' gs ids
           | (_, levels) :: l', g :: ids' => r <-- one l' ids' ;; Ok (desc_rows g levels ++ r)
           | (_, []) :: l', [] => one l' []
           | _ :: _, [] => Err EIndex
           end) gs ids
    end.
  (** The commit of line 1320 or 1330 takes place only if there are types or dependencies. *)
  Definition commit_if (b : bool) (d : db) : list db := if b then [d] else [].
  (** add_micheline_simple_array_job, lines 1122-1341, from line 1184 on (the request has one instance and has
      been accepted). *)
  Definition add_array (p : params) (gs : list sgroup) (w : option Z) (cmds : list string) (d : db)
    : res (list db * list Z) :=
    match cmds with
    | [] => Err EIndex
    | c0 :: cs =>
        let a := nj d in
        (* no reservation in the columns: its default *)
        let d1 := set_array a a (insert_job p "None" 0 1 c0 d) in
        let d2 := fst (fold_left (fun '(d, i) c => (insert_job p "None" a i c d, i + 1)) cs (d1, 2)) in
        let ids := ro (jid <$> base.filter (fun r => jarray r = a) (jobs d2)) in
        let d3 := insert_mlds ((fun j => (j, walltime_of w)) <$> ids) d2 in
        let mids := sort_by id (mid <$> base.filter (fun m => mjob m ∈ ids) (mlds d3)) in
        let d4 := insert_grps (mids ≫= fun m => (fun g => (m, fst g)) <$> gs) d3 in
        let gids := sort_by id (gid <$> base.filter (fun g => gmld g ∈ mids) (grps d4)) in
        ds <-- array_descs (length cmds) gs gids ;;
        let d5 := insert_descs ds d4 in
        let d6 := insert_types (ids ≫= fun j => (fun t => (j, t)) <$> p_types p) d5 in
        let d7 := insert_deps (ids ≫= fun j => (fun x => (j, x)) <$> p_deps p) d6 in
        let d8 := if p_hold p then d7 else set_state (fun r => jarray r =? a) "Waiting" d7 in
        let d9 := insert_logs ((fun j => (j, if p_hold p then "Hold" else "Waiting")%string) <$> ids) d8 in
        Ok ([d1; d2; d3; d4; d5] ++ commit_if (negb (bool_decide (p_types p = []))) d6
              ++ commit_if (negb (bool_decide (p_deps p = []))) d7
              ++ commit_if (negb (p_hold p)) d8 ++ [d9], ids)
    end.

  (** add_micheline_jobs, lines 1398-1470.  [est]: the error code of the estimate (None: accepted); [rules]: the
      admission rules; [quotas]: QUOTAS = yes; [queues]: the names of the queues.  The checks of lines 1367-1395
      and the job keys are left out ([use_key] only chooses the path).  [inl]: the error code given to the user;
      the states committed come along. *)
  Definition remove_first (s : string) : list string -> list string :=
    fix go l := match l with [] => [] | x :: l' => if bool_decide (x = s) then l' else x :: go l' end.
  Definition with_types (p : params) (t : list string) : params :=
    mkParams (p_req p) (p_props p) t (p_deps p) (p_hold p) (p_resv p) (p_queue p).
  Fixpoint add_subjobs (p : params) (cmds : list string) (array_id array_index : Z) (d : db) (t : list db) (ids : list Z)
    : res (list db * list Z) :=
    match cmds with
    | [] => Ok (t, ids)
    | c :: cmds' =>
        r <-- add_subjob p array_id array_index c d ;;
        let '(t', j) := r in
        add_subjobs p cmds' (if 0 <? array_id then array_id else match ids with i :: _ => i | [] => j end)
          (array_index + 1) (default d (last t')) (t ++ t') (ids ++ [j])
    end.
  Definition prepare_types (quotas : bool) (rules : params -> option params) (queues : list string) (p : params)
    : Z + params :=
    let p := if quotas && bool_decide ("no_quotas"%string ∈ p_types p)
             then with_types p (remove_first "no_quotas" (p_types p)) else p in
    match rules p with
    | None => inl (-2)
    | Some p =>
        if negb (bool_decide (p_queue p ∈ queues)) then inl (-8)
        else inr (if quotas && bool_decide (p_queue p = "admin"%string)
                  then with_types p (p_types p ++ ["no_quotas"%string]) else p)
    end.
  Definition add_jobs (quotas use_key : bool) (rules : params -> option params) (queues : list string)
      (est : option Z) (p : params) (cmds : list string) (d : db) : res (Z * list Z * list db) :=
    match prepare_types quotas rules queues p with
    | inl e => Ok (e, [], [])
    | inr p =>
        if (1 <? length cmds)%nat && negb use_key then
          match p_req p with
          | _ :: _ :: _ => Ok (0, [], [])       (* error -30, overwritten by line 1522 *)
          | [] => Err EIndex
          | [(gs, w)] =>
              match est with
              | Some _ => Err EType             (* estimated_nb_resources is None *)
              | None => r <-- add_array p gs w cmds d ;; Ok (0, snd r, fst r)
              end
          end
        else
          match est with
          | Some e => match cmds with [] => Ok (0, [], []) | _ => Ok (e, [], []) end
          | None => r <-- add_subjobs p cmds 0 1 d [] [] ;; Ok (0, snd r, fst r)
          end
    end.
End submission.

(** ** get_data_jobs, job_handling.py:209-394 *)
(** A row of the query, lines 232-256. *)
Record row := mkRow { r_job : Z; r_props : option string; r_mld : Z; r_wall : Z; r_grp : Z; r_gprop : string;
                      r_type : string; r_val : Z }.
Definition rows_of (d : db) (jids : list Z) : list row :=
  m ← sort_by mid (base.filter (fun m => mjob m ∈ jids) (mlds d));
  j ← base.filter (fun j => jid j = mjob m) (jobs d);
  g ← sort_by gid (base.filter (fun g => gmld g = mid m) (grps d));
  x ← sort_by dord (base.filter (fun x => dgrp x = gid g) (descs d));
  [mkRow (jid j) (jprops j) (mid m) (mwall m) (gid g) (gprop g) (dtype x) (dval x)].

(** What the scheduler holds of a job: for each moldable instance its identifier, duration, and groups. *)
Definition mrqt : Type := Z * Z * list (list (string * Z) * procset).
Record reading := mkReading { prev_j : Z; prev_m : Z; prev_g : Z; prev_w : Z; rqts : list mrqt;
                              jrg : list (list (string * Z) * procset); out : gmap Z (list mrqt) }.

Section reading.
  (** [cons]: the resources that satisfy the conditions of the job and of the group (lines 344-368, see
      [read_constraints]); [sec]: the security time; [be]: the duration of besteffort jobs (0: none). *)
  Variable cons : option string -> string -> procset.
  Variables sec be : Z.
  Definition dur (w : Z) : Z := if be =? 0 then w + sec else be.
  (** The last element of a list, changed. *)
  Fixpoint on_last {A} (f : A -> A) (l : list A) : list A :=
    match l with [] => [] | [x] => [f x] | x :: l' => x :: on_last f l' end.
  (** One row, lines 270-377.  jr_descriptions and res_constraints are always the last element of jrg (the lists
      are shared): a new group is recorded at its first row and completed by the next ones.  A group belongs to
      one moldable instance, which belongs to one job, so a new job or instance comes with a new group. *)
  Definition read_row (s : reading) (x : row) : reading :=
    let s :=
      if r_job x =? prev_j s then
        if r_mld x =? prev_m s then s
        else mkReading (prev_j s) (r_mld x) (prev_g s) (dur (r_wall x))
               (match jrg s with [] => rqts s | _ => rqts s ++ [(prev_m s, prev_w s, jrg s)] end) [] (out s)
      else
        mkReading (r_job x) (r_mld x) (prev_g s) (dur (r_wall x)) [] []
          (if prev_j s =? 0 then out s
           else (* lines 293-297: the last group is recorded a second time *)
             <[prev_j s := rqts s ++ [(prev_m s, prev_w s,
                 jrg s ++ match last (jrg s) with Some g => [g] | None => [([], ∅)] end)]]> (out s)) in
    if r_grp x =? prev_g s then
      mkReading (prev_j s) (prev_m s) (prev_g s) (prev_w s) (rqts s)
        (on_last (fun g => (fst g ++ [(r_type x, r_val x)], snd g)) (jrg s)) (out s)
    else
      mkReading (prev_j s) (prev_m s) (r_grp x) (prev_w s) (rqts s)
        (jrg s ++ [([(r_type x, r_val x)], cons (r_props x) (r_gprop x))]) (out s).
  (** Identifiers start at 1, so 0 stands for the "first_job" flag too.  With no row at all the last lines fail
      ("job" is None). *)
  Definition get_data (d : db) (jids : list Z) : res (gmap Z (list mrqt)) :=
    match rows_of d jids with
    | [] => Err EAttr
    | rows =>
        let s := fold_left read_row rows (mkReading 0 0 0 0 [] [] ∅) in
        Ok (<[prev_j s := rqts s ++ [(prev_m s, prev_w s, jrg s)]]> (out s))
    end.
  (** The scheduler reads job.mld_res_rqts of every job: AttributeError for a job without rows. *)
  Definition request_of (m : gmap Z (list mrqt)) (j : Z) : res (list mrqt) :=
    match m !! j with Some l => Ok l | None => Err EAttr end.
End reading.

(** Lines 344-368: [dflt] the resources of type default, [sql] those given by a condition (any state). *)
Definition read_constraints (dflt : procset) (sql : string -> procset) (props : option string) (gprop : string) : procset :=
  if bool_decide (props = Some EmptyString)
     && (bool_decide (gprop = EmptyString) || bool_decide (gprop = "type = 'default'"%string))
  then dflt
  else let p := default EmptyString props in
       sql (p +:+ (if negb (bool_decide (p = EmptyString)) && negb (bool_decide (gprop = EmptyString))
                   then " AND " else "") +:+ gprop)%string.
(** The same choice when the job is accepted, submission.py:820-851; [all]: every resource. *)
Definition estimate_constraints (all : procset) (sql : string -> procset) (props : option string) (gprop : string) : procset :=
  if bool_decide (default EmptyString props = EmptyString)
     && (bool_decide (gprop = EmptyString) || bool_decide (gprop = "type='default'"%string))
  then all
  else let p := default EmptyString props in
       sql (p +:+ (if negb (bool_decide (p = EmptyString)) && negb (bool_decide (gprop = EmptyString))
                   then " AND " else "") +:+ gprop)%string.
