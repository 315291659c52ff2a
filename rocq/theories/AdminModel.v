(** The commands of the administrator: CommandReturns (oar/cli/utils.py:7-75), oarqueue (oar/cli/oarqueue.py:24-94, 118-160 with
    oar/lib/queue.py:14-90) and oarproperty (oar/cli/oarproperty.py:26-175 with check_resource_property, oar/lib/tools.py:749-778).
    No proofs here.  Left out: lengths of texts, NULL priorities, the texts printed, oarproperty -l, -t and -V.  A value that the column cannot
    hold is an exception (as with PostgreSQL). *)
From Verif Require Import Base ReqModel AdmModel FrontModel ConfModel.
From Coq Require Import Ascii.

(** ** CommandReturns: get_exit_value, utils.py:37-50 *)
Record returns := mkReturns { exit_values : list Z; final_exit : Z }.
(** The loop: the value returned, and final_exit. *)
Fixpoint exits (evs : list Z) (prev final : Z) : Z * Z :=
  match evs with
  | [] => (final, final)
  | ev :: r => if ev =? 0 then exits r prev final else if negb (prev =? 0) && negb (prev =? ev) then (15, final) else exits r ev ev
  end.
Definition get_exit_value (c : returns) : Z * returns :=
  if final_exit c =? 0 then let '(v, f) := exits (exit_values c) 0 0 in (v, mkReturns (exit_values c) f) else (final_exit c, c).

(** ** Queues *)
Record queue := mkQueue { q_name : string; q_priority : Z; q_policy : string; q_active : bool }.
Global Instance queue_dec : EqDecision queue.
Proof. solve_decision. Defined.
(** The options: a text that is not given is empty. *)
Record qline := mkQline {
  ql_list : bool; ql_enable : string; ql_disable : string; ql_enable_all : bool; ql_disable_all : bool; ql_add : string; ql_change : string; ql_remove : string }.
(** USER and OARDO_USER *)
Record qenv := mkQenv { e_user : option string; e_oardo : option string }.
Definition set_active (b : bool) (q : queue) : queue := mkQueue (q_name q) (q_priority q) (q_policy q) b.
(** start_queue, stop_queue, queue.py:31-45 *)
Definition activate (name : string) (b : bool) (qs : list queue) : list queue := (fun q => if bool_decide (q_name q = name) then set_active b q else q) <$> qs.
Definition activate_all (b : bool) (qs : list queue) : list queue := set_active b <$> qs.
(** name, priority, policy = text.split(","); int(priority), oarqueue.py:76-79, 83-86 *)
Definition queue_text (t : string) : option (string * Z * string) :=
  match split_on "," t with
  | [name; priority; policy] => if int_ok priority then Some (name, int_of priority, policy) else None
  | _ => None
  end.
(** create_queue, queue.py:66-70: the name is the primary key. *)
Definition create_queue (name : string) (priority : Z) (policy : string) (qs : list queue) : option (list queue) :=
  if bool_decide (name ∈ q_name <$> qs) then None else Some (qs ++ [mkQueue name priority policy true]).
(** change_queue, remove_queue, queue.py:73-84 *)
Definition change_queue (name : string) (priority : Z) (policy : string) (qs : list queue) : list queue :=
  (fun q => if bool_decide (q_name q = name) then mkQueue name priority policy (q_active q) else q) <$> qs.
Definition remove_queue (name : string) (qs : list queue) : list queue := filter (fun q => q_name q <> name) qs.
(** get_all_queue_by_priority, queue.py:14-15 *)
Definition higher (a b : queue) : Prop := q_priority b <= q_priority a.
Global Instance higher_dec a b : Decision (higher a b).
Proof. unfold higher. apply _. Defined.
Definition by_priority (qs : list queue) : list queue := merge_sort higher qs.
(** oarqueue: the exit value and the queues listed, or an exception; the queues. *)
Definition oarqueue (e : qenv) (l : qline) (qs : list queue) : res (Z * list queue) * list queue :=
  match e_user e with
  | None => (Err EKey, qs)
  | Some u =>
    let user := default u (e_oardo e) in
    if negb (bool_decide (user = "oar"%string) || bool_decide (user = "root"%string)) then (Ok (8, []), qs)
    else if ql_list l then (Ok (0, by_priority qs), qs)
    else if nonempty (ql_enable l) then (Ok (0, []), activate (ql_enable l) true qs)
    else if nonempty (ql_disable l) then (Ok (0, []), activate (ql_disable l) false qs)
    else if ql_enable_all l then (Ok (0, []), activate_all true qs)
    else if ql_disable_all l then (Ok (0, []), activate_all false qs)
    else if nonempty (ql_add l) then
      match queue_text (ql_add l) with
      | Some (n, p, s) => match create_queue n p s qs with Some qs' => (Ok (0, []), qs') | None => (Err EValue, qs) end
      | None => (Err EValue, qs)
      end
    else if nonempty (ql_change l) then
      match queue_text (ql_change l) with Some (n, p, s) => (Ok (0, []), change_queue n p s qs) | None => (Err EValue, qs) end
    else if nonempty (ql_remove l) then (Ok (0, []), remove_queue (ql_remove l) qs)
    else (Ok (0, []), qs)
  end.
(** cli, oarqueue.py:127-146: no option: list. *)
Definition oarqueue_cli (e : qenv) (l : qline) (qs : list queue) : res (Z * list queue) * list queue :=
  let none := negb (ql_list l || nonempty (ql_enable l) || nonempty (ql_disable l) || ql_enable_all l || ql_disable_all l || nonempty (ql_add l) || nonempty (ql_change l) || nonempty (ql_remove l)) in
  oarqueue e (mkQline (ql_list l || none) (ql_enable l) (ql_disable l) (ql_enable_all l) (ql_disable_all l) (ql_add l) (ql_change l) (ql_remove l)) qs.

(** ** Properties *)
(** A column of resources: its name, whether it is a text, its values by resource. *)
Record column := mkColumn { c_name : string; c_text : bool; c_cells : list (option string) }.
(** The tables: the columns of resources (and the number of resources), ResourceLog (attribute, the rest), JobResourceDescription (group, order, resource type, value). *)
Record props := mkProps { cols : list column; nres : nat; plogs : list (string * Z); preqs : list (Z * Z * string * Z) }.
Definition protected : list string :=
  ["resource_id"; "network_address"; "state"; "state_num"; "next_state"; "finaud_decision"; "next_finaud_decision"; "besteffort"; "desktop_computing"; "deploy";
   "expiry_date"; "last_job_date"; "available_upto"; "last_available_upto"; "walltime"; "nodes"; "type"; "suspended_jobs"; "scheduler_priority"; "cpuset"; "drain"]%string.
Fixpoint is_ascii (s : string) : bool := match s with EmptyString => true | String c s' => (nat_of_ascii c <? 128)%nat && is_ascii s' end.
Inductive note := NotAName (p : string) | System (p : string) | Deleted (p : string) | Added (p : string) | Exists (p : string) | Mismatch (p : string)
  | NoSuch (p : string) | Taken (p : string) | Renamed (p q : string).
(** The exit value of each message: only one is not 0 (oarproperty.py:109-115). *)
Definition exit_of (n : note) : Z := match n with Mismatch _ => 2 | _ => 0 end.
(** check_property_name, oarproperty.py:26-43 *)
Definition bad_name (p : string) : option note :=
  if is_ascii p then (if bool_decide (p ∈ protected) then Some (System p) else None) else Some (NotAName p).
(** The durable states of the tables, the last one first; the columns as the transaction sees them; the messages. *)
Record run := mkRun { durable : list props; pending : list column; notes : list note }.
Inductive flow := Go (r : run) | Stop (r : run) | Raise (r : run).
Definition say (n : note) (r : run) : run := mkRun (durable r) (pending r) (notes r ++ [n]).
Definition with_pending (c : list column) (r : run) : run := mkRun (durable r) c (notes r).
(** Lines 91-98 *)
Fixpoint do_delete (quiet : bool) (ps : list string) (r : run) : flow :=
  match ps with
  | [] => Go r
  | p :: ps' =>
    match bad_name p with
    | Some n => Stop (say n r)
    | None => if bool_decide (p ∈ c_name <$> pending r) then
                let r' := with_pending (filter (fun c => c_name c <> p) (pending r)) r in do_delete quiet ps' (if quiet then r' else say (Deleted p) r')
              else Raise r
    end
  end.
(** Lines 100-132; [known]: the properties read at the beginning. *)
Fixpoint do_add (quiet text : bool) (known : list string) (n : nat) (ps : list string) (r : run) : flow :=
  match ps with
  | [] => Go r
  | p0 :: ps' =>
    let p := lstrip p0 in
    match bad_name p with
    | Some n => Stop (say n r)
    | None =>
      if bool_decide (p ∈ known) then do_add quiet text known n ps' (if text then say (Mismatch p) r else if quiet then r else say (Exists p) r)
      else if bool_decide (p ∈ c_name <$> pending r) || bool_decide (p = ""%string) then Raise r
      else let r' := with_pending (pending r ++ [mkColumn p text (repeat None n)]) r in do_add quiet text known n ps' (if quiet then r' else say (Added p) r')
    end
  end.
Definition rename_col (p q : string) (c : column) : column := if bool_decide (c_name c = p) then mkColumn q (c_text c) (c_cells c) else c.
Definition rename_in (p q x : string) : string := if bool_decide (x = p) then q else x.
(** The primary key of JobResourceDescription: group, type, order. *)
Definition request_key (x : Z * Z * string * Z) : Z * Z * string := fst x.
(** The updates of lines 155-167. *)
Definition rename_rows (p q : string) (d : props) : option props :=
  let reqs := (fun x => (fst (fst (fst x)), snd (fst (fst x)), rename_in p q (snd (fst x)), snd x)) <$> preqs d in
  if bool_decide (NoDup (request_key <$> reqs)) then Some (mkProps (cols d) (nres d) ((fun x => (rename_in p q (fst x), snd x)) <$> plogs d) reqs) else None.
(** Lines 134-173 *)
Fixpoint do_rename (quiet : bool) (known : list string) (ts : list string) (r : run) : flow :=
  match ts with
  | [] => Go r
  | t :: ts' =>
    match split_on "," t with
    | [p; q] =>
      match bad_name p with
      | Some n => Stop (say n r)
      | None =>
        match bad_name q with
        | Some n => Stop (say n r)
        | None =>
          if negb (bool_decide (p ∈ known)) then Stop (say (NoSuch p) r)
          else if bool_decide (q ∈ known) then Stop (say (Taken q) r)
          else if negb (bool_decide (p ∈ c_name <$> pending r)) || bool_decide (q ∈ c_name <$> pending r) || bool_decide (q = ""%string) then Raise r
          else match durable r with
               | [] => Raise r
               | d :: ds => match rename_rows p q d with
                            | None => Raise r
                            | Some d' => let r' := mkRun (d' :: d :: ds) (rename_col p q <$> pending r) (notes r) in
                                         do_rename quiet known ts' (if quiet then r' else say (Renamed p q) r')
                            end
               end
        end
      end
    | _ => Raise r
    end
  end.
Record pline := mkPline { pl_delete : list string; pl_add : list string; pl_text : bool; pl_rename : list string; pl_quiet : bool }.
Definition andthen (f : flow) (k : run -> flow) : flow := match f with Go r => k r | _ => f end.
Definition body (l : pline) (d : props) : flow :=
  let known := c_name <$> cols d in
  andthen (do_delete (pl_quiet l) (pl_delete l) (mkRun [d] (cols d) [])) (fun r =>
  andthen (do_add (pl_quiet l) (pl_text l) known (nres d) (pl_add l) r) (fun r => do_rename (pl_quiet l) known (pl_rename l) r)).
Definition commit_columns (r : run) : list props :=
  match durable r with [] => [] | d :: ds => mkProps (pending r) (nres d) (plogs d) (preqs d) :: d :: ds end.
(** oarproperty: the messages, or an exception; all the durable states, the last one first. *)
Definition oarproperty (l : pline) (d : props) : res (list note) * list props :=
  match body l d with
  | Go r | Stop r => (Ok (notes r), commit_columns r)
  | Raise r => (Err EValue, durable r)
  end.
