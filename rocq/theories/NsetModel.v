(** oarnodesetting: oar/cli/oarnodesetting.py, oar/lib/resource_handling.py:28-56 (add_resource), 102-123 (next states),
    126-184 (set_resources_property), 453-479 (log_resource_maintenance_event), oar/lib/node.py:31-36, 298-309,
    oar/lib/tools.py:781-799 (check_resource_system_property), oar/cli/utils.py:38-86 (exit values).  No proofs here.
    Simplified: the values of the columns are texts (a text given for a number is that number written as the database
    writes it); a command reads the date once; the notifications of the server are left out; a job waited for is
    represented by the resource or the host whose jobs are waited for; no NULL in available_upto. *)
From Verif Require Import Base ReqModel.
From Verif Require WalltimeModel.
From Coq Require Import Ascii.

(** [r_val]: the columns other than the identifier; None: NULL. *)
Record rsc := mkRsc { r_id : Z; r_val : string -> option string }.
Definition r_addr (r : rsc) : string := default ""%string (r_val r "network_address").
(** resource_logs; [l_stop] = 0: open. *)
Record log := mkLog { l_res : Z; l_attr : string; l_val : string; l_start : Z; l_stop : Z }.
Record db := mkDb { rscs : list rsc; logs : list log }.

Definition set_val (r : rsc) (n : string) (v : string) : rsc :=
  mkRsc (r_id r) (fun x => if bool_decide (x = n) then Some v else r_val r x).
Definition upd (p : rsc -> bool) (f : rsc -> rsc) (l : list rsc) : list rsc := (fun r => if p r then f r else r) <$> l.
(** UPDATE resource_logs SET date_stop = now WHERE date_stop = 0 AND attribute = n AND resource_id IN ids *)
Definition close (now : Z) (n : string) (ids : list Z) (l : list log) : list log :=
  (fun g => if (l_stop g =? 0) && bool_decide (l_attr g = n) && bool_decide (l_res g ∈ ids) then mkLog (l_res g) (l_attr g) (l_val g) (l_start g) now else g) <$> l.

(** A command under way: the state of the database it sees, the states it has committed (the last one first), the exit
    values, what it has waited for, and whether an exception stopped it. *)
Record run := mkRun { cur : db; commits : list db; codes : list Z; waits : list (Z + string); stopped : bool }.
Definition commit (d : db) (s : run) : run := mkRun d (d :: commits s) (codes s) (waits s) (stopped s).
Definition pending (d : db) (s : run) : run := mkRun d (commits s) (codes s) (waits s) (stopped s).
Definition code (c : Z) (s : run) : run := mkRun (cur s) (commits s) (codes s ++ [c]) (waits s) (stopped s).
Definition wait (w : Z + string) (s : run) : run := mkRun (cur s) (commits s) (codes s) (waits s ++ [w]) (stopped s).
Definition raise (s : run) : run := mkRun (cur s) (commits s) (codes s) (waits s) true.
Definition andthen (f : run -> run) (s : run) : run := if stopped s then s else f s.
Notation "s |> f" := (andthen f s) (at level 50, f at next level, left associativity, only parsing).
Definition each {A} (f : A -> run -> run) (l : list A) (s : run) : run := fold_left (fun s a => s |> f a) l s.

(** tools.py:785-796 *)
Definition system_fields : list string := ["resource_id"; "state"; "state_num"; "next_state"; "finaud_decision"; "next_finaud_decision";
  "last_job_date"; "suspended_jobs"; "expiry_date"; "scheduler_priority"]%string.

(** resource_handling.py:126-184; [sel]: IN resources, or IN hostnames.  The name id is the attribute of the primary key. *)
Definition differs (n v : string) (r : rsc) : bool := negb (bool_decide (r_val r n = Some v)).
Definition set_property (now : Z) (cols : list string) (sel : rsc -> bool) (n v : string) (s : run) : run :=
  let d := cur s in
  if bool_decide (n = "id"%string) then
    match WalltimeModel.number v with
    | None => raise s
    | Some i =>
        let hit r := sel r && negb (r_id r =? i) in
        match filter (fun r => hit r = true) (rscs d) with
        | [] => s
        | [r] => if existsb (fun r' => r_id r' =? i) (rscs d) then raise s
                 else let d1 := mkDb (upd hit (fun r => mkRsc i (r_val r)) (rscs d)) (close now n [r_id r] (logs d)) in
                      commit (mkDb (rscs d1) (logs d1 ++ [mkLog (r_id r) n v now 0])) (commit d1 s)
        | _ => raise s
        end
    end
  else if bool_decide (n ∈ cols) then
    let hit r := sel r && differs n v r in
    let ids := r_id <$> filter (fun r => hit r = true) (rscs d) in
    match ids with
    | [] => s
    | _ => let d1 := mkDb (upd (fun r => bool_decide (r_id r ∈ ids)) (fun r => set_val r n v) (rscs d)) (close now n ids (logs d)) in
           commit (mkDb (rscs d1) (logs d1 ++ ((fun i => mkLog i n v now 0) <$> ids))) (commit d1 s)
    end
  else raise s.

(** oarnodesetting.py:43-64 *)
Definition set_properties (now : Z) (cols : list string) (sel : rsc -> bool) (props : list string) : run -> run :=
  each (fun p s => match split_on "="%char (lstrip p) with
                   | [n; v] => if bool_decide (n ∈ system_fields) then code 8 s else set_property now cols sel n v s
                   | _ => code 10 s end) props.

(** resource_handling.py:102-123, node.py:298-309: next_state and next_finaud_decision *)
Definition next_state (sel : rsc -> bool) (st : string) (s : run) : run :=
  commit (mkDb (upd sel (fun r => set_val (set_val r "next_state" st) "next_finaud_decision" "NO") (rscs (cur s))) (logs (cur s))) s.

Definition by_id (i : Z) (r : rsc) : bool := r_id r =? i.
(** oarnodesetting.py:92-140, for one resource; get_resource raises if there is none *)
Definition maintenance_on (now : Z) (cols : list string) (no_wait : bool) (i : Z) (s : run) : run :=
  match filter (fun r => by_id i r = true) (rscs (cur s)) with
  | [r] =>
      let upto := default "0"%string (r_val r "available_upto") in
      pending (mkDb (rscs (cur s)) (logs (cur s) ++ [mkLog i "maintenance" "on" now 0])) s
      |> set_properties now cols (by_id i) ("available_upto=0"%string :: if bool_decide (upto = "0"%string) then [] else ["last_available_upto=" ++ upto]%string)
      |> next_state (by_id i) "Absent"
      |> (fun s => if no_wait then s else wait (inl i) s)
  | _ => raise s
  end.
Definition maintenance_off (now : Z) (cols : list string) (i : Z) (s : run) : run :=
  match filter (fun r => by_id i r = true) (rscs (cur s)) with
  | [r] =>
      let last := default "0"%string (r_val r "last_available_upto") in
      commit (mkDb (rscs (cur s)) (close now "maintenance" [i] (logs (cur s)))) s
      |> (fun s => if bool_decide (last = "0"%string) then s else set_properties now cols (by_id i) ["available_upto=" ++ last]%string s)
      |> next_state (by_id i) "Alive"
  | _ => raise s
  end.
Definition maintenance (now : Z) (cols : list string) (on no_wait : bool) : list Z -> run -> run :=
  each (fun i => if on then maintenance_on now cols no_wait i else maintenance_off now cols i).

(** The options.  [o_resources]: -r, or the answer to --sql; [o_hosts]: -h, then the lines of the file of -f. *)
Record opts := mkOpts { o_resources : list Z; o_hosts : list string; o_add : bool; o_state : option string; o_maint : option bool;
  o_drain : option bool; o_props : list string; o_no_wait : bool }.
(** open(...): the lines keep their newline *)
Definition file_hosts (lines : list string) : list string := (fun l => l ++ String (ascii_of_nat 10) "")%string <$> lines.

Definition in_ids (l : list Z) (r : rsc) : bool := bool_decide (r_id r ∈ l).
Definition in_hosts (l : list string) (r : rsc) : bool := bool_decide (r_addr r ∈ l).
Definition on_host (h : string) (r : rsc) : bool := bool_decide (r_addr r = h).
(** resource_handling.py:28-56; the new identifier is the next one; [defaults]: the values of the columns of a new row *)
Definition new_id (d : db) : Z := 1 + fold_right Z.max 0 (r_id <$> rscs d).
Definition add_one (now : Z) (defaults : string -> option string) (st : string) (h : string) (s : run) : run :=
  let d := cur s in
  commit (mkDb (rscs d ++ [set_val (set_val (mkRsc (new_id d) defaults) "network_address" h) "state" st]) (logs d ++ [mkLog (new_id d) "state" st now 0])) s.

(** oarnodesetting.py:143-330 after the checks of the options *)
Definition nodesetting (now : Z) (cols : list string) (defaults : string -> option string) (here : string) (o : opts) (d : db) : run :=
  let hosts := match o_hosts o with [] => [here] | l => l end in
  let s := mkRun d [] [] [] false in
  let away st := bool_decide (st ∈ ["Dead"; "Absent"]%string) && negb (o_no_wait o) in
  let '(s, ids) :=
    if o_add o then
      let s := each (add_one now defaults (default "Alive"%string (o_state o))) hosts s in
      (s, match last (rscs (cur s)) with Some r => [r_id r] | None => [] end)
    else match o_resources o with
    | [] =>
        let s := match o_maint o with
                 | Some on => maintenance now cols on (o_no_wait o) (h ← hosts; r_id <$> filter (fun r => on_host h r = true) (rscs (cur s))) s
                 | None => s end in
        (s |> (fun s => match o_state o with
                 | Some st =>
                     let known := filter (fun h => existsb (on_host h) (rscs (cur s)) = true) hosts in
                     let s := each (fun h => next_state (on_host h) st) hosts s in
                     (* a warning has the exit value 0; the loop reads host, the last one of the loop before *)
                     if away st then each (fun _ => wait (inr (default here (last hosts)))) known s else s
                 | None => s end), [])
    | ids =>
        (s |> (fun s => match o_state o with
                 | Some st => let s := next_state (in_ids ids) st s in if away st then each (fun i => wait (inl i)) ids s else s
                 | None => s end)
           |> (fun s => match o_maint o with Some on => maintenance now cols on (o_no_wait o) ids s | None => s end), ids)
    end in
  let props := o_props o ++ match o_drain o with Some true => ["drain=YES"%string] | Some false => ["drain=NO"%string] | None => [] end in
  match props with
  | [] => s
  | _ => match ids with
         | [] => s |> set_properties now cols (in_hosts hosts) props
         | _ => s |> set_properties now cols (in_ids ids) props
         end
  end.
(** utils.py:38-50; an exception ends Python with 1.  Each message adds its exit value, 0 unless given. *)
Fixpoint exit_value (prev : Z) (l : list Z) : Z :=
  match l with
  | [] => prev
  | c :: l' => if c =? 0 then exit_value prev l' else if negb (prev =? 0) && negb (prev =? c) then 15 else exit_value c l'
  end.
Definition exit_code (s : run) : Z := if stopped s then 1 else exit_value 0 (codes s).
