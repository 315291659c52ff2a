(** Energy saving: nodes_energy_saving (oar/kao/meta_sched.py:784-843), the queries of oar/lib/node.py:59-197 and the
    module Greta (oar/modules/greta.py).  No proofs here. *)
From Verif Require Import Base.

(** ** The decisions of the metascheduler *)
(** Tables.  Columns not used are left out. *)
Record resource := mkRes { e_id : Z; e_node : string; e_state : string; e_type : string; e_upto : Z; e_last : Z }.
(** A predicted job: moldable instance, start, resources (gantt_jobs_predictions and gantt_jobs_resources); the
    walltime of the instance and the state of its job. *)
Record planned := mkPlan { l_start : Z; l_res : list Z; l_wall : Z; l_state : string }.
Record edb := mkEdb { e_rows : list resource; e_gantt : list planned; e_wakes : list (string * Z) }.
(** Which options are in the configuration. *)
Record econf := mkEconf { sched_sleep_cmd : bool; sched_wake_cmd : bool; internal : bool; es_sleep_cmd : bool; es_wake_cmd : bool;
                          idle_time : option Z; sleep_time : option Z; wakeup_time : Z }.

Definition never_halt : Z := 2147483647.
(** distinct, GROUP BY: each value once. *)
Definition uniq : list string -> list string := remove_dups.
Definition list_max (l : list Z) : option Z := match l with [] => None | x :: l' => Some (fold_left Z.max l' x) end.
Definition list_min (l : list Z) : option Z := match l with [] => None | x :: l' => Some (fold_left Z.min l' x) end.

(** node.py:60-73 *)
Definition busy_nodes (d : edb) (date : Z) : list string :=
  p ← base.filter (fun p => l_start p <= date) (e_gantt d);
  e_node <$> base.filter (fun r => e_id r ∈ l_res p /\ e_node r <> EmptyString /\ e_type r = "default"%string) (e_rows d).
(** node.py:75-96.  last_job_date is a number (it is set when the resource is created). *)
Definition can_halt (r : resource) : Prop :=
  e_state r = "Alive"%string /\ e_node r <> EmptyString /\ e_type r = "default"%string /\ e_upto r < never_halt /\ 0 < e_upto r.
Global Instance can_halt_dec r : Decision (can_halt r). Proof. unfold can_halt. apply _. Defined.
Definition idle_nodes (d : edb) (date : Z) : list (string * Z) :=
  let rows := base.filter can_halt (e_rows d) in
  omap (fun n => match list_max (e_last <$> base.filter (fun r => e_node r = n) rows) with
                 | Some m => if bool_decide (n ∈ busy_nodes d date) then None else Some (n, m)
                 | None => None end) (uniq (e_node <$> rows)).
(** node.py:123-131 *)
Definition on_node (d : edb) (n : string) (p : planned) : bool :=
  existsb (fun r => bool_decide (e_node r = n) && bool_decide (e_id r ∈ l_res p)) (e_rows d).
Definition next_job (d : edb) (n : string) : option Z :=
  list_min (l_start <$> base.filter (fun p => on_node d n p = true) (e_gantt d)).
(** node.py:134-144 *)
Definition last_wake (d : edb) (n : string) : option Z := list_max (snd <$> base.filter (fun w => fst w = n) (e_wakes d)).
(** node.py:99-120 *)
Definition to_wake (d : edb) (date wt : Z) : list string :=
  uniq (p ← base.filter (fun p => l_start p <= date + wt /\ l_state p = "Waiting"%string) (e_gantt d);
        e_node <$> base.filter (fun r => e_id r ∈ l_res p /\ e_state r = "Absent"%string /\ e_node r <> EmptyString /\
                                        e_type r = "default"%string /\ l_start p + l_wall p <= e_upto r) (e_rows d)).
(** meta_sched.py:798-843.  The inner variable idle_duration hides the outer one, once it is no longer used. *)
Definition nodes_energy_saving (c : econf) (d : edb) (now : Z) : list string * list string :=
  (match idle_time c, sleep_time c with
   | Some it, Some st =>
       if sched_sleep_cmd c || (internal c && es_sleep_cmd c) then
         let tmp := now - it in
         fst <$> base.filter (fun x => ((snd x <? tmp) &&
                   match next_job d (fst x) with None => true | Some s => now <? s - st end &&
                   match last_wake d (fst x) with None => true | Some w => w <? tmp end) = true) (idle_nodes d now)
       else []
   | _, _ => []
   end,
   if sched_sleep_cmd c || (internal c && es_wake_cmd c) then to_wake d now (wakeup_time c) else []).

(** ** Greta *)
(** fill_timeouts, greta.py:66-97: the option is a number, or words of which each is a couple or not.  Splitting the
    text into words is left out; there is always at least one word. *)
Inductive word := Couple (n t : Z) | Wrong.
Fixpoint zset (k v : Z) (m : list (Z * Z)) : list (Z * Z) :=
  match m with [] => [(k, v)] | (a, b) :: m' => if a =? k then (k, v) :: m' else (a, b) :: zset k v m' end.
(** [prev]: nb_timeout is bound, to a list: adding a text to it fails. *)
Fixpoint fill_words (l : list word) (prev : bool) (m : list (Z * Z)) : res (list (Z * Z)) :=
  match l with
  | [] => Ok m
  | Couple n t :: l' => fill_words l' true (zset n t m)
  | Wrong :: _ => Err (if prev then EType else EName)
  end.
Definition fill_timeouts (o : Z + list word) : res (list (Z * Z)) :=
  match o with inl t => Ok [(1, t)] | inr l => m <-- fill_words l false [] ;; Ok (match m with [] => [(1, 900)] | _ => m end) end.
(** get_timeout, greta.py:101-109 *)
Fixpoint zfind (k : Z) (m : list (Z * Z)) : option Z :=
  match m with [] => None | (a, b) :: m' => if a =? k then Some b else zfind k m' end.
Fixpoint insert_z (x : Z) (l : list Z) : list Z :=
  match l with [] => [x] | y :: l' => if x <=? y then x :: l else y :: insert_z x l' end.
Fixpoint timeout_loop (m : list (Z * Z)) (n : Z) (keys : list Z) (acc : Z) : Z :=
  match keys with [] => acc | k :: ks => if n <? k then acc else timeout_loop m n ks (default acc (zfind k m)) end.
Definition get_timeout (m : list (Z * Z)) (n : Z) : res Z :=
  match zfind 1 m with None => Err EKey | Some t => Ok (timeout_loop m n (foldr insert_z [] (map fst m)) t) end.

(** Dictionaries in order of insertion. *)
Section dict.
  Context {A : Type}.
  Fixpoint dfind (k : string) (m : list (string * A)) : option A :=
    match m with [] => None | (a, b) :: m' => if bool_decide (a = k) then Some b else dfind k m' end.
  Fixpoint dset (k : string) (v : A) (m : list (string * A)) : list (string * A) :=
    match m with [] => [(k, v)] | (a, b) :: m' => if bool_decide (a = k) then (k, v) :: m' else (a, b) :: dset k v m' end.
  Definition ddel (k : string) (m : list (string * A)) : list (string * A) := base.filter (fun x => fst x <> k) m.
End dict.

(** What Greta keeps: commands in progress and to be remembered (command, timeout), and the processes it has
    launched (node, command, date). *)
Definition info : Type := string * Z.
Record greta := mkGreta { running : list (string * info); remind : list (string * info); execs : list (string * string * Z) }.
Definition start : greta := mkGreta [] [] [].
(** The platform as seen during one cycle: the rows of the table resources (node, state, next_state, available_upto),
    the nodes with a job (node.py:147-174), the condition of each property of the keepalive option, the date.  One
    date is used for a whole cycle. *)
Record nrow := mkNrow { n_node : string; n_state : string; n_next : string; n_upto : Z }.
Record view := mkView { v_rows : list nrow; v_busy : list string; v_sel : string -> nrow -> bool; v_now : Z }.
(** The configuration: timeouts, keepalive (property, minimum), ENERGY_SAVING_WINDOW_TIMEOUT. *)
Record gconf := mkGconf { g_timeouts : list (Z * Z); g_keep : list (string * Z); g_window : Z }.
(** Changes asked for (change_node_state, node.py:312) and commands launched. *)
Definition changes : Type := list (string * string).

(** WindowForker.check_executors, greta.py:610-656.  [st i]: exit code of the [i]-th process, None if it still runs. *)
Fixpoint check_execs (window now : Z) (st : nat -> option Z) (i : nat) (l : list (string * string * Z)) (run : list (string * info))
  : res (list (string * string * Z) * list (string * info) * changes) :=
  match l with
  | [] => Ok ([], run, [])
  | (n, c, t) :: l' =>
      match st i with
      | Some code =>
          if code =? 0 then
            if bool_decide (c = "HALT"%string) then
              match dfind n run with
              | None => Err EKey
              | Some _ => check_execs window now st (S i) l' (ddel n run)
              end
            else check_execs window now st (S i) l' run
          else r <-- check_execs window now st (S i) l' run ;;
               let '(k, run', ch) := r in Ok (k, run', (n, "Suspected"%string) :: ch)
      | None =>
          if window <? now - t then
            if bool_decide (c = "HALT"%string) then
              match dfind n run with
              | None => Err EKey
              | Some _ => r <-- check_execs window now st (S i) l' (ddel n run) ;;
                          let '(k, run', ch) := r in Ok (k, run', (n, "Suspected"%string) :: ch)
              end
            else check_execs window now st (S i) l' run
          else r <-- check_execs window now st (S i) l' run ;;
               let '(k, run', ch) := r in Ok ((n, c, t) :: k, run', ch)
      end
  end.

(** get_nodes_with_given_sql, node.py:188-197: distinct triples *)
Definition triples (v : view) (p : string) : list (string * string * string) :=
  remove_dups ((fun r => (n_node r, n_state r, n_next r)) <$> base.filter (fun r => v_sel v p r = true) (v_rows v)).
Definition alive3 (x : string * string * string) : bool := bool_decide (snd (fst x) = "Alive"%string) || bool_decide (snd x = "Alive"%string).
(** What is known of a property during the cycle: minimum, nodes, current_idle. *)
Record keep := mkKeep { k_min : Z; k_nodes : list string; k_idle : Z }.
(** greta.py:325-355, the nodes to wake up for a property: [ok] is ok_nodes. *)
Fixpoint wake_some (can run : list string) (l : list string) (ok : Z) (todo : list (string * info)) : list (string * info) :=
  match l with
  | [] => todo
  | n :: l' =>
      if 0 <=? ok then todo
      else if bool_decide (n ∈ can) then
        wake_some can run l' (ok + 1) (if bool_decide (n ∈ run) then todo else dset n ("WAKEUP"%string, -1) todo)
      else wake_some can run l' ok todo
  end.
(** greta.py:283-355, for one property *)
Definition keep_one (v : view) (run : list string) (pm : string * Z) (todo : list (string * info)) : keep * list (string * info) :=
  let t := triples v (fst pm) in
  let nodes := map (fun x => fst (fst x)) t in
  let alive := map (fun x => fst (fst x)) (base.filter (fun x => alive3 x = true) t) in
  let occupied := base.filter (fun n => n ∈ v_busy v) alive in
  let idle := base.filter (fun n => n ∉ v_busy v) alive in
  let can := uniq (n_node <$> base.filter (fun r => n_state r = "Absent"%string /\ v_now v < n_upto r) (v_rows v)) in
  let wakeable := base.filter (fun n => n ∉ occupied /\ n ∉ idle) nodes in
  (mkKeep (snd pm) nodes (Z.of_nat (length idle)),
   wake_some can run wakeable (Z.of_nat (length idle) - snd pm) todo).
Fixpoint keep_all (v : view) (run : list string) (l : list (string * Z)) (todo : list (string * info)) : list keep * list (string * info) :=
  match l with
  | [] => ([], todo)
  | pm :: l' => let '(k, todo1) := keep_one v run pm todo in
                let '(ks, todo2) := keep_all v run l' todo1 in (k :: ks, todo2)
  end.
Definition alive_nodes (v : view) : list string := n_node <$> base.filter (fun r => n_state r = "Alive"%string) (v_rows v).
(** greta.py:365-390: a booting node that is up, or late.  list.remove takes away the first occurrence. *)
Fixpoint remove_one (x : string) (l : list string) : list string :=
  match l with [] => [] | y :: l' => if bool_decide (y = x) then l' else y :: remove_one x l' end.
Fixpoint expire (v : view) (l : list (string * info)) (nodes : list string) : list (string * info) * list string * changes :=
  match l with
  | [] => ([], nodes, [])
  | (n, (c, t)) :: l' =>
      if bool_decide (c = "WAKEUP"%string) then
        if bool_decide (n ∈ alive_nodes v) then expire v l' nodes
        else if t <? v_now v then
          let '(r, ns, ch) := expire v l' (remove_one n nodes) in (r, ns, (n, "Suspected"%string) :: ch)
        else let '(r, ns, ch) := expire v l' nodes in ((n, (c, t)) :: r, ns, ch)
      else let '(r, ns, ch) := expire v l' nodes in ((n, (c, t)) :: r, ns, ch)
  end.
(** greta.py:393-407: nothing is ever added to nodes_toRemove, so the list keeps its entries. *)
Definition remembered (run rem todo : list (string * info)) : list (string * info) :=
  fold_left (fun td x => match dfind (fst x) run with Some _ => td | None => dset (fst x) (fst (snd x), -1) td end) rem todo.
(** greta.py:410-441 *)
Fixpoint receive (cmd : string) (nodes : list string) (run todo rem : list (string * info)) : list (string * info) * list (string * info) :=
  match nodes with
  | [] => (todo, rem)
  | n :: l => match dfind n run with
              | Some (c, _) => receive cmd l run todo (if bool_decide (cmd = c) then rem else dset n (cmd, -1) rem)
              | None => receive cmd l run (dset n (cmd, -1) todo) rem
              end
  end.
(** greta.py:453-503, the entries of the list to process: [None]: unknown command.  The entries that stay in the
    list, the nodes to take away from the running list, the changes and the commands. *)
Definition concerned (n : string) (k : keep) : bool := bool_decide (n ∈ k_nodes k).
Fixpoint treat (timeout now : Z) (ks : list keep) (l : list (string * info)) : changes * option (list (string * info) * list string * changes) :=
  match l with
  | [] => ([], Some ([], [], []))
  | (n, (c, t)) :: l' =>
      if bool_decide (c = "WAKEUP"%string) then
        match treat timeout now ks l' with
        | (ch, Some (st, dl, cm)) => (ch, Some ((n, (c, now + timeout)) :: st, dl, (c, n) :: cm))
        | (ch, None) => (ch, None)
        end
      else if bool_decide (c = "HALT"%string) then
        if existsb (fun k => concerned n k && (k_idle k <=? k_min k)) ks then
          match treat timeout now ks l' with
          | (ch, Some (st, dl, cm)) => (ch, Some (st, n :: dl, cm))
          | (ch, None) => (ch, None)
          end
        else
          match treat timeout now (map (fun k => if concerned n k then mkKeep (k_min k) (k_nodes k) (k_idle k - 1) else k) ks) l' with
          | (ch, Some (st, dl, cm)) => ((n, "Absent"%string) :: ch, Some ((n, (c, t)) :: st, dl, (c, n) :: cm))
          | (ch, None) => ((n, "Absent"%string) :: ch, None)
          end
      else ([], None)
  end.
(** One cycle, greta.py:264-538.  [inl]: Greta ends with code 1. *)
Record outcome := mkOut { o_changes : changes; o_cmds : changes }.
Definition cycle (c : gconf) (g : greta) (st : nat -> option Z) (cmd : string) (nodes : list string) (v : view)
  : res (changes + greta * outcome) :=
  r <-- check_execs (g_window c) (v_now v) st 0 (execs g) (running g) ;;
  let '(ex, run, ch1) := r in
  let '(ks, todo) := keep_all v (map fst run) (g_keep c) [] in
  let '(run, nodes, ch2) := expire v run nodes in
  let todo := remembered run (remind g) todo in
  let '(todo, rem) := receive cmd nodes run todo (remind g) in
  timeout <-- get_timeout (g_timeouts c) (Z.of_nat (length run + length todo)) ;;
  match treat timeout (v_now v) ks todo with
  | (ch3, None) => Ok (inl (ch1 ++ ch2 ++ ch3))
  | (ch3, Some (stay, gone, cmds)) =>
      let run := base.filter (fun x => fst x ∉ gone) run in
      Ok (inr (mkGreta (fold_left (fun m x => dset (fst x) (snd x) m) stay run) rem
                 (ex ++ map (fun x => (snd x, fst x, v_now v)) cmds),
               mkOut (ch1 ++ ch2 ++ ch3) cmds))
  end.
(** greta.py:519-531: after some cycles Greta ends and is started again with what it has saved. *)
Definition restart (g : greta) : greta := mkGreta (running g) (remind g) [].
