(** Model of the states of the resources: oar/lib/resource_handling.py, oar/lib/node.py, the dead
    switch of oar/modules/sarko.py, oar/modules/finaud.py and the last part of
    oar/modules/node_change_state.py.  Only the columns they use.  No proofs. *)
From Verif Require Import Base JobModel.

(** resources, models.py:344-365 *)
Record rsc := mkRsc { r_id : Z; r_host : string; r_state : string; r_num : Z; r_finaud : string;
  r_next : string; r_nextf : string; r_type : string; r_desktop : string }.
(** resource_logs, models.py:427-436; date_stop = 0: open. *)
Record rlog := mkRlog { g_res : Z; g_attr : string; g_value : string; g_start : Z; g_stop : Z; g_finaud : string }.
Record ndb := mkNdb { rscs : list rsc; rlogs : list rlog }.
Definition with_rscs (f : list rsc -> list rsc) (d : ndb) := mkNdb (f (rscs d)) (rlogs d).
Definition with_rlogs (f : list rlog -> list rlog) (d : ndb) := mkNdb (rscs d) (f (rlogs d)).
(** State_to_num, resource_handling.py:23; STATE2NUM, node.py *)
Definition state_to_num (s : string) : option Z :=
  if bool_decide (s = "Alive"%string) then Some 1 else if bool_decide (s = "Absent"%string) then Some 2
  else if bool_decide (s = "Suspected"%string) then Some 3 else if bool_decide (s = "Dead"%string) then Some 4 else None.
Definition set_state (s : string) (n : Z) (f : string) (r : rsc) : rsc := mkRsc (r_id r) (r_host r) s n f (r_next r) (r_nextf r) (r_type r) (r_desktop r).
Definition set_next (s f : string) (r : rsc) : rsc := mkRsc (r_id r) (r_host r) (r_state r) (r_num r) (r_finaud r) s f (r_type r) (r_desktop r).

(** add_resource, resource_handling.py:28-55; the new identifier is given by the database. *)
Definition add_resource (date id : Z) (host state : string) (d : ndb) : res ndb :=
  match state_to_num state with
  | None => Err EKey
  | Some n => Ok (mkNdb (rscs d ++ [mkRsc id host state n "NO" "UnChanged" "NO" "default" "NO"]) (rlogs d ++ [mkRlog id "state" state date 0 "NO"]))
  end.
(** create, api/routers/resource.py:137-162: the row only.  Other columns: their defaults. *)
Definition api_create (id : Z) (host user : string) (d : ndb) : ndb :=
  if admin user then with_rscs (fun l => l ++ [mkRsc id host "Alive" 0 "NO" "UnChanged" "NO" "default" "NO"]) d else d.

(** set_resource_state, resource_handling.py:71-99 *)
Definition close_rlog (date : Z) (P : Z -> bool) : list rlog -> list rlog :=
  upd (fun e => g_stop e = 0 /\ g_attr e = "state"%string /\ P (g_res e) = true) (fun e => mkRlog (g_res e) (g_attr e) (g_value e) (g_start e) date (g_finaud e)).
Definition set_resource_state (date id : Z) (state finaud : string) (d : ndb) : res ndb :=
  match state_to_num state with
  | None => Err EKey
  | Some n =>
      let d := with_rscs (upd (fun r => r_id r = id) (set_state state n finaud)) d in
      let d := with_rlogs (close_rlog date (fun x => x =? id)) d in
      Ok (with_rlogs (fun l => l ++ [mkRlog id "state" state date 0 finaud]) d)
  end.
(** set_resource_nextState, resource_handling.py:102-108, and set_resources_nextState, 111-123 *)
Definition set_resource_next (id : Z) (s : string) : ndb -> ndb := with_rscs (upd (fun r => r_id r = id) (set_next s "NO")).
Definition set_resources_next (ids : list Z) (s : string) : ndb -> ndb := with_rscs (upd (fun r => r_id r ∈ ids) (set_next s "NO")).
(** update_resource_nextFinaudDecision, 307-312 *)
Definition set_resource_next_finaud (id : Z) (f : string) : ndb -> ndb := with_rscs (upd (fun r => r_id r = id) (fun r => set_next (r_next r) f r)).
(** set_node_nextState, node.py:298-309; update_node_nextFinaudDecision, 355-362 *)
Definition set_node_next (h s : string) : ndb -> ndb := with_rscs (upd (fun r => r_host r = h) (set_next s "NO")).
Definition set_node_next_finaud (h f : string) : ndb -> ndb := with_rscs (upd (fun r => r_host r = h) (fun r => set_next (r_next r) f r)).

(** set_node_state, node.py:199-295.  [pg]: DB_TYPE is "Pg".  The state given by the only
    caller (node_change_state.py:218-220) is "Suspected", the state tested here is "Suspect", for
    which STATE2NUM has no value. *)
Definition on_node (d : ndb) (h : string) (id : Z) : bool := existsb (fun r => bool_decide (r_host r = h) && (r_id r =? id)) (rscs d).
Definition set_node_state (pg : bool) (date : Z) (h state finaud : string) (d : ndb) : res ndb :=
  if bool_decide (state = "Suspect"%string) then Err EKey
  else match state_to_num state with
  | None => Err EKey
  | Some n =>
      let d := with_rscs (upd (fun r => r_host r = h) (set_state state n finaud)) d in
      let d := if pg then with_rlogs (close_rlog date (on_node d h)) d
               else with_rlogs (upd (fun e => g_stop e = 0 /\ g_attr e = state /\ on_node d h (g_res e) = true)
                      (fun e => mkRlog (g_res e) (g_attr e) (g_value e) (g_start e) date (g_finaud e))) d in
      Ok (with_rlogs (fun l => l ++ ((fun r => mkRlog (r_id r) "state" state date 0 finaud) <$> filter (fun r => r_host r = h) (rscs d))) d)
  end.

(** get_absent_suspected_resources_for_a_timeout, resource_handling.py:295-304 *)
Definition timed_out (date timeout : Z) (d : ndb) : list Z :=
  g_res <$> filter (fun e => g_attr e = "state"%string /\ g_stop e = 0 /\ g_start e + timeout < date) (rlogs d).
(** The dead switch, sarko.py:222-240 *)
Definition dead_switch (date timeout : Z) (d : ndb) : ndb :=
  if 0 <? timeout then fold_left (fun d id => set_resource_next_finaud id "YES" (set_resource_next id "Dead" d)) (timed_out date timeout d) d else d.

(** Finaud, finaud.py:29-95.  get_finaud_nodes (node.py:318-338) takes one row of each node:
    [pick] is the one the database gives.  [busy]: nodes with jobs, empty when they are checked
    too.  [bad]: the answer of the ping. *)
Definition finaud_row (r : rsc) : Prop :=
  (r_state r = "Alive"%string \/ r_state r = "Suspected"%string /\ r_finaud r = "YES"%string) /\ r_type r = "default"%string /\
  r_desktop r = "NO"%string /\ r_next r = "UnChanged"%string.
Global Instance finaud_row_dec r : Decision (finaud_row r).
Proof. unfold finaud_row. apply _. Defined.
Definition finaud_one (bad : list string) (d : ndb) (r : rsc) : ndb :=
  if bool_decide (r_host r ∈ bad) && bool_decide (r_state r = "Alive"%string) then set_node_next_finaud (r_host r) "YES" (set_node_next (r_host r) "Suspected" d)
  else if negb (bool_decide (r_host r ∈ bad)) && bool_decide (r_state r = "Suspected"%string) then set_node_next_finaud (r_host r) "YES" (set_node_next (r_host r) "Alive" d)
  else d.
Definition finaud (pick : list rsc) (busy bad : list string) (d : ndb) : ndb :=
  fold_left (finaud_one bad) (filter (fun r => r_host r ∉ busy) pick) d.
(** What the database may give: rows of the query, one for each node. *)
Definition picked (d : ndb) (pick : list rsc) : Prop :=
  (forall r, r ∈ pick -> r ∈ rscs d /\ finaud_row r) /\ NoDup (r_host <$> pick) /\
  (forall r, r ∈ rscs d -> finaud_row r -> r_host r ∈ r_host <$> pick).

(** The requested states, node_change_state.py:332-372. *)
(** assigned_resources: resource, moldable description, index; [cur]: the descriptions whose
    index is "CURRENT". *)
Record asg := mkAsg { a_res : Z; a_mld : Z; a_index : string }.
(** get_resource_job_to_frag, resource_handling.py:422-444 *)
Definition jobs_to_frag (asgs : list asg) (cur : list Z) (d : db) (id : Z) : list Z :=
  j_id <$> filter (fun j => (j_state j <> "Terminated"%string /\ j_state j <> "Error"%string) /\ ("cosystem"%string ∉ j_types j /\ "noop"%string ∉ j_types j) /\
    existsb (fun m => (m_job m =? j_id j) && bool_decide (m_id m ∈ cur) &&
      existsb (fun a => (a_res a =? id) && (a_mld a =? m_id m) && bool_decide (a_index a = "CURRENT"%string)) asgs) (mlds d) = true) (jobs d).
Definition changes (d : ndb) : list (Z * string) := (fun r => (r_id r, r_next r)) <$> filter (fun r => r_next r <> "UnChanged"%string) (rscs d).
(** [heal]: the resources given to the healing script. *)
Record ncs := mkNcs { n_db : ndb; n_jobs : db; n_code : Z; n_heal : list Z }.
Definition frag_all (date : Z) (user : string) (l : list Z) (s : ncs) : ncs :=
  fold_left (fun s j => mkNcs (n_db s) (snd (frag_job date user j (n_jobs s))) 2 (n_heal s)) l s.
Definition change_one (date : Z) (user : string) (asgs : list asg) (cur : list Z) (s : ncs) (c : Z * string) : res ncs :=
  match filter (fun r => r_id r = fst c) (rscs (n_db s)) with
  | [r] =>
      if bool_decide (r_state r = snd c) then Ok (mkNcs (set_resource_next (fst c) "UnChanged" (n_db s)) (n_jobs s) (n_code s) (n_heal s))
      else
        nd <-- set_resource_state date (fst c) (snd c) (r_nextf r) (n_db s) ;;
        let nd := set_resource_next (fst c) "UnChanged" nd in
        let heal := if bool_decide (snd c = "Suspected"%string) then n_heal s ++ [fst c] else n_heal s in
        let s := mkNcs nd (n_jobs s) (n_code s) heal in
        if bool_decide (snd c = "Dead"%string) || bool_decide (snd c = "Absent"%string)
        then Ok (frag_all date user (jobs_to_frag asgs cur (n_jobs s) (fst c)) s) else Ok s
  | _ => Err EKey
  end.
Fixpoint change_all (date : Z) (user : string) (asgs : list asg) (cur : list Z) (l : list (Z * string)) (s : ncs) : res ncs :=
  match l with [] => Ok s | c :: l => s <-- change_one date user asgs cur s c ;; change_all date user asgs cur l s end.
Definition treat_changes (date : Z) (user : string) (asgs : list asg) (cur : list Z) (s : ncs) : res ncs :=
  match changes (n_db s) with
  | [] => Ok s
  | l => change_all date user asgs cur l (mkNcs (n_db s) (n_jobs s) 1 (n_heal s))
  end.

(** remove_resource, resource_handling.py:187-236. *)
Definition remove_resource (asgs : list asg) (user : string) (id : Z) (n : ndb) (d : db) : res (Z * ndb * db * list asg) :=
  if negb (admin user) then Ok (4, n, d, asgs)
  else match filter (fun r => r_id r = id) (rscs n) with
  | [r] =>
      if bool_decide (r_state r = "Dead"%string) then
        let gone := filter (fun j => existsb (fun a => (a_res a =? id) && (a_mld a =? j_mld j)) asgs = true) (jobs d) in
        let ids := j_id <$> gone in
        let mids := j_mld <$> gone in
        Ok (0, mkNdb (filter (fun r => r_id r <> id) (rscs n)) (filter (fun e => g_res e <> id) (rlogs n)),
            mkDb (filter (fun j => j_id j ∉ ids) (jobs d)) (logs d) (filter (fun f => f_job f ∉ ids) (frags d)) (filter (fun e => e_job e ∉ ids) (events d)) (mlds d) (wtcs d),
            filter (fun a => a_mld a ∉ mids /\ a_res a <> id) asgs)
      else Ok (3, n, d, asgs)
  | _ => Err EKey
  end.
(** state, api/routers/resource.py:111-134 *)
Definition api_state (date id : Z) (state user : string) (d : ndb) : res ndb :=
  if admin user then set_resource_state date id state "NO" d else Ok d.
