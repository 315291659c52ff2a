(** oarnodes (oar/cli/oarnodes.py:53-535), with get_resources_of_nodes, get_all_network_address, get_resources_state_for_host (oar/lib/node.py:39-47, 391-406),
    get_resources_from_ids, get_resources_with_given_sql, get_resources_state (oar/lib/resource_handling.py:62-68, 447-450, 492-514),
    get_events_for_hostname_from (oar/lib/event.py:113-131), and the options of oarnodes and oarstat that may have no value (oarnodes.py:504-523,
    oarstat.py:556-576).  No proofs here.  Left out: colours, bars and the layout, the columns of the properties, the order of the hosts (NodeSet), host
    names with a meaning for NodeSet (ranges, groups, the empty name), the options -V. *)
From Coq Require Import Ascii.
From stdpp Require Import sorting.
From Verif Require Import Base.

Record nres := mkN { n_id : Z; n_host : string; n_state : string; n_upto : Z }.
Record njob := mkNj { q_id : Z; q_state : string; q_mld : Z }.
Record nev := mkNe { e_id : Z; e_host : string; e_date : Z }.
#[global] Instance nres_eq : EqDecision nres. Proof. solve_decision. Defined.
#[global] Instance nev_eq : EqDecision nev. Proof. solve_decision. Defined.
(** [n_assigned]: a moldable and a resource *)
Record ndb := mkNdb { n_res : list nres; n_jobs : list njob; n_assigned : list (Z * Z); n_evs : list nev }.
Definition id_order (a b : nres) : Prop := n_id a <= n_id b.
#[global] Instance id_order_dec a b : Decision (id_order a b). Proof. unfold id_order. apply _. Defined.
(** order by desc(date); ties: as they come *)
Definition latest_first (a b : nev) : Prop := e_date b <= e_date a.
#[global] Instance latest_first_dec a b : Decision (latest_first a b). Proof. unfold latest_first. apply _. Defined.

(** get_resources_of_nodes, get_resources_from_ids: order by the identifier *)
Definition of_hosts (hosts : list string) (d : ndb) : list nres := merge_sort id_order (filter (fun r => n_host r ∈ hosts) (n_res d)).
Definition of_ids (ids : list Z) (d : ndb) : list nres := merge_sort id_order (filter (fun r => n_id r ∈ ids) (n_res d)).
Definition all_hosts (d : ndb) : list string := remove_dups (n_host <$> n_res d).
(** get_resources_for_job, oarnodes.py:53-65: the running jobs of a resource *)
Definition jobs_on (d : ndb) (r : Z) : list Z :=
  j ← filter (fun j => q_state j = "Running"%string) (n_jobs d);
  _ ← filter (fun a => a = (q_mld j, r)) (n_assigned d); [q_id j].
Definition shown_state (now : Z) (r : nres) : string := if bool_decide (n_state r = "Absent"%string) && (now <=? n_upto r) then "Standby" else n_state r.

(** cluster_summary, oarnodes.py:277-383: a line per host with resources; its state is that of the first resource *)
Record line := mkLine { l_host : string; l_state : string; l_jobs : list Z; l_free : Z; l_total : Z }.
Definition summary_line (now : Z) (d : ndb) (h : string) : option line :=
  match of_hosts [h] d with
  | [] => None
  | (first :: _) as rs =>
      let busy := filter (fun r => jobs_on d (n_id r) <> []) rs in
      let absent := filter (fun r => jobs_on d (n_id r) = [] /\ n_state r <> "Alive"%string) rs in
      Some (mkLine h (shown_state now first) (remove_dups (rs ≫= fun r => jobs_on d (n_id r)))
              (Z.of_nat (length rs) - Z.of_nat (length busy) - Z.of_nat (length absent)) (Z.of_nat (length rs)))
  end.
Definition summary (now : Z) (d : ndb) (hosts : list string) : list line := omap (summary_line now d) (remove_dups hosts).
(** cluster_details, oarnodes.py:386-433, without the jobs: the state as it is recorded *)
Definition details (d : ndb) (hosts : list string) : list (string * list (Z * string)) :=
  omap (fun h => match of_hosts [h] d with [] => None | rs => Some (h, (fun r => (n_id r, n_state r)) <$> rs) end) (remove_dups hosts).
(** get_resources_state, get_resources_state_for_host *)
Definition states (now : Z) (d : ndb) (ids : list Z) : list (Z * string) := (fun r => (n_id r, shown_state now r)) <$> of_ids ids d.
Definition host_states (now : Z) (d : ndb) (h : string) : list (Z * string) := states now d (n_id <$> of_hosts [h] d).
(** get_events_for_hostname_from: since a date, or the 30 last ones *)
Definition events_of (d : ndb) (h : string) (date : option Z) : list nev :=
  let l := filter (fun e => e_host e = h) (n_evs d) in
  match date with
  | Some t => merge_sort latest_first (filter (fun e => t <= e_date e) l)
  | None => take 30 (merge_sort latest_first l)
  end.

(** oarnodes.py:436-501.  [o_events]: not given, without a date, with a date; [o_format]: JSON or YAML. *)
Record options := mkOpts { o_nodes : list string; o_ids : list Z; o_sql : option string; o_state : bool; o_summary : bool; o_list : bool;
  o_events : option (option Z); o_format : bool }.
Inductive shown :=
  | SEvents (l : list (string * list nev)) | SSummary (l : list line) | SStates (l : list (Z * string)) | SHosts (l : list (string * list (Z * string)))
  | SNames (l : list string) | STable (l : list nres) | SNothing.
(** What is shown, and the exit status: the warning 12 about the condition has the exit value 0. *)
Definition oarnodes (now : Z) (sql : string -> list Z) (o : options) (d : ndb) : shown * Z :=
  let given := negb (bool_decide (o_ids o = [])) || negb (bool_decide (o_sql o = None)) in
  let nodes := if (bool_decide (o_nodes o = []) && negb given) || o_list o then all_hosts d else o_nodes o in
  let ids := o_ids o ++ match o_sql o with Some q => sql q | None => [] end in
  (match o_events o with
   | Some date => SEvents ((fun h => (h, events_of d h date)) <$> nodes)
   | None =>
       if o_summary o then SSummary (summary now d nodes)
       else if o_state o then
         match ids with
         | [] => if o_format o then SHosts ((fun h => (h, host_states now d h)) <$> nodes) else SHosts (details d nodes)
         | _ => SStates (states now d ids)
         end
       else if o_list o then SNames nodes
       else if negb (bool_decide (ids = [])) || negb (bool_decide (o_sql o = None)) then STable (of_ids ids d)
       else match nodes with [] => SNothing | _ => STable (of_hosts nodes d) end
   end, 0).

(** ** Options that may have no value: oarnodes.py:504-523 (-e), oarstat.py:556-576 (-u).  An empty text after the option: IndexError. *)
Fixpoint flag_or_string (names : list string) (marker : string) (argv : list string) : res (list string) :=
  match argv with
  | [] => Err EIndex
  | [a] => Ok (if bool_decide (a ∈ names) then [a; marker] else [a])
  | a :: ((b :: _) as r) =>
      if bool_decide (a ∈ names) then
        match b with
        | EmptyString => Err EIndex
        | String c _ => out <-- flag_or_string names marker r ;; Ok (a :: (if bool_decide (c = "-"%char) then marker :: out else out))
        end
      else out <-- flag_or_string names marker r ;; Ok (a :: out)
  end.
