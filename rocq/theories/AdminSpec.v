(** What is said about the commands of the administrator, without the functions of the model. *)
From Verif Require Import Base ReqModel AdmModel FrontModel FrontSpec ConfModel ConfSpec AdminModel.
From Coq Require Import Ascii.

(** The exit value that stands for the values of the messages. *)
Inductive status (evs : list Z) : Z -> Prop :=
  | st_fine : (forall e, e ∈ evs -> e = 0) -> status evs 0
  | st_one e : e <> 0 -> e ∈ evs -> (forall e', e' ∈ evs -> e' = 0 \/ e' = e) -> status evs e
  | st_many e e' : e <> 0 -> e' <> 0 -> e <> e' -> e ∈ evs -> e' ∈ evs -> status evs 15.

(** Who the command acts for. *)
Definition acts_for (e : qenv) (u : string) : Prop := is_Some (e_user e) /\ (e_oardo e = Some u \/ (e_oardo e = None /\ e_user e = Some u)).
Definition administrator (u : string) : Prop := u = "oar"%string \/ u = "root"%string.
(** The text of a queue: name,priority,policy *)
Definition describes (t n : string) (p : Z) (s : string) : Prop :=
  exists pt, none_of "," n /\ none_of "," pt /\ none_of "," s /\ integer_text pt p /\ t = (n +:+ "," +:+ pt +:+ "," +:+ s)%string.
(** What can be asked: one thing at a time. *)
Inductive ask := Enable (n : string) | Disable (n : string) | EnableAll | DisableAll | Add (t : string) | Change (t : string) | Remove (n : string).
Definition blank_line : qline := mkQline false "" "" false false "" "" "".
Definition asked (a : ask) : qline :=
  match a with
  | Enable n => mkQline false n "" false false "" "" "" | Disable n => mkQline false "" n false false "" "" ""
  | EnableAll => mkQline false "" "" true false "" "" "" | DisableAll => mkQline false "" "" false true "" "" ""
  | Add t => mkQline false "" "" false false t "" "" | Change t => mkQline false "" "" false false "" t "" | Remove n => mkQline false "" "" false false "" "" n
  end.
Definition says_something (a : ask) : Prop := match a with Enable t | Disable t | Add t | Change t | Remove t => t <> ""%string | _ => True end.
(** [x] is a queue after the command. *)
Definition after (a : ask) (qs : list queue) (x : queue) : Prop :=
  match a with
  | Enable n => (x ∈ qs /\ q_name x <> n) \/ exists q, q ∈ qs /\ q_name q = n /\ x = mkQueue n (q_priority q) (q_policy q) true
  | Disable n => (x ∈ qs /\ q_name x <> n) \/ exists q, q ∈ qs /\ q_name q = n /\ x = mkQueue n (q_priority q) (q_policy q) false
  | EnableAll => exists q, q ∈ qs /\ x = mkQueue (q_name q) (q_priority q) (q_policy q) true
  | DisableAll => exists q, q ∈ qs /\ x = mkQueue (q_name q) (q_priority q) (q_policy q) false
  | Add t => x ∈ qs \/ exists n p s, describes t n p s /\ x = mkQueue n p s true
  | Change t => exists n p s, describes t n p s /\ ((x ∈ qs /\ q_name x <> n) \/ exists q, q ∈ qs /\ q_name q = n /\ x = mkQueue n p s (q_active q))
  | Remove n => x ∈ qs /\ q_name x <> n
  end.
(** The command cannot be done. *)
Definition impossible (a : ask) (qs : list queue) : Prop :=
  match a with
  | Add t => forall n p s, describes t n p s -> n ∈ q_name <$> qs
  | Change t => forall n p s, ~ describes t n p s
  | _ => False
  end.
Definition unique_names (qs : list queue) : Prop := NoDup (q_name <$> qs).
(** A queue of the name is there. *)
Definition concerns (a : ask) (qs : list queue) : Prop :=
  match a with
  | Enable n | Disable n | Remove n => n ∈ q_name <$> qs
  | Change t => exists n p s, describes t n p s /\ n ∈ q_name <$> qs
  | _ => True
  end.

(** ** Properties *)
(** The properties of OAR itself, as the table of the resources declares them. *)
Definition own_properties : list string :=
  ["resource_id"; "type"; "network_address"; "state"; "next_state"; "finaud_decision"; "next_finaud_decision"; "state_num"; "suspended_jobs"; "scheduler_priority"; "cpuset";
   "besteffort"; "deploy"; "expiry_date"; "desktop_computing"; "last_job_date"; "available_upto"; "last_available_upto"; "drain"]%string.
Definition valid_name (p : string) : Prop := every (fun c => nat_of_ascii c < 128)%nat p /\ p ∉ protected.
Definition delete_line (ps : list string) : pline := mkPline ps [] false [] false.
Definition add_line (text : bool) (ps : list string) : pline := mkPline [] ps text [] false.
Definition rename_line (p q : string) : pline := mkPline [] [] false [(p +:+ "," +:+ q)%string] false.
Definition well_formed (d : props) : Prop := NoDup (c_name <$> cols d) /\ NoDup (fst <$> preqs d).
(** The tables at the end. *)
Definition final (d : props) (h : list props) : props := default d (head h).
(** The logs and the requests speak of the properties as the columns do: of an attribute [x], the logs and the requests of [d] are those of [d0]. *)
Definition renamed_rows (p q : string) (d d' : props) : Prop :=
  length (plogs d') = length (plogs d) /\ length (preqs d') = length (preqs d) /\
  (forall i x n, plogs d !! i = Some (x, n) -> plogs d' !! i = Some (if decide (x = p) then q else x, n)) /\
  (forall i g o x v, preqs d !! i = Some (g, o, x, v) -> preqs d' !! i = Some (g, o, if decide (x = p) then q else x, v)).
Definition same_rows (d d' : props) : Prop := plogs d' = plogs d /\ preqs d' = preqs d.
