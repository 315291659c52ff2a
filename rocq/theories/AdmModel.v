(** The admission rules delivered with OAR, etc/oar/admission_rules.d (01 to 15), and how they are loaded and applied:
    oar/lib/submission.py:303-345 (apply_admission_rules), 1399-1423 (add_micheline_jobs around them), 930-941 (the
    condition of the administrator), oar/lib/job_handling.py:345-360 (condition of a group).  No proofs here.
    Simplified: a rule that raises an exception refuses the job (the message is left out); texts of conditions are
    lists of tokens; \w is taken on ASCII; file names and user names are ASCII. *)
From Verif Require Import Base CondProps.
From Coq Require Import Ascii.

(** A condition as a text: comparisons, AND, OR and parentheses, which need not be balanced. *)
Inductive tok := TAtom (s : string) | TAnd | TOr | TOpen | TClose.
(** "({}) AND x".format(p) when p is not empty: rules 06 and 08, and submission.py:930-941 *)
Definition wrap (p x : list tok) : list tok := match p with [] => x | _ => TOpen :: p ++ TClose :: TAnd :: x end.
(** job_handling.py:345-360: no parentheses *)
Definition join (p g : list tok) : list tok := match p, g with [], _ => g | _, [] => p | _, _ => p ++ TAnd :: g end.

Record group := mkGroup { g_prop : list tok; g_res : list (string * Z) }.
(** [p_resa]: reservation_date, 0: none; [p_wall] of a request: None: not given. *)
Record params := mkParams { p_user : string; p_queue : option string; p_types : list string; p_props : list tok; p_resa : Z;
  p_job_type : string; p_req : list (list group * option Z); p_after : list tok }.
(** What the rules read: the members of the Unix group admin (None: no such group), the lines of
    ~oar/unlimited_reservation.users, the rows of jobs (user, reservation, state). *)
Record env := mkEnv { admins : option (list string); unlimited : list string; job_rows : list (string * string * string) }.

Definition set_queue p q := mkParams (p_user p) q (p_types p) (p_props p) (p_resa p) (p_job_type p) (p_req p) (p_after p).
Definition set_types p t := mkParams (p_user p) (p_queue p) t (p_props p) (p_resa p) (p_job_type p) (p_req p) (p_after p).
Definition set_props p x := mkParams (p_user p) (p_queue p) (p_types p) x (p_resa p) (p_job_type p) (p_req p) (p_after p).
Definition set_req p r := mkParams (p_user p) (p_queue p) (p_types p) (p_props p) (p_resa p) (p_job_type p) r (p_after p).
Definition set_after p a := mkParams (p_user p) (p_queue p) (p_types p) (p_props p) (p_resa p) (p_job_type p) (p_req p) a.
Definition rule := env -> params -> option params.
Definition has_type (t : string) (p : params) : bool := bool_decide (t ∈ p_types p).
Definition refuse_if (b : bool) (p : params) : option params := if b then None else Some p.
(** The names of resources asked for *)
Definition asked_names (p : params) : list string := r ← p_req p; g ← r.1; (g_res g).*1.

(** 01_default_queue.py *)
Definition r01 : rule := fun _ p => Some (match p_queue p with None => set_queue p (Some "default"%string) | Some _ => p end).
(** 02_prevent_root_oar_toSubmit.py *)
Definition r02 : rule := fun _ p => refuse_if (bool_decide (p_user p = "root"%string) || bool_decide (p_user p = "oar"%string)) p.
(** 03_avoid_jobs_on_resources_in_drain_mode.py *)
Definition r03 : rule := fun _ p => Some (set_after p [TAtom "drain='NO'"%string]).
(** 04_submit_in_admin_queue.py: getgrnam raises KeyError when there is no such group *)
Definition r04 : rule := fun e p =>
  if bool_decide (p_queue p = Some "admin"%string) then
    match admins e with None => None | Some l => refuse_if (bool_decide (p_user p ∉ l)) p end
  else Some p.
(** 05_filter_bad_resources.py *)
Definition bad_resources : list string := ["type"; "state"; "next_state"; "finaud_decision"; "next_finaud_decision"; "state_num";
  "suspended_jobs"; "besteffort"; "deploy"; "expiry_date"; "desktop_computing"; "last_job_date"; "available_upto"; "scheduler_priority"]%string.
Definition r05 : rule := fun _ p => refuse_if (existsb (fun n => bool_decide (n ∈ bad_resources)) (asked_names p)) p.
(** 06_besteffort_formatting.py *)
Definition r06 : rule := fun _ p =>
  let p := if has_type "besteffort" p && bool_decide (p_queue p <> Some "besteffort"%string) then set_queue p (Some "besteffort"%string) else p in
  let p := if bool_decide (p_queue p = Some "besteffort"%string) && negb (has_type "besteffort" p) then set_types p (p_types p ++ ["besteffort"%string]) else p in
  Some (if has_type "besteffort" p then set_props p (wrap (p_props p) [TAtom "besteffort = 'YES'"%string]) else p).
(** 07_besteffort_advance_reservation.py *)
Definition r07 : rule := fun _ p => refuse_if (has_type "besteffort" p && negb (p_resa p =? 0)) p.
(** 08_deploy_formatting.py *)
Definition r08 : rule := fun _ p => Some (if has_type "deploy" p then set_props p (wrap (p_props p) [TAtom "deploy = 'YES'"%string]) else p).
(** 09_prevent_deploy_on_non-entire_nodes.py *)
Definition parts_of_nodes : list string := ["core"; "cpu"; "thread"; "resource_id"]%string.
Definition r09 : rule := fun _ p => refuse_if (has_type "deploy" p && existsb (fun n => bool_decide (n ∈ parts_of_nodes)) (asked_names p)) p.
(** 11_advance_reservation_limitation.py: re.search(user, line); a user name is made of letters, digits, _ and - *)
Fixpoint prefix_of (x s : string) : bool :=
  match x, s with EmptyString, _ => true | String c x', String d s' => Ascii.eqb c d && prefix_of x' s' | _, _ => false end.
Fixpoint search (x s : string) : bool := prefix_of x s || match s with EmptyString => false | String _ s' => search x s' end.
Definition waiting_resa (u : string) (j : string * string * string) : bool :=
  bool_decide (j.1.1 = u) && bool_decide (j.1.2 ∈ ["toSchedule"; "Schedule"]%string) && bool_decide (j.2 ∈ ["Waiting"; "Hold"]%string).
Definition r11 : rule := fun e p =>
  if p_resa p =? 0 then Some p
  else if existsb (search (p_user p)) (unlimited e) then Some p
  else refuse_if (2 <=? Z.of_nat (length (filter (fun j => waiting_resa (p_user p) j = true) (job_rows e)))) p.
(** 13_default_walltime.py *)
Definition r13 : rule := fun _ p =>
  Some (set_req p ((fun r => (r.1, match r.2 with None => Some 7200 | Some w => if w =? 0 then Some 7200 else Some w end)) <$> p_req p)).
(** 14_interactive_max_walltime.py; after rule 13 every walltime is given *)
Definition r14 : rule := fun _ p =>
  Some (if bool_decide (p_job_type p = "INTERACTIVE"%string) && (p_resa p =? 0) then
    set_req p ((fun r => (r.1, match r.2 with Some w => if 43200 <? w then Some 43200 else Some w | None => None end)) <$> p_req p) else p).
(** 15_check_types.py: each expression ends with $, which also matches before a final newline *)
Definition word_char (c : ascii) : bool := let n := N_of_ascii c in
  (((48 <=? n) && (n <=? 57)) || ((65 <=? n) && (n <=? 90)) || ((97 <=? n) && (n <=? 122)) || (n =? 95))%N.
Fixpoint word (s : string) : bool := match s with EmptyString => true | String c s' => word_char c && word s' end.
Fixpoint after_prefix (x s : string) : option string :=
  match x, s with EmptyString, _ => Some s | String c x', String d s' => if Ascii.eqb c d then after_prefix x' s' else None | _, _ => None end.
Definition named (x t : string) : bool := match after_prefix x t with Some s => word s && negb (bool_decide (s = ""%string)) | None => false end.
Definition plain_types : list string := ["container"; "deploy"; "deploy=standby"; "desktop_computing"; "besteffort"; "cosystem"; "cosystem=standby"; "idempotent";
  "timesharing=*,*"; "timesharing=*,name"; "timesharing=user,*"; "timesharing=user,name"; "timesharing=*,user"; "timesharing=name,*"; "timesharing=name,user"]%string.
Definition type_form (t : string) : bool :=
  bool_decide (t ∈ plain_types) || named "container=" t || named "placeholder=" t || named "allowed=" t || named "inner=" t.
Definition newline : ascii := ascii_of_nat 10.
Fixpoint chop (s : string) : string :=
  match s with EmptyString => EmptyString | String c EmptyString => if Ascii.eqb c newline then EmptyString else s | String c s' => String c (chop s') end.
Definition type_ok (t : string) : bool := type_form t || type_form (chop t).
Definition r15 : rule := fun _ p => refuse_if (existsb (fun t => negb (type_ok t)) (p_types p)) p.

Fixpoint apply_rules (l : list rule) (e : env) (p : params) : option params :=
  match l with [] => Some p | r :: l' => match r e p with None => None | Some p' => apply_rules l' e p' end end.
Definition the_rules : list rule := [r01; r02; r03; r04; r05; r06; r07; r08; r09; r11; r13; r14; r15].
Definition admit (e : env) (p : params) : option params := apply_rules the_rules e p.
(** submission.py:1399-1423 and 930-941: [quotas]: QUOTAS == "yes"; [queues]: names of the existing queues *)
Fixpoint remove_first (t : string) (l : list string) : list string :=
  match l with [] => [] | x :: l' => if bool_decide (x = t) then l' else x :: remove_first t l' end.
Definition submit (quotas : bool) (queues : list string) (e : env) (p : params) : option params :=
  let p := if quotas then set_types p (remove_first "no_quotas" (p_types p)) else p in
  match admit e p with
  | None => None
  | Some p =>
      if match p_queue p with Some q => bool_decide (q ∈ queues) | None => false end then
        let p := if quotas && bool_decide (p_queue p = Some "admin"%string) then set_types p (p_types p ++ ["no_quotas"%string]) else p in
        Some (match p_after p with [] => p | a => set_props p (wrap (p_props p) a) end)
      else None
  end.
(** What the scheduler asks the database for a group of an admitted job. *)
Definition group_filter (p : params) (g : group) : list tok := join (p_props p) (g_prop g).

(** ** The files of rules: submission.py:313-331, names chosen by ^\d+_.*, sorted as texts, put end to end *)
Definition is_digit (c : ascii) : bool := let n := N_of_ascii c in ((48 <=? n) && (n <=? 57))%N.
Fixpoint digits_of (s : string) : string := match s with String c s' => if is_digit c then String c (digits_of s') else EmptyString | EmptyString => EmptyString end.
Fixpoint skip_digits (s : string) : string := match s with String c s' => if is_digit c then skip_digits s' else s | EmptyString => EmptyString end.
Definition is_rule (name : string) : bool :=
  negb (bool_decide (digits_of name = ""%string)) && match skip_digits name with String c _ => Ascii.eqb c "_"%char | EmptyString => false end.
Definition name_le (a b : string * string) : Prop := String.leb a.1 b.1 = true.
Global Instance name_le_dec a b : Decision (name_le a b).
Proof. unfold name_le. apply _. Defined.
Definition chosen (files : list (string * string)) : list (string * string) := filter (fun f => is_rule f.1 = true) (merge_sort name_le files).
Definition rules_text (files : list (string * string)) : string := String.concat "" (chosen files).*2.
