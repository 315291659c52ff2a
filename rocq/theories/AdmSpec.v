(** Vocabulary of C152-C160. *)
From Verif Require Import Base CondProps AdmModel.
From Coq Require Import Ascii.

(** The text of a condition (the trees and their meaning are those of C100: AND binds tighter than OR). *)
Fixpoint print_item (i : item) : list tok :=
  match i with Atom s => [TAtom s] | And => [TAnd] | Or => [TOr] | Par l => TOpen :: ((fix print (l : list item) := match l with [] => [] | i :: l' => print_item i ++ print l' end) l) ++ [TClose] end.
Definition print (c : cond) : list tok := i ← c; print_item i.
(** The database selects a resource [v] (the comparisons that hold of it). *)
Definition selects (v : string -> bool) (text : list tok) : Prop := exists c, print c = text /\ means v c = Some true.
(** A text with balanced parentheses, possibly empty. *)
Definition balanced (text : list tok) : Prop := exists c, print c = text.
(** A balanced text without OR outside parentheses, possibly empty. *)
Definition no_or (text : list tok) : Prop := exists c, print c = text /\ conjunctive c.

(** Histories of reservations of the default installation: a submission (accepted by the rules, or refused), the
    scheduler accepts the reservation of the n-th row, a row changes its state, other than coming back to Waiting or Hold. *)
Definition row : Type := string * string * string.
Inductive happens (quotas : bool) (queues : list string) (grp : option (list string)) (un : list string) : list row -> list row -> Prop :=
| h_submit rows p p' s : s ∈ ["Waiting"; "Hold"]%string -> submit quotas queues (mkEnv grp un rows) p = Some p' ->
    happens quotas queues grp un rows (rows ++ [(p_user p, if (p_resa p =? 0)%Z then "None" else "toSchedule", s)]%string)
| h_accept rows i u r s : rows !! i = Some (u, r, s) -> happens quotas queues grp un rows (<[i := (u, "Scheduled"%string, s)]> rows)
| h_state rows i u r s s' : rows !! i = Some (u, r, s) -> (s' ∈ ["Waiting"; "Hold"]%string -> s ∈ ["Waiting"; "Hold"]%string) ->
    happens quotas queues grp un rows (<[i := (u, r, s')]> rows).
Definition reaches quotas queues grp un := rtc (happens quotas queues grp un).
(** Reservations of [u] that have not started. *)
Definition reservations (u : string) (which : list string) (rows : list row) : nat :=
  length (filter (fun j => j.1.1 = u /\ j.1.2 ∈ which /\ j.2 ∈ ["Waiting"; "Hold"]%string) rows).

(** The types of the rule, in the words of the documentation. *)
Definition name_chars : list ascii := list_ascii_of_string "ABCDEFGHIJKLMNOPQRSTUVWXYZabcdefghijklmnopqrstuvwxyz0123456789_".
Definition name_only (s : string) : Prop := s <> ""%string /\ forall c, c ∈ list_ascii_of_string s -> c ∈ name_chars.
Inductive known_type : string -> Prop :=
| k_plain t : t ∈ ["container"; "deploy"; "deploy=standby"; "desktop_computing"; "besteffort"; "cosystem"; "cosystem=standby"; "idempotent"]%string -> known_type t
| k_sharing a b : (a, b) ∈ [("*","*");("*","name");("user","*");("user","name");("*","user");("name","*");("name","user")]%string -> known_type ("timesharing=" ++ a ++ "," ++ b)
| k_named k s : k ∈ ["container"; "placeholder"; "allowed"; "inner"]%string -> name_only s -> known_type (k ++ "=" ++ s).
Definition system_names : list string := ["type"; "state"; "next_state"; "finaud_decision"; "next_finaud_decision"; "state_num";
  "suspended_jobs"; "besteffort"; "deploy"; "expiry_date"; "desktop_computing"; "last_job_date"; "available_upto"; "scheduler_priority"]%string.
Definition inside_nodes : list string := ["core"; "cpu"; "thread"; "resource_id"]%string.
(** A resource type asked for, in some description of the job. *)
Definition asks_for (p : params) (n : string) : Prop := exists r g k, r ∈ p_req p /\ g ∈ r.1 /\ (n, k) ∈ g_res g.
(** A file name made of digits (at least one), an underscore and anything: its number. *)
Definition decimal : list ascii := list_ascii_of_string "0123456789".
Definition numbered (name ds : string) : Prop := ds <> ""%string /\ (forall c, c ∈ list_ascii_of_string ds -> c ∈ decimal) /\ exists rest, name = (ds ++ String "_" rest)%string.
Definition digit_value (c : ascii) : Z := Z.of_N (N_of_ascii c) - 48.
Fixpoint value_from (acc : Z) (s : string) : Z := match s with EmptyString => acc | String c s' => value_from (10 * acc + digit_value c) s' end.
Definition value (ds : string) : Z := value_from 0 ds.
