(** oarstat (oar/cli/oarstat.py:43-182, 215-331, 438-556, 584-759) but for --accounting (AcctRepModel) and the choice of the jobs in the table
    (ListModel), with the queries it uses.  No proofs here.  Left out: the layout of the tables, the options -V and -u (C225), click.  A job is
    shown through [cell], its column of a name as a text. *)
From Coq Require Import Ascii.
From Verif Require Import Base TimeModel ReqModel ConfModel AdmModel AcctRepModel.

(** The columns used. *)
Record sjob := mkSjob { o_id : Z; o_user : string; o_state : string; o_start : Z; o_stop : Z; o_mld : Z; o_array : Z; o_code : option Z }.
Record sevent := mkSevent { v_job : Z; v_date : Z; v_type : string; v_desc : string }.
Record sres := mkSres { e_id : Z; e_host : string; e_props : list (string * string) }.
Record sdb := mkSdb { s_jobs : list sjob; s_events : list sevent; s_assigned : list (Z * Z); (** moldable, resource *) s_resources : list sres }.

(** ** The queries *)
Definition id_le (a b : sjob) : Prop := o_id a <= o_id b.
Global Instance id_le_dec a b : Decision (id_le a b).
Proof. unfold id_le. apply _. Defined.
(** get_array_job_ids, job_handling.py:1456-1462 *)
Definition array_ids (d : sdb) (a : Z) : list Z := o_id <$> merge_sort id_le (filter (fun j => o_array j = a) (s_jobs d)).
(** get_jobs_state, job_handling.py:2688-2696 *)
Definition jobs_state (d : sdb) (ids : list Z) : list (Z * string) :=
  (fun j => (o_id j, o_state j)) <$> merge_sort id_le (filter (fun j => o_id j ∈ ids) (s_jobs d)).
(** get_jobs_events, event.py:71-79; [order]: ORDER BY job_id, date. *)
Definition jobs_events (order : list sevent -> list sevent) (d : sdb) (ids : list Z) : list sevent :=
  order (filter (fun e => v_job e ∈ ids) (s_events d)).
(** get_job_resources_properties, job_handling.py:2675-2685: a row for each row of the join. *)
Definition res_le (a b : sres) : Prop := e_id a <= e_id b.
Global Instance res_le_dec a b : Decision (res_le a b).
Proof. unfold res_le. apply _. Defined.
Definition job_resources (d : sdb) (id : Z) : list sres :=
  merge_sort res_le (j ← filter (fun j => o_id j = id) (s_jobs d); a ← filter (fun a => fst a = o_mld j) (s_assigned d); filter (fun r => e_id r = snd a) (s_resources d)).

(** ** -s, -e, -p *)
(** What is printed: "No job ids specified", or lines. *)
Inductive said (A : Type) := NoIds | Said (x : A).
Arguments NoIds {A}. Arguments Said {A}.
(** if array_id: ...; if job_ids: ... *)
Definition ids_of (d : sdb) (ids : list Z) (array : Z) : list Z := if array =? 0 then ids else array_ids d array.
Definition with_ids {A} (ids : list Z) (f : list Z -> A) : said A := match ids with [] => NoIds | _ => Said (f ids) end.
(** print_state, oarstat.py:527-547: the lines, and the dictionary of JSON and YAML. *)
Definition print_state (d : sdb) (ids : list Z) (array : Z) : said (list (Z * string)) := with_ids (ids_of d ids array) (jobs_state d).
Definition state_dict (d : sdb) (ids : list Z) (array : Z) : said (list (string * string)) :=
  with_ids (ids_of d ids array) (fun ids => foldl (fun m x => put (str x.1) (fun _ => x.2) m) [] (jobs_state d ids)).
(** print_events, oarstat.py:438-477 *)
Definition print_events (order : list sevent -> list sevent) (d : sdb) (ids : list Z) (array : Z) : said (list sevent) :=
  with_ids (ids_of d ids array) (jobs_events order d).
Definition events_dict (order : list sevent -> list sevent) (d : sdb) (ids : list Z) (array : Z) : said (list (string * list (Z * string * string))) :=
  with_ids (ids_of d ids array) (fun ids =>
    foldl (fun m e => put (str (v_job e)) (fun o => (match o with Some l => l | None => [] end) ++ [(v_date e, v_type e, v_desc e)]) m) [] (jobs_events order d ids)).
(** check_resource_system_property, tools.py:781-799 *)
Definition system_property (p : string) : bool :=
  bool_decide (p ∈ ["resource_id"; "state"; "state_num"; "next_state"; "finaud_decision"; "next_finaud_decision"; "last_job_date"; "suspended_jobs"; "expiry_date"; "scheduler_priority"]%string).
Definition shown_props (r : sres) : list (string * string) := filter (fun x => system_property x.1 = false) (e_props r).
(** print_properties, oarstat.py:480-524: the dictionary, with the jobs as keys; without a format, its values one after the other. *)
Definition props_dict (d : sdb) (ids : list Z) (array : Z) : said (list (string * list (list (string * string)))) :=
  with_ids (ids_of d ids array) (fun ids =>
    foldl (fun m x => put (str x.1) (fun o => (match o with Some l => l | None => [] end) ++ [shown_props x.2]) m) []
      (id ← ids; (fun r => (id, r)) <$> job_resources d id)).
Definition props_lines (d : sdb) (ids : list Z) (array : Z) : said (list (list (string * string))) :=
  match props_dict d ids array with NoIds => NoIds | Said m => Said (mjoin m.*2) end.

(** ** The exit code: convert_status_code, job_handling.py:2030-2040 *)
Definition status_code (code : option Z) : option Z :=
  match code with
  | None => None
  | Some c => if negb (Z.shiftr c 8 =? 0) then Some (Z.shiftr c 8) else Some (Z.land c 127) end.

(** ** The duration: oarstat.py:118-131 and 163-176 *)
Definition duration (now : Z) (j : sjob) : Z :=
  if negb (o_start j =? 0) && (o_start j <? now) then
    if bool_decide (o_state j ∈ ["Running"; "Launching"; "Finishing"]%string) then now - o_start j
    else if negb (o_stop j =? 0) then o_stop j - o_start j else -1
  else -1.
(** str(datetime.timedelta(seconds=n)) *)
Definition two (n : Z) : string := if n <? 10 then ("0" +:+ str n)%string else str n.
Definition timedelta (n : Z) : string :=
  let days := n / 86400 in let s := n mod 86400 in
  ((if (days =? 0)%Z then "" else str days +:+ (if (days =? 1)%Z then " day, " else " days, "))
   +:+ str (s / 3600)%Z +:+ ":" +:+ two (s / 60 mod 60)%Z +:+ ":" +:+ two (s mod 60)%Z)%string.
Definition duration_text (now : Z) (j : sjob) : string := if 0 <=? duration now j then timedelta (duration now j) else "-"%string.

(** ** The columns *)
(** parse_field_label, oarstat.py:64-103.  [cols]: the names of the columns of the table jobs and the attributes of Job (their names but for
    some).  [inl 1]: an error, with status 1; an unknown column: KeyError; no field at all: RuntimeError. *)
Definition field_of (f : string) : option (string * string) :=
  match split_on ":"%char f with [a] => Some (a, a) | [a; b] => Some (a, b) | _ => None end.
Fixpoint parse_fields (cols : list (string * string)) (l : list string) (m : list (string * string)) : res (Z + list (string * string)) :=
  match l with
  | [] => Ok (inr m)
  | f :: l' =>
      if bool_decide (f = ""%string) then Ok (inl 1)
      else match field_of f with
           | Some (name, label) =>
               if bool_decide (name = "Duration"%string) then parse_fields cols l' (put "Duration" (fun _ => label) m)
               else match look name cols with
                    | None => Err EKey
                    | Some attr => parse_fields cols l' (put attr (fun _ => label) m) end
           | None => Ok (inl 1) end
  end.
Definition field_labels (cols : list (string * string)) (text : string) : res (Z + list (string * string)) :=
  if bool_decide (text = ""%string) then Err EType else parse_fields cols (split_on ","%char text) [].
(** get_table_lines_fields, oarstat.py:158-182: the header, then a line for each job. *)
Definition table (cell : sjob -> string -> string) (now : Z) (m : list (string * string)) (jobs : list sjob) : list (list string) :=
  m.*2 :: ((fun j => (fun f => if bool_decide (f = "Duration"%string) then duration_text now j else cell j f) <$> m.*1) <$> jobs).

(** ** The request: format_actual_request, tools.py:992-1004; a row: property, type, value, as get_actual_requests gives them. *)
Fixpoint request_text (rows : list (string * string * Z)) (prop : string) (acc : string) : string :=
  match rows with
  | [] => acc
  | (p, t, v) :: rows' =>
      let '(prop, acc) := if negb (bool_decide (p = ""%string)) && negb (bool_decide (prop = p))
                          then (p, acc +:+ (if bool_decide (acc = ""%string) then "" else "+") +:+ "{" +:+ p +:+ "}")%string else (prop, acc) in
      request_text rows' prop (acc +:+ "/" +:+ t +:+ "=" +:+ str v)%string end.
Definition format_actual_request (rows : list (string * string * Z)) : string := request_text rows "" "".

(** ** The command: oarstat.py:680-759 *)
(** The period of --gantt has the form of oarstat.py:727, or not: m.group of None raises AttributeError. *)
Record sopts := mkSopts { so_ids : list Z; so_array : Z; so_events : bool; so_props : bool; so_state : bool; so_full : bool; so_resources : bool;
  so_gantt : option bool; so_fields : string }.
Inductive sout :=
  | Conflict (** status 1 *) | States (x : said (list (Z * string))) | Events (x : said (list sevent)) | Props (x : said (list (list (string * string))))
  | Bad (v : Z) | Table (lines : list (list string)) | Full (l : list (sjob * list string)) (** each job with its hosts *).
(** get_assigned_jobs_resources, basequery.py:238-254, oarstat.py:259-267: the hosts of a job; NodeSet.fromlist keeps one of each (its text, folded,
    is left out). *)
Definition job_hosts (d : sdb) (id : Z) : list string := remove_dups (e_host <$> job_resources d id).
(** [sel]: the jobs of get_jobs_for_user; no format is asked for. *)
Definition oarstat (order : list sevent -> list sevent) (cell : sjob -> string -> string) (cols : list (string * string)) (default_fields : string) (now : Z)
    (d : sdb) (sel : list sjob) (o : sopts) : res sout :=
  if negb (bool_decide (so_ids o = [])) && negb (so_array o =? 0) then Ok Conflict
  else if so_events o then Ok (Events (print_events order d (so_ids o) (so_array o)))
  else if so_props o then Ok (Props (props_lines d (so_ids o) (so_array o)))
  else if so_state o then Ok (States (print_state d (so_ids o) (so_array o)))
  else if bool_decide (so_gantt o = Some false) then Err EAttr
  else
    m <-- field_labels cols (if bool_decide (so_fields o = ""%string) then default_fields else so_fields o) ;;
    match m with
    | inl v => Ok (Bad v)
    | inr m => if so_full o then Ok (Full ((fun j => (j, job_hosts d (o_id j))) <$> sel)) else Ok (Table (table cell now m sel)) end.
(** The status: that of the message. *)
Definition sout_status (x : sout) : Z := match x with Conflict => 1 | Bad v => v | _ => 0 end.
