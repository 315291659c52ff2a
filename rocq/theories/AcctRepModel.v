(** The reports of oarstat --accounting: oar/lib/accounting.py:21-106 and 332-349, oar/cli/oarstat.py:184-213, 334-437.  No proofs here.
    The table is that of AcctModel.  Left out: the layout and the durations printed beside the seconds (C30), sqlite (NotImplementedError), the
    parameters limit and offset, which no program gives.  A SQL condition (-S) is a predicate on rows; a user name holds no quote. *)
From Verif Require Import Base ReqModel AdmModel FrontModel LaunchModel AcctModel.
From Coq Require Import Ascii.

(** ** Dictionaries: the keys in the order in which they were first given. *)
Fixpoint look {A} (k : string) (d : list (string * A)) : option A :=
  match d with [] => None | (k', v) :: d' => if bool_decide (k = k') then Some v else look k d' end.
(** d[k] = f(d.get(k)) *)
Fixpoint put {A} (k : string) (f : option A -> A) (d : list (string * A)) : list (string * A) :=
  match d with
  | [] => [(k, f None)]
  | (k', v) :: d' => if bool_decide (k = k') then (k', f (Some v)) :: d' else (k', v) :: put k f d' end.

(** ** The two queries *)
Definition add_up (l : list Z) : Z := foldr Z.add 0 l.
Definition lowest (l : list Z) : Z := match l with [] => 0 | x :: l' => foldr Z.min x l' end.
Definition highest (l : list Z) : Z := match l with [] => 0 | x :: l' => foldr Z.max x l' end.
(** The condition WHERE of both; [u] is empty when no user is asked for. *)
Definition period (d1 d2 : Z) (u : string) (p : arow -> bool) (T : list arow) : list arow :=
  filter (fun r => d1 < a_stop r /\ a_start r < d2 /\ (u = ""%string \/ a_user r = u) /\ p r = true) T.
(** The groups of the first: user, type, seconds, first_window_start, last_window_stop. *)
Record sumrow := mkSum { s_user : string; s_type : string; s_secs : Z; s_first : Z; s_last : Z }.
Definition sum_of (T : list arow) (k : string * string) : sumrow :=
  let G := filter (fun r => (a_user r, a_type r) = k) T in
  mkSum k.1 k.2 (add_up (a_cons <$> G)) (lowest (a_start <$> G)) (highest (a_stop <$> G)).
Definition sums (T : list arow) : list sumrow := sum_of T <$> remove_dups ((fun r => (a_user r, a_type r)) <$> T).
(** What is kept for a user: results[user], with "begin" and "end". *)
Record ucons := mkU { u_cons : list (string * Z); u_begin : Z; u_end : Z }.
Definition add_sum (d : list (string * ucons)) (x : sumrow) : list (string * ucons) :=
  put (s_user x) (fun o => mkU (put (s_type x) (fun _ => s_secs x) (match o with Some c => u_cons c | None => [] end)) (s_first x) (s_last x)) d.
(** get_accounting_summary, accounting.py:21-66.  [order]: the order in which the database gives the groups (ORDER BY seconds). *)
Definition summary (order : list sumrow -> list sumrow) (d1 d2 : Z) (u : string) (p : arow -> bool) (T : list arow) : list (string * ucons) :=
  foldl add_sum [] (order (sums (period d1 d2 u p T))).

(** The groups of the second: user, type, seconds, project. *)
Record psum := mkPsum { p_user : string; p_type : string; p_secs : Z; p_project : string }.
Definition psum_of (T : list arow) (k : string * string * string) : psum :=
  mkPsum k.1.1 k.2 (add_up (a_cons <$> filter (fun r => (a_user r, a_project r, a_type r) = k) T)) k.1.2.
Definition psums (T : list arow) : list psum := psum_of T <$> remove_dups ((fun r => (a_user r, a_project r, a_type r)) <$> T).
Definition add_psum (d : list (string * list (string * list (string * Z)))) (x : psum) : list (string * list (string * list (string * Z))) :=
  put (p_project x) (fun o => put (p_type x) (fun o => put (p_user x) (fun _ => p_secs x) (match o with Some m => m | None => [] end))
    (match o with Some m => m | None => [] end)) d.
(** get_accounting_summary_byproject, accounting.py:69-106; the order is by project, then type, then seconds. *)
Definition summary_byproject (order : list psum -> list psum) (d1 d2 : Z) (u : string) (T : list arow) : list (string * list (string * list (string * Z))) :=
  foldl add_psum [] (order (psums (period d1 d2 u (fun _ => true) T))).

(** ** The last Karma *)
(** The columns of jobs used; [k_message]: the message of the scheduler. *)
Record kjob := mkKjob { k_user : string; k_project : string; k_start : Z; k_message : string }.
(** ORDER BY start_time desc LIMIT 1; which of several jobs with the same start is not said: the first one here. *)
Fixpoint latest (l : list kjob) : option kjob :=
  match l with
  | [] => None
  | j :: l' => match latest l' with Some j' => if k_start j <? k_start j' then Some j' else Some j | None => Some j end end.
(** get_last_project_karma, accounting.py:332-349 *)
Definition last_karma (jobs : list kjob) (u pr : string) (date : Z) : string :=
  match latest (filter (fun j => k_user j = u /\ contains "Karma" (k_message j) = true /\ k_project j = pr /\ k_start j < date) jobs) with
  | Some j => k_message j | None => ""%string end.
(** All the digits at the beginning of a text. *)
Fixpoint lead_digits (s : string) : string * string :=
  match s with String c s' => if is_digit c then let '(d, r) := lead_digits s' in (String c d, r) else (""%string, s) | EmptyString => (""%string, ""%string) end.
(** Karma\s*\=\s*(\d+\.\d+), at this place *)
Definition karma_here (s : string) : option string :=
  if String.prefix "Karma" s then
    match take_char "=" (lstrip (substring 5 (String.length s - 5) s)) with
    | Some r => let '(a, r) := lead_digits (lstrip r) in
        match take_char "." r with
        | Some r => let '(b, _) := lead_digits r in if bool_decide (a <> ""%string /\ b <> ""%string) then Some (a +:+ "." +:+ b)%string else None
        | None => None end
    | None => None end
  else None.
(** re.match(r".*Karma\s*\=\s*(\d+\.\d+)"), oarstat.py:427: the last place on the first line. *)
Fixpoint karma_text (s : string) : option string :=
  match s with
  | EmptyString => None
  | String c s' =>
      match (if Ascii.eqb c "010" then None else karma_text s') with
      | Some k => Some k | None => karma_here s end end.

(** ** print_accounting *)
(** \s*(\d{4}\-\d{1,2}\-\d{1,2})\s*,\s*(\d{4}\-\d{1,2}\-\d{1,2})\s* of oarstat.py:337, with re.match: what follows does not matter. *)
Definition dates_of (s : string) : option (list Z) :=
  field 4 4 (take_char "-") (lstrip s) (fun y r => field 1 2 (take_char "-") r (fun m r => field 1 2 (fun r => take_char "," (lstrip r)) r (fun d r =>
  field 4 4 (take_char "-") (lstrip r) (fun y' r => field 1 2 (take_char "-") r (fun m' r => field 1 2 Some r (fun d' _ => Some [y; m; d; y'; m'; d'])))))).
(** sql_to_local, tools.py:652-658, of a date at 00:00:00; [mk]: time.mktime. *)
Definition midnight (mk : list Z -> Z) (y m d : Z) : res Z := if date_exists [y; m; d; 0; 0; 0] then Ok (mk [y; m; d; 0; 0; 0]) else Err EValue.

(** A line: user, first window, last window, asked, used. *)
Record aline := mkLine { l_who : string; l_begin : Z; l_end : Z; l_asked : Z; l_used : Z }.
Definition none0 (o : option Z) : Z := match o with Some v => v | None => 0 end.
Definition line_of (x : string * ucons) : aline :=
  mkLine x.1 (u_begin x.2) (u_end x.2) (none0 (look "ASKED" (u_cons x.2))) (none0 (look "USED" (u_cons x.2))).
(** A project of the user: asked, used, the last Karma. *)
Record pline := mkPline { pl_project : string; pl_asked : Z; pl_used : Z; pl_karma : option string }.
Definition of_user (u ty : string) (m : list (string * list (string * Z))) : Z :=
  match look ty m with Some us => none0 (look u us) | None => 0 end.
Definition pline_of (jobs : list kjob) (u : string) (d2 : Z) (x : string * list (string * list (string * Z))) : pline :=
  mkPline x.1 (of_user u "ASKED" x.2) (of_user u "USED" x.2)
    (let k := last_karma jobs u x.1 d2 in if bool_decide (k = ""%string) then None else karma_text k).
(** What is shown: all the users, one of them with the projects, an unknown user, a text that is no period. *)
Inductive shown := ShownAll (ls : list aline) | ShownUser (l : aline) (ps : list pline) | NoSuchUser (u : string) | BadPeriod.
Definition status_shown (x : shown) : Z := match x with BadPeriod => 1 | _ => 0 end.
(** oarstat.py:334-437 and 184-213 *)
Definition print_accounting (order : list sumrow -> list sumrow) (porder : list psum -> list psum) (mk : list Z -> Z)
    (text u : string) (p : arow -> bool) (jobs : list kjob) (T : list arow) : res shown :=
  match dates_of text with
  | Some [y; m; d; y'; m'; d'] =>
      d1 <-- midnight mk y m d ;; d2 <-- midnight mk y' m' d' ;;
      let cs := summary order d1 d2 u p T in
      if bool_decide (u = ""%string) then Ok (ShownAll (line_of <$> cs))
      else match look u cs with
      | None => Ok (NoSuchUser u)
      | Some c => Ok (ShownUser (line_of (u, c)) (pline_of jobs u d2 <$> summary_byproject porder d1 d2 u T))
      end
  | _ => Ok BadPeriod
  end.
