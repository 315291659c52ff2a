(** Vocabulary of the properties of oarstat. *)
From Verif Require Import Base TimeModel ReqModel ReqSpec ConfModel AdmModel AcctRepModel StatModel.

(** No two jobs with the same id: job_id is the primary key. *)
Definition jobs_ok (d : sdb) : Prop := NoDup (o_id <$> s_jobs d).
(** The jobs asked for: those of the array when one is given, else those of -j. *)
Definition asked (d : sdb) (ids : list Z) (array : Z) (id : Z) : Prop :=
  if decide (array = 0) then id ∈ ids else exists j, j ∈ s_jobs d /\ o_id j = id /\ o_array j = array.
(** The database sorts the events by job, then by date, those of the same date in any order. *)
Definition event_before (a b : sevent) : Prop := v_job a < v_job b \/ v_job a = v_job b /\ v_date a <= v_date b.
Definition by_job_and_date (order : list sevent -> list sevent) : Prop := forall l, order l ≡ₚ l /\ StronglySorted event_before (order l).
(** A resource is assigned to a job when a row holds the moldable description the job was given. *)
Definition assigned_to (d : sdb) (id : Z) (r : sres) : Prop :=
  r ∈ s_resources d /\ exists j, j ∈ s_jobs d /\ o_id j = id /\ (o_mld j, e_id r) ∈ s_assigned d.
(** Primary keys of the jobs, the resources and the assignments. *)
Definition tables_ok (d : sdb) : Prop := jobs_ok d /\ NoDup (e_id <$> s_resources d) /\ NoDup (s_assigned d).
(** The resources of a job, each once, by id. *)
Definition resources_of (d : sdb) (id : Z) (l : list sres) : Prop :=
  NoDup l /\ StronglySorted (fun a b => e_id a <= e_id b) l /\ forall r, r ∈ l <-> assigned_to d id r.
(** The status of a process, as wait(2) gives it: it ended with exit(v), or signal s killed it, with or without a core. *)
Definition exited (v : Z) : Z := 256 * v.
Definition killed (s : Z) (core : bool) : Z := s + if core then 128 else 0.
(** Seconds written as days, hours, minutes, seconds. *)
Definition clock (n d h m s : Z) : Prop := n = 86400 * d + 3600 * h + 60 * m + s /\ 0 <= h < 24 /\ 0 <= m < 60 /\ 0 <= s < 60.
(** A column asked for as "name" or "name:label". *)
Definition field_text (f name label : string) : Prop :=
  lacks [":"%char; ","%char] name /\ lacks [":"%char; ","%char] label /\ name <> ""%string /\
  (f = name /\ label = name \/ f = (name +:+ ":" +:+ label)%string).
(** The column of that name. *)
Definition column (cols : list (string * string)) (name attr : string) : Prop :=
  name = "Duration"%string /\ attr = "Duration"%string \/ name <> "Duration"%string /\ look name cols = Some attr.
(** A request: groups, each with its property and its levels (type, value). *)
Definition group : Type := string * list (string * Z).
Definition rows_of (gs : list group) : list (string * string * Z) := g ← gs; (fun x => (g.1, x.1, x.2)) <$> g.2.
Fixpoint levels_text (l : list (string * Z)) : string := match l with [] => "" | (t, v) :: l' => "/" +:+ t +:+ "=" +:+ str v +:+ levels_text l' end.
(** The groups, each as "{property}/type=value...", with a "+" between two. *)
Definition group_text (g : group) : string := ((if bool_decide (g.1 = "") then "" else "{" +:+ g.1 +:+ "}") +:+ levels_text g.2)%string.
Fixpoint groups_text (gs : list group) : string :=
  match gs with [] => "" | [g] => group_text g | g :: gs' => group_text g +:+ "+" +:+ groups_text gs' end.
(** A time of the clock: hours, minutes and seconds of a day, after the days if there are any. *)
Definition days_text (d : Z) : string := if decide (d = 0) then "" else if decide (d = 1) then "1 day, " else (str d +:+ " days, ")%string.
(** A number below 100 in two figures. *)
Definition two_figures (n : Z) : string := (str (n / 10) +:+ str (n mod 10))%string.
Definition clock_text (d h m s : Z) : string := (days_text d +:+ str h +:+ ":" +:+ two_figures m +:+ ":" +:+ two_figures s)%string.
(** The fields, with a comma between two. *)
Fixpoint comma_text (l : list string) : string := match l with [] => "" | [f] => f | f :: l' => (f +:+ "," +:+ comma_text l')%string end.
(** The state of a job that is over, or on its resources. *)
Definition over (j : sjob) : Prop := o_state j ∈ ["Terminated"; "Error"]%string.
Definition on_resources (j : sjob) : Prop := o_state j ∈ ["Launching"; "Running"; "Finishing"]%string.
