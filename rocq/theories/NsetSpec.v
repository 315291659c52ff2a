(** Vocabulary of C161-C167. *)
From Verif Require Import Base ReqModel NsetModel.
From Coq Require Import Ascii.

(** The resource of a number, and one of its columns. *)
Definition rsc_of (d : db) (i : Z) : option rsc := head (filter (fun r => r_id r = i) (rscs d)).
Definition val (d : db) (i : Z) (n : string) : option string := match rsc_of d i with Some r => r_val r n | None => None end.
Definition exists_in (d : db) (i : Z) : Prop := i ∈ r_id <$> rscs d.
Definition unique (d : db) : Prop := NoDup (r_id <$> rscs d).

(** What a command leaves in the database: its last commit. *)
Definition after (d : db) (s : run) : db := default d (head (commits s)).
(** The fixed part: the columns, the defaults of a new row, the name of the machine. *)
Record site := mkSite { cols : list string; defaults : string -> option string; here : string }.
Definition command (x : site) (now : Z) (o : opts) (d : db) : run := nodesetting now (cols x) (defaults x) (here x) o d.
(** A history: commands with their dates. *)
Notation history := (list (Z * opts)).
Fixpoint replay (x : site) (h : history) (d : db) : db :=
  match h with [] => d | (now, o) :: h' => replay x h' (after d (command x now o d)) end.
Definition ordered (h : history) : Prop := StronglySorted Z.le h.*1 /\ Forall (fun t => 0 < t) h.*1.
Definition until (t : Z) (h : history) : history := filter (fun c => c.1 <= t) h.
(** The names written before an equal sign by -p. *)
Definition names (o : opts) (n : string) : Prop := exists p v, p ∈ o_props o /\ split_on "="%char (lstrip p) = [n; v].
(** The command is about the resource [i]. *)
Definition about (x : site) (o : opts) (d : db) (i : Z) : Prop :=
  o_add o = false /\ match o_resources o with
  | [] => exists r, rsc_of d i = Some r /\ r_addr r ∈ match o_hosts o with [] => [here x] | l => l end
  | l => i ∈ l end.

(** The log says, of date [t], these values of [n] for the resource [i]. *)
Definition recorded (i : Z) (n : string) (t : Z) (d : db) : list string :=
  l_val <$> filter (fun g => l_res g = i /\ l_attr g = n /\ l_start g <= t /\ (l_stop g = 0 \/ t < l_stop g)) (logs d).
(** A column whose changes are to be recorded: not one of those the server keeps for itself. *)
Definition server_columns : list string := ["resource_id"; "state"; "state_num"; "next_state"; "finaud_decision"; "next_finaud_decision";
  "last_job_date"; "suspended_jobs"; "expiry_date"; "scheduler_priority"]%string.
Definition property_name (n : string) : Prop := n ∉ server_columns /\ n <> "maintenance"%string /\ n <> "id"%string.
(** No command changes the identifiers of resources (-p id=...). *)
Definition plain (h : history) : Prop := forall c, c ∈ h -> ~ names c.2 "id"%string.
(** No command of the history sets by -p the two dates, the identifier, or a column called maintenance. *)
Definition dates_alone (o : opts) : Prop := forall n, names o n -> n ∉ ["id"; "available_upto"; "last_available_upto"; "maintenance"]%string.
(** A resource available up to [u] and not under maintenance, on a site with the columns of the dates. *)
Record available (x : site) (u : string) (d : db) (i : Z) : Prop := {
  av_cols : "available_upto"%string ∈ cols x /\ "last_available_upto"%string ∈ cols x;
  av_text : u <> "0"%string /\ "="%char ∉ list_ascii_of_string u;
  av_unique : unique d; av_exists : exists_in d i;
  av_date : val d i "available_upto" = Some u;
  av_last : val d i "last_available_upto" = Some "0"%string \/ val d i "last_available_upto" = Some u;
  av_free : forall g, g ∈ logs d -> ~ (l_res g = i /\ l_attr g = "maintenance"%string) }.
(** The hosts of a command. *)
Definition hosts_of (x : site) (o : opts) : list string := match o_hosts o with [] => [here x] | l => l end.
(** The texts of -p, and the one of --drain. *)
Definition texts_of (o : opts) : list string :=
  o_props o ++ match o_drain o with Some true => ["drain=YES"%string] | Some false => ["drain=NO"%string] | None => [] end.
(** [v] is the only value given to [n]. *)
Definition gives (o : opts) (n v : string) : Prop :=
  (exists p, p ∈ texts_of o /\ split_on "="%char (lstrip p) = [n; v]) /\ (forall p v', p ∈ texts_of o -> split_on "="%char (lstrip p) = [n; v'] -> v' = v).
