(** What is said about oarsub and POST /jobs, without the functions of the model. *)
From Verif Require Import Base ReqModel AdmModel FrontModel.
From Coq Require Import Ascii.

(** An option is used on the command line when its value is not one of the values that stand for "not given". *)
Inductive absent : val -> Prop :=
  | absent_none : absent VNone | absent_flag : absent (VFlag false) | absent_text : absent (VText "") | absent_num : absent (VNum 0)
  | absent_texts : absent (VTexts []) | absent_nums : absent (VNums []).

(** The directives as the documentation of oarsub lists them, and what each one takes. *)
Inductive takes := text | texts | digits | list_of_digits | nothing.
Definition names (x : key) : list string :=
  match x with
  | KResource => ["-l"; "--resource"] | KQueue => ["-q"; "--queue"] | KProperties => ["-p"; "--property"] | KCheckpoint => ["--checkpoint"]
  | KNotify => ["--notify"] | KTypes => ["-t"; "--type"] | KDirectory => ["-d"; "--directory"] | KName => ["-n"; "--name"] | KProject => ["--project"]
  | KHold => ["--hold"] | KDeps => ["-a"; "--after"] | KSignal => ["--signal"] | KStdout => ["-O"; "--stdout"] | KStderr => ["-E"; "--stderr"]
  | KUseKey => ["-k"; "--use-job-key"] | KInline => ["--import-job-key-inline-priv"] | KFile => ["-i"; "--import-job-key-from-file"]
  | KExport => ["-e"; "--export-job-key-to-file"] | KStagein => ["-s"; "--stagein"] | KStageinMd5 => ["--stagein-md5sum"]
  | KArray => ["--array"] | KParams => ["--array-param-file"]
  end%string.
Definition argument (x : key) : takes :=
  match x with
  | KResource | KProperties | KTypes => texts
  | KDeps => list_of_digits
  | KCheckpoint | KSignal | KArray => digits
  | KHold | KUseKey => nothing
  | _ => text
  end.
Definition blank_char (c : ascii) : Prop := (9 <= nat_of_ascii c <= 13 \/ 28 <= nat_of_ascii c <= 32)%nat.
Definition every (P : ascii -> Prop) (s : string) : Prop := Forall P (list_ascii_of_string s).
Definition digit_char (c : ascii) : Prop := (48 <= nat_of_ascii c <= 57)%nat.
Definition good_value (t : takes) (v : string) : Prop :=
  match t with
  | text | texts => exists c s, v = String c s /\ ~ blank_char c /\ (forall s' d, v = (s' +:+ String d "")%string -> ~ blank_char d)
  | digits | list_of_digits => v <> ""%string /\ every digit_char v
  | nothing => v = ""%string
  end.
(** #OAR, blanks, the option, blanks or none, the value, blanks or none. *)
Definition directive (x : key) (v l : string) : Prop :=
  exists b s o s' s'', blank_char b /\ every blank_char s /\ o ∈ names x /\ every blank_char s' /\ every blank_char s'' /\ good_value (argument x) v
    /\ l = ("#OAR" +:+ String b s +:+ o +:+ s' +:+ v +:+ s'')%string.
(** The line is meant as a directive. *)
Definition addressed (l : string) : Prop := exists b s, blank_char b /\ l = ("#OAR" +:+ String b s)%string.
(** The values of the directives for [x], in order. *)
Inductive collected (x : key) : list string -> list string -> Prop :=
  | c_nil : collected x [] []
  | c_take v l ls vs : directive x v l -> collected x ls vs -> collected x (l :: ls) (v :: vs)
  | c_skip l ls vs : (forall v, ~ directive x v l) -> collected x ls vs -> collected x (l :: ls) vs.
(** The number a text of digits stands for. *)
Definition digit_value (c : ascii) : Z := Z.of_nat (nat_of_ascii c) - 48.
Definition number (s : string) : Z := fold_left (fun n c => 10 * n + digit_value c) (list_ascii_of_string s) 0.
(** The value the directives give. *)
Definition value_of (x : key) (vs : list string) : option val :=
  match argument x with
  | text => VText <$> last vs
  | digits => VNum ∘ number <$> last vs
  | nothing => if decide (vs = []) then None else Some (VFlag true)
  | texts => if decide (vs = []) then None else Some (VTexts vs)
  | list_of_digits => if decide (vs = []) then None else Some (VNums (number <$> vs))
  end.

(** The lines of the script the command names: the first word of the command. *)
Definition word_of (c f : string) : Prop :=
  exists s r, every blank_char s /\ f <> ""%string /\ every (fun a => ~ blank_char a) f /\ c = (s +:+ f +:+ r)%string
    /\ (r = ""%string \/ exists b r', blank_char b /\ r = String b r').
Definition lines_of (ls : list string) (t : string) : Prop := ls <> [] /\ Forall (every (fun a => a <> newline)) ls /\ t = String.concat (String newline "") ls.
Definition script_of (w : world) (l : line) (ls : list string) : Prop := exists c f, l_cmd l = Some c /\ word_of c f /\ lines_of ls (cat w f).

(** The lines of a file of parameters that count. *)
Definition counts (l : string) : Prop := (forall s, l <> String "#" s) /\ ~ every blank_char l.

(** The characters accepted in names and paths. *)
Definition letter_or_digit (c : ascii) : Prop :=
  let n := nat_of_ascii c in (48 <= n <= 57 \/ 65 <= n <= 90 \/ 97 <= n <= 122)%nat.
Definition of_name (c : ascii) : Prop := letter_or_digit c \/ c ∈ ["_"; "."; "-"]%char.
Definition of_user (c : ascii) : Prop := letter_or_digit c \/ c ∈ ["_"; "-"]%char.
Definition of_path (c : ascii) : Prop := letter_or_digit c \/ c ∈ ["_"; "."; "/"; "-"; "%"; "\"; " "]%char.

(** What the user learns: the identifiers printed, or an error. *)
Definition made_by (o : outcome) : list made := match o_sub o with Some s => s_made s | None => [] end.
(** The database does as add_micheline_simple_array_job and add_micheline_subjob do: all the jobs or none; an error has a code. *)
Definition sane (w : world) : Prop := (forall cs, some_jobs w cs = [] \/ length (some_jobs w cs) = length cs) /\ forall i, one_job w i <> inl 0.
(** The lines of a file of parameters that count, in order. *)
Inductive counted : list string -> list string -> Prop :=
  | n_nil : counted [] []
  | n_take l ls ls' : counts l -> counted ls ls' -> counted (l :: ls) (l :: ls')
  | n_skip l ls ls' : ~ counts l -> counted ls ls' -> counted (l :: ls) ls'.
(** A text option that is not used. *)
Definition unused (v : val) : Prop := forall t, v = VText t -> t = ""%string.
(** The private key of the [i]-th job when keys are used: given, read in a file, or made for this job. *)
Definition right_key (w : world) (inline file : val) (i : nat) (k : string) : Prop :=
  (inline = VText k /\ unused file) \/
  (unused inline /\ exists f, f <> ""%string /\ file = VText f /\ k = cat w f) \/
  (unused inline /\ unused file /\ exists f, key_env w = Some f /\ k = cat w f) \/
  (unused inline /\ unused file /\ key_env w = None /\ exists pub, generated w i = Some (k, pub)).
(** The host a job is reached on. *)
Definition right_host (cosystem deploy : string) (j : cjob) (h : string) : Prop :=
  ("cosystem"%string ∈ c_types j /\ h = cosystem) \/ ("cosystem"%string ∉ c_types j /\ "deploy"%string ∈ c_types j /\ h = deploy) \/
  ("cosystem"%string ∉ c_types j /\ "deploy"%string ∉ c_types j /\ Some h = c_hosts j !! 0%nat).
(** A date as oarsub -r takes it: year, month, day, hour, minute, second. *)
Definition between (lo hi : nat) (s : string) (n : Z) : Prop := (lo <= String.length s <= hi)%nat /\ every digit_char s /\ n = number s.
Definition date_text (s : string) (y mo d h mi se : Z) : Prop :=
  exists s0 ty tm td s1 th ti ts s2, every blank_char s0 /\ every blank_char s1 /\ s1 <> ""%string /\ every blank_char s2 /\
    between 4 4 ty y /\ between 1 2 tm mo /\ between 1 2 td d /\ between 1 2 th h /\ between 1 2 ti mi /\ between 1 2 ts se /\
    s = (s0 +:+ ty +:+ "-" +:+ tm +:+ "-" +:+ td +:+ s1 +:+ th +:+ ":" +:+ ti +:+ ":" +:+ ts +:+ s2)%string.
(** The dates of the calendar (with the leap seconds strptime takes). *)
Definition is_leap (y : Z) : Prop := (4 | y) /\ (~ (100 | y) \/ (400 | y)).
Definition days_in (y m d : Z) : Prop :=
  d = (if decide (m = 2) then 28 else if decide (m ∈ [4; 6; 9; 11]) then 30 else 31) \/ m = 2 /\ is_leap y /\ d = 29.
Definition real_date (y mo d h mi se : Z) : Prop :=
  1 <= y /\ 1 <= mo <= 12 /\ 1 <= d /\ (exists n, days_in y mo n /\ d <= n) /\ h <= 23 /\ mi <= 59 /\ se <= 61.
(** What a client of the API sees: the status, the identifier and the jobs made. *)
Definition seen (a : res answer) : res (Z * option Z * list made) :=
  match a with Ok x => Ok (h_status x, h_id x, match h_sub x with Some s => s_made s | None => [] end) | Err e => Err e end.
