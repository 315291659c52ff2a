(** The commands that submit: oarsub (oar/cli/oarsub.py:47-259, 463-735) and POST /jobs (oar/api/routers/job.py:231-425),
    with JobParameters, scan_script, job_key_management, check_reservation and the first checks of add_micheline_jobs
    (oar/lib/submission.py:54-281, 348-682, 1344-1541).  No proofs here.
    Left out: --resubmit (ResubModel), the home directory, the key of the API (ApiModel), the texts of the messages, the
    syntax of --notify (two arbitrary tests), the wait for the answer of the scheduler, what admission rules change
    (AdmModel): they refuse or not.  Characters are ASCII. *)
From Verif Require Import Base ReqModel AdmModel.
From Coq Require Import Ascii.

(** ** The parameters of a job: attributes of JobParameters *)
Inductive key := KResource | KQueue | KProperties | KCheckpoint | KNotify | KTypes | KDirectory | KName | KProject | KHold | KDeps | KSignal
  | KStdout | KStderr | KUseKey | KInline | KFile | KExport | KStagein | KStageinMd5 | KArray | KParams.
Global Instance key_dec : EqDecision key.
Proof. solve_decision. Defined.
Inductive val := VNone | VFlag (b : bool) | VText (s : string) | VNum (n : Z) | VTexts (l : list string) | VNums (l : list Z).
(** The truth value of Python. *)
Definition given (v : val) : bool :=
  match v with
  | VNone => false | VFlag b => b | VText s => negb (bool_decide (s = ""%string)) | VNum n => negb (n =? 0)
  | VTexts l => negb (bool_decide (l = [])) | VNums l => negb (bool_decide (l = []))
  end.

(** ** scan_script, submission.py:531-682 *)
Inductive kind := One | Many | Number | Numbers | Flag.
(** Lines 556-679, in order. *)
Definition table : list (list string * kind * key) :=
  [ (["-l"; "--resource"], Many, KResource); (["-q"; "--queue"], One, KQueue); (["-p"; "--property"], Many, KProperties);
    (["--checkpoint"], Number, KCheckpoint); (["--notify"], One, KNotify); (["-t"; "--type"], Many, KTypes); (["-d"; "--directory"], One, KDirectory);
    (["-n"; "--name"], One, KName); (["--project"], One, KProject); (["--hold"], Flag, KHold); (["-a"; "--after"], Numbers, KDeps);
    (["--signal"], Number, KSignal); (["-O"; "--stdout"], One, KStdout); (["-E"; "--stderr"], One, KStderr);
    (["-k"; "--use-job-key"], Flag, KUseKey); (["--import-job-key-inline-priv"], One, KInline);
    (["-i"; "--import-job-key-from-file"], One, KFile); (["-e"; "--export-job-key-to-file"], One, KExport);
    (["-s"; "--stagein"], One, KStagein); (["--stagein-md5sum"], One, KStageinMd5); (["--array"], Number, KArray);
    (["--array-param-file"], One, KParams) ]%string.
Fixpoint rstrip (s : string) : string :=
  match s with
  | EmptyString => EmptyString
  | String c s' => match rstrip s' with EmptyString => if is_blank c then EmptyString else String c EmptyString | r => String c r end
  end.
Fixpoint all_digits (s : string) : bool := match s with EmptyString => true | String c s' => is_digit c && all_digits s' end.
Fixpoint number_from (acc : Z) (s : string) : Z :=
  match s with EmptyString => acc | String c s' => number_from (acc * 10 + (Z.of_nat (nat_of_ascii c) - 48)) s' end.
(** What follows the option: \s*(.+)\s*$ or \s*(\d+)\s*$ or \s*$, on a line without trailing blanks. *)
Definition value_ok (k : kind) (r : string) : bool :=
  match k with
  | One | Many => negb (bool_decide (lstrip r = ""%string))
  | Number | Numbers => negb (bool_decide (lstrip r = ""%string)) && all_digits (lstrip r)
  | Flag => bool_decide (lstrip r = ""%string)
  end.
Fixpoint match_options (opts : list string) (k : kind) (r : string) : option string :=
  match opts with
  | [] => None
  | o :: opts' => match after_prefix o r with
                  | Some r' => if value_ok k r' then Some (lstrip r') else match_options opts' k r
                  | None => match_options opts' k r
                  end
  end.
Fixpoint match_table (t : list (list string * kind * key)) (r : string) : option (kind * key * string) :=
  match t with
  | [] => None
  | (opts, k, x) :: t' => match match_options opts k r with Some v => Some (k, x, v) | None => match_table t' r end
  end.
(** A line: None: no directive (line 555); Some None: not understood (line 680). *)
Definition read_line (l : string) : option (option (kind * key * string)) :=
  match after_prefix "#OAR" l with
  | Some (String c r) => if is_blank c then Some (match_table table (lstrip (rstrip (String c r)))) else None
  | _ => None
  end.
Notation values := (key -> option val) (only parsing).
Definition put (x : key) (v : val) (m : values) : values := fun y => if decide (y = x) then Some v else m y.
Definition note (k : kind) (x : key) (v : string) (m : values) : values :=
  match k with
  | One => put x (VText v) m
  | Number => put x (VNum (number_from 0 v)) m
  | Flag => put x (VFlag true) m
  | Many => put x (VTexts (match m x with Some (VTexts l) => l ++ [v] | _ => [v] end)) m
  | Numbers => put x (VNums (match m x with Some (VNums l) => l ++ [number_from 0 v] | _ => [number_from 0 v] end)) m
  end.
Fixpoint scan_lines (ls : list string) (bad : bool) (m : values) : bool * values :=
  match ls with
  | [] => (bad, m)
  | l :: ls' => match read_line l with
                | None => scan_lines ls' bad m
                | Some None => scan_lines ls' true m
                | Some (Some (k, x, v)) => scan_lines ls' bad (note k x v m)
                end
  end.
Definition scan_text (text : string) : bool * values := scan_lines (split_on newline text) false (fun _ => None).
(** command.split()[0] *)
Fixpoint first_word (s : string) : string :=
  match s with EmptyString => EmptyString | String c s' => if is_blank c then EmptyString else String c (first_word s') end.

(** ** The world of a submission *)
(** A job key: what is stored with the job. *)
Record world := mkWorld {
  cat : string -> string;                       (* oardodo cat: nothing for a file that cannot be read *)
  bad_request : val -> bool;                    (* parse_resource_descriptions gives an error *)
  refused : list val -> Z;                      (* admission rules and queue: 0, or the error code *)
  bad_notify : string -> Z;                     (* check_parameters: 0, or the error code *)
  bad_syntax : string -> bool;                  (* add_micheline_jobs *)
  one_job : nat -> Z + Z;                       (* the i-th add_micheline_subjob: an error code, or the job *)
  some_jobs : list string -> list Z;            (* add_micheline_simple_array_job: the jobs (none if it fails) *)
  generated : nat -> option (string * string);  (* the i-th key generated: private, public *)
  public_of : string -> option string;          (* ssh-keygen -y *)
  key_env : option string;                      (* OAR_JOB_KEY_FILE *)
  become : bool;                                (* OARDO_BECOME_USER is set *)
  mktime : list Z -> Z }.

(** ** read_array_param_file, submission.py:228-253 *)
Definition is_comment_or_blank (l : string) : bool :=
  match l with String c _ => Ascii.eqb c "#"%char | EmptyString => false end || bool_decide (lstrip l = ""%string).
Definition param_lines (text : string) : list string := filter (fun l => is_comment_or_blank l = false) (split_on newline text).

(** ** JobParameters.__init__, submission.py:55-177.  [kw]: the arguments given; [cmd]: the command (None: not given). *)
Record params := mkParams { used : key -> val; nb : Z; lines : list string }.
Definition text_of (v : val) : string := match v with VText s => s | _ => ""%string end.
Definition all_keys : list key := [KResource; KQueue; KProperties; KCheckpoint; KNotify; KTypes; KDirectory; KName; KProject; KHold; KDeps; KSignal;
  KStdout; KStderr; KUseKey; KInline; KFile; KExport; KArray; KParams].
Definition merged (scan : bool) (kw : key -> val) (m : values) (k : key) : val :=
  let v := if scan && negb (given (kw k)) then match m k with Some w => w | None => kw k end else kw k in
  (* lines 133-136 *)
  if bool_decide (k = KStagein) || bool_decide (k = KStageinMd5) then VNone     (* no such attribute *)
  else if scan && bool_decide (k = KProperties) then match m KProperties with Some (VTexts l) => VText (String.concat " AND " l) | _ => v end else v.
(** [api_lines]: the argument array_params of the API. *)
Definition build (w : world) (scan : bool) (cmd : option string) (kw : key -> val) (api_lines : list string) : res (Z + params) :=
  scanned <-- (if scan then match cmd with
                            | None => Err EAttr
                            | Some c => if bool_decide (lstrip c = ""%string) then Err EIndex else Ok (scan_text (cat w (first_word (lstrip c))))
                            end
               else Ok (false, fun _ => None)) ;;
  let '(bad, m) := scanned in
  if bad then Ok (inl (-72)) else
  let u := merged scan kw m in
  let '(n, ls) := match u KArray with
                  | VNum n => if n =? 0 then (if given (u KParams) then let ls := param_lines (cat w (text_of (u KParams))) in (Z.of_nat (length ls), ls) else (1, api_lines))
                              else (n, api_lines)
                  | _ => if given (u KParams) then let ls := param_lines (cat w (text_of (u KParams))) in (Z.of_nat (length ls), ls) else (1, api_lines)
                  end in
  if bad_request w (u KResource) then Ok (inl 3) else Ok (inr (mkParams u n ls)).

(** ** check_parameters, submission.py:179-226 *)
Definition types_of (v : val) : list string := match v with VTexts l => l | _ => [] end.
Definition name_char (c : ascii) : bool := word_char c || Ascii.eqb c "."%char || Ascii.eqb c "-"%char.
Fixpoint all_chars (p : ascii -> bool) (s : string) : bool := match s with EmptyString => true | String c s' => p c && all_chars p s' end.
Definition noop_like (t : string) : bool := bool_decide (t = "noop"%string) || bool_decide (chop t = "noop"%string).
Definition has_command (c : option string) : bool := match c with Some s => negb (bool_decide (s = ""%string)) | None => false end.
Definition check (w : world) (p : params) (cmd : option string) (inter resv conn : bool) : Z :=
  let ts := types_of (used p KTypes) in
  if negb (has_command cmd) && negb inter && negb resv && negb conn && negb (bool_decide ("noop"%string ∈ ts)) then 5
  else if inter && resv then 7
  else if inter && bool_decide ("desktop_computing"%string ∈ ts) then 17
  else if existsb noop_like ts && (inter || conn) then 17
  else if given (used p KNotify) && negb (bad_notify w (text_of (used p KNotify)) =? 0) then bad_notify w (text_of (used p KNotify))
  else if given (used p KName) && negb (all_chars name_char (text_of (used p KName))) then 16
  else 0.

(** ** job_key_management, submission.py:348-528, for its [i]-th call; the key: private, public *)
Definition no_newline (s : string) : string := string_of_list_ascii (filter (fun c => c <> newline) (list_ascii_of_string s)).
(** ^(ssh-rsa|ssh-dss)\s.+\n*$ *)
Fixpoint only_newlines (s : string) : bool := match s with EmptyString => true | String c s' => Ascii.eqb c newline && only_newlines s' end.
Fixpoint rest_of_line (s : string) : string :=
  match s with EmptyString => EmptyString | String c s' => if Ascii.eqb c newline then s else rest_of_line s' end.
Definition public_ok (s : string) : bool :=
  match match after_prefix "ssh-rsa" s with Some r => Some r | None => after_prefix "ssh-dss" s end with
  | Some (String c (String d r)) => is_blank c && negb (Ascii.eqb d newline) && only_newlines (rest_of_line r)
  | _ => false
  end.
Inductive keyed := KeyError (e : Z) | NoKey | Key (priv pub : string) (become : bool).
Definition finish_key (priv pub : string) (b : bool) : keyed :=
  if bool_decide (pub = ""%string) then KeyError (-15) else if bool_decide (priv = ""%string) then KeyError (-15)
  else if public_ok pub then Key priv (no_newline pub) b else KeyError (-14).
Definition opt_text (v : val) : option string := match v with VText s => if bool_decide (s = ""%string) then None else Some s | _ => None end.
Definition key_of (w : world) (i : nat) (use : bool) (inline file export : option string) : keyed :=
  let file := match use, inline, file with true, None, None => match key_env w with Some f => Some f | None => None end | _, _, _ => file end in
  if negb use then match inline, file, export with None, None, None => NoKey | _, _, _ => KeyError (-15) end
  else match inline, file with
       | Some _, Some _ => KeyError (-15)
       | Some t, None => match public_of w t with Some pub => finish_key t pub false | None => KeyError (-14) end
       | None, Some f => match public_of w (cat w f) with Some pub => finish_key (cat w f) pub true | None => KeyError (-14) end
       | None, None => match generated w i with Some (priv, pub) => finish_key priv pub false | None => KeyError (-14) end
       end.

(** ** add_micheline_jobs, submission.py:1344-1522 *)
(** A job in the database: its command, its identifier, its private key. *)
Record made := mkMade { m_cmd : string; m_id : Z; m_key : option string }.
(** The jobs made, the files written (name, content), and the answer: code and identifiers, or an exception. *)
Record submitted := mkSub { s_made : list made; s_files : list (string * string); s_answer : res (Z * list Z) }.
Definition user_char (c : ascii) : bool := word_char c || Ascii.eqb c "-"%char.
Definition path_char (c : ascii) : bool :=
  word_char c || existsb (Ascii.eqb c) ["."; "/"; "-"; "%"; "\"; " "]%char.
(** ^[...]+$ *)
Definition chars_ok (p : ascii -> bool) (s : string) : bool :=
  (all_chars p s && negb (bool_decide (s = ""%string))) || (all_chars p (chop s) && negb (bool_decide (chop s = ""%string))).
Definition path_bad (v : val) : bool := given v && negb (chars_ok path_char (text_of v)).
Definition commands (p : params) (cmd : string) : list string :=
  match lines p with [] => replicate (Z.to_nat (nb p)) cmd | ls => (fun l => (cmd +:+ " " +:+ l)%string) <$> ls end.
(** str.replace("%jobid%", id): the first names of files only matter here. *)
Section loop.
  Variables (w : world) (use : bool) (inline file export : option string) (rename : string -> Z -> string).
  (** Lines 1453-1520.  The export: the variable read does not exist (NameError, caught): dd has emptied the file. *)
  Fixpoint jobs_one_by_one (i : nat) (cmds : list string) (b : bool) (done_ : list made) (files : list (string * string)) : submitted :=
    match cmds with
    | [] => mkSub done_ files (Ok (0, m_id <$> done_))
    | c :: cmds' =>
        match key_of w i use inline file export with
        | KeyError e => mkSub done_ files (Ok (e, m_id <$> done_))
        | k =>
            let b := b || match k with Key _ _ b' => b' | _ => false end in
            match one_job w i with
            | inl e => mkSub done_ files (Ok (e, m_id <$> done_))
            | inr j =>
                let done' := done_ ++ [mkMade c j (match k with Key priv _ _ => Some priv | _ => None end)] in
                match use, export with
                | true, Some f =>
                    if b then jobs_one_by_one (S i) cmds' b done' (files ++ [(rename f j, ""%string)])
                    else mkSub done' files (Err EKey)     (* os.environ["OARDO_BECOME_USER"], line 1494 *)
                | _, _ => jobs_one_by_one (S i) cmds' b done' files
                end
            end
        end
    end.
End loop.
Definition is_true (v : val) : bool := given v.
Definition add_jobs (w : world) (rename : string -> Z -> string) (user cmd : string) (p : params) (b : bool) : submitted :=
  if negb (chars_ok user_char user) then mkSub [] [] (Ok (-11, []))
  else if given (used p KNotify) && bad_syntax w (text_of (used p KNotify)) then mkSub [] [] (Ok (-6, []))
  else if path_bad (used p KStdout) then mkSub [] [] (Ok (12, []))
  else if path_bad (used p KStderr) then mkSub [] [] (Ok (-13, []))
  else if negb (refused w (used p <$> all_keys) =? 0) then mkSub [] [] (Ok (refused w (used p <$> all_keys), []))
  else
    let cmds := commands p cmd in
    let n := match lines p with [] => nb p | ls => Z.of_nat (length ls) end in
    if (1 <? n) && negb (is_true (used p KUseKey)) then
      let ids := some_jobs w cmds in mkSub (zip_with (fun c j => mkMade c j None) cmds ids) [] (Ok (0, ids))
    else jobs_one_by_one w (is_true (used p KUseKey)) (opt_text (used p KInline)) (opt_text (used p KFile)) (opt_text (used p KExport)) rename 0 cmds b [] [].

(** ** check_reservation, submission.py:1525-1541, and sql_to_local, tools.py:652-658 *)
(** \d{1,2} etc.: the longest run of digits, of at most [n]. *)
Fixpoint run_digits (n : nat) (s : string) : string * string :=
  match n, s with S n', String c s' => if is_digit c then let '(d, r) := run_digits n' s' in (String c d, r) else (""%string, s) | _, _ => (""%string, s) end.
Definition take_number (lo hi : nat) (s : string) : option (Z * string) :=
  let '(d, r) := run_digits hi s in if (lo <=? String.length d)%nat then Some (number_from 0 d, r) else None.
Definition take_char (c : ascii) (s : string) : option string := match s with String d r => if Ascii.eqb c d then Some r else None | EmptyString => None end.
Definition take_blanks (s : string) : option string := match s with String d _ => if is_blank d then Some (lstrip s) else None | EmptyString => None end.
(** A number of at least [lo] and at most [hi] digits, then what [sep] reads. *)
Definition field (lo hi : nat) (sep : string -> option string) (s : string) (k : Z -> string -> option (list Z)) : option (list Z) :=
  match take_number lo hi s with Some (n, r) => match sep r with Some r' => k n r' | None => None end | None => None end.
Definition take_end (s : string) : option string := if bool_decide (lstrip s = ""%string) then Some ""%string else None.
Definition parse_date (s : string) : option (list Z) :=
  field 4 4 (take_char "-") (lstrip s) (fun y r =>
  field 1 2 (take_char "-") r (fun mo r =>
  field 1 2 take_blanks r (fun d r =>
  field 1 2 (take_char ":") r (fun h r =>
  field 1 2 (take_char ":") r (fun mi r =>
  field 1 2 take_end r (fun se _ => Some [y; mo; d; h; mi; se])))))).
Definition leap (y : Z) : bool := (y mod 4 =? 0) && negb (y mod 100 =? 0) || (y mod 400 =? 0).
Definition month_days (y m : Z) : Z := if m =? 2 then (if leap y then 29 else 28) else if bool_decide (m ∈ [4; 6; 9; 11]) then 30 else 31.
(** time.strptime accepts the date *)
Definition date_exists (l : list Z) : bool :=
  match l with
  | [y; mo; d; h; mi; se] => (1 <=? y) && (1 <=? mo) && (mo <=? 12) && (1 <=? d) && (d <=? month_days y mo) && (h <=? 23) && (mi <=? 59) && (se <=? 61)
  | _ => false end.
Definition reservation_date (w : world) (s : string) : res (Z + Z) :=
  match parse_date s with None => Ok (inl 7) | Some l => if date_exists l then Ok (inr (mktime w l)) else Err EValue end.

(** ** oarsub, oarsub.py:463-690: up to the submission *)
Record line := mkLine { l_cmd : option string; l_kw : key -> val; l_inter : bool; l_resv : option string; l_conn : Z; l_scan : bool; l_user : string }.
(** [o_sub]: what was submitted; [o_kind]: the type of the jobs; [o_resv]: the date of the reservation (0: none);
    [o_printed]: the identifiers printed; [o_end]: the exit value (1 also for an error printed as a pair), or an exception. *)
Record outcome := mkOut { o_params : option params; o_sub : option submitted; o_kind : string; o_resv : Z; o_printed : list Z; o_end : res Z }.
Definition ends (v : res Z) : outcome := mkOut None None "" 0 [] v.
Definition reservation_of (w : world) (l : line) : res (Z + Z) :=
  match l_resv l with Some s => if bool_decide (s = ""%string) then Ok (inr 0) else reservation_date w s | None => Ok (inr 0) end.
(** Lines 672-690: error codes, then the identifiers; without any job, job_id_lst[0] raises. *)
Definition report (p : params) (kind : string) (d : Z) (s : submitted) : outcome :=
  match s_answer s with
  | Err e => mkOut (Some p) (Some s) kind d [] (Err e)
  | Ok (c, ids) => if negb (c =? 0) then mkOut (Some p) (Some s) kind d [] (Ok 1)
                   else match ids with [] => mkOut (Some p) (Some s) kind d [] (Err EIndex) | _ => mkOut (Some p) (Some s) kind d ids (Ok 0) end
  end.
Definition oarsub (w : world) (rename : string -> Z -> string) (connect : outcome) (l : line) : outcome :=
  match reservation_of w l with
  | Err e => ends (Err e)
  | Ok (inl _) => ends (Ok 1)
  | Ok (inr d) =>
      match build w (l_scan l) (l_cmd l) (l_kw l) [] with
      | Err e => ends (Err e)
      | Ok (inl _) => ends (Ok 1)
      | Ok (inr p) =>
          if negb (check w p (l_cmd l) (l_inter l) (negb (d =? 0)) (negb (l_conn l =? 0)) =? 0) then ends (Ok 1)
          else if negb (l_conn l =? 0) then connect
          else
            (* the variable of the environment is set by scan_script *)
            let b := become w || l_scan l in
            if negb (l_inter l) && has_command (l_cmd l) then
              let p := if given (l_kw l KParams) then let ls := param_lines (cat w (text_of (l_kw l KParams))) in mkParams (used p) (Z.of_nat (length ls)) ls else p in
              if given (l_kw l KParams) && bool_decide (lines p = []) then ends (Ok 1)
              else report p "PASSIVE" d (add_jobs w rename (l_user l) (default ""%string (l_cmd l)) p b)
            else if given (l_kw l KParams) then ends (Ok 9)
            else if negb (nb p =? 1) then ends (Ok 8)
            else report p "INTERACTIVE" d (add_jobs w rename (l_user l) (default ""%string (l_cmd l)) p b)
      end
  end.

(** ** connect_job, oarsub.py:58-259: oarsub -C.  The job: owner, state, types, nodes; [ssh]: the value returned by the
    command; [sys]: the hosts of the configuration for cosystem and deploy. *)
Record cjob := mkCjob { c_user : string; c_state : string; c_types : list string; c_hosts : list string }.
Inductive connection := Connected (host user : string) (exit : Z) | Refused (exit : Z) | Failed (e : err).
Definition connect_job (cosystem deploy : string) (me : option string) (j : option cjob) (ssh : Z) : connection :=
  match j with None => Failed EAttr | Some j =>    (* job.user, line 64 *)
  if (bool_decide (me = Some (c_user j)) || bool_decide (me = Some "oar"%string)) && bool_decide (c_state j = "Running"%string) then
    if bool_decide ("noop"%string ∈ c_types j) then Refused 17
    else match c_hosts j with
         | [] => Failed EIndex                      (* hosts[0], line 77 *)
         | h :: _ =>
             let host := if bool_decide ("cosystem"%string ∈ c_types j) then cosystem else if bool_decide ("deploy"%string ∈ c_types j) then deploy else h in
             (* lines 232-242: return_code >> 8; -1 is given to exit() *)
             let v := Z.shiftr ssh 8 in Connected host (c_user j) (if v =? 0 then 0 else v mod 256)
         end
  else Refused 20
  end.

(** ** POST /jobs, job.py:348-425.  [a_kw]: the arguments passed on under the names JobParameters knows. *)
Record request := mkRequest { a_cmd : string; a_kw : key -> val; a_resv : option string; a_lines : option string; a_workdir : option string; a_user : string }.
(** Lines 375-403: reservation, import_job_key_from_file and export_job_key_to_file are names JobParameters does not read. *)
Definition api_kw (r : request) (k : key) : val :=
  match k with KFile | KExport | KParams => VNone | _ => a_kw r k end.
Record answer := mkAnswer { h_status : Z; h_id : option Z; h_sub : option submitted; h_resv : Z; h_params : option params }.
Definition post_job (w : world) (rename : string -> Z -> string) (r : request) : res answer :=
  d <-- (match a_resv r with Some s => if bool_decide (s = ""%string) then Ok (inr 0) else reservation_date w s | None => Ok (inr 0) end) ;;
  (* lines 350-354: the error is passed over, the date is not used *)
  let ls := match a_lines r with Some t => if bool_decide (t = ""%string) then [] else split_on newline t | None => [] end in
  b <-- build w false (Some (a_cmd r)) (api_kw r) ls ;;
  match b with
  | inl _ => Ok (mkAnswer 501 None None 0 None)
  | inr p =>
      if negb (check w p (Some (a_cmd r)) false false false =? 0) then Ok (mkAnswer 501 None None 0 (Some p))
      else
        let s := add_jobs w rename (a_user r) (a_cmd r) p (become w) in
        a <-- s_answer s ;;
        let '(c, ids) := a in
        if c =? -2 then Ok (mkAnswer 403 None (Some s) 0 (Some p))
        else if negb (c =? 0) then Ok (mkAnswer 400 None (Some s) 0 (Some p))
        else Ok (mkAnswer 200 (match ids with [] => None | i :: l => Some (foldr Z.min i l) end) (Some s) 0 (Some p))
  end.
