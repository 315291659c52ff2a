(** Model of the REST API: tokens (oar/api/auth.py, oar/api/app.py:66-75, oar/lib/access_token.py),
    file requests (oar/api/routers/media.py), proxy rules (oar/api/proxy_utils.py and
    routers/proxy.py) and pages (oar/api/query.py, url_utils.py).  No proofs. *)
From Coq Require Import Ascii.
From Verif Require Import Base.

(** * Tokens *)
(** A date text "YYYY-MM-DD hh:mm:ss" is represented by the number of seconds from 1970-01-01
    00:00:00 to it when read as UTC ([Face]); [Malformed] does not match the expression of
    check_reservation (submission.py:1525-1541), [Impossible] matches but is no date (strptime
    raises).  [mktime] is the reading of a date in the time zone of the server. *)
Inductive text := Face (z : Z) | Malformed | Impossible.
Definition check_reservation (mktime : Z -> Z) (t : text) : res (option Z) :=
  match t with Face z => Ok (Some (mktime z)) | Malformed => Ok None | Impossible => Err EType end.
(** A decoded token; a missing "date" is [Malformed] (same result), a missing "user" is None. *)
Record token := mkToken { t_key : Z; t_user : option string; t_date : text; t_exp : Z }.
(** API_REVOKED_TOKENS, a JSON file: dates for everybody and for each user. *)
Record revoked := mkRevoked { r_global : option text; r_users : option (list (string * text)) }.
(** app.py:66-75: read once, at start; None stands for a file which is not JSON. *)
Definition load_revoked (file : option revoked) : revoked := match file with Some r => r | None => mkRevoked None None end.
(** create_access_token, access_token.py:9-30: the date of the token is written in UTC. *)
Definition create_access_token (key : Z) (minutes now : Z) (user : string) : token := mkToken key (Some user) (Face now) (now + 60 * minutes).
(** get_token_data, auth.py:15-30: the signature and the expiry date are checked by jwt.decode. *)
Definition get_token_data (key now : Z) (t : token) : option token := if (t_key t =? key) && (now <=? t_exp t) then Some t else None.
(** revocation_date > issued_date, auth.py:56 and 65: comparing None raises. *)
Definition later (a b : option Z) : res bool := match a, b with Some a, Some b => Ok (b <? a) | _, _ => Err EType end.
Definition lookup_user (u : string) (l : list (string * text)) : option text := snd <$> head (filter (fun x => fst x = u) l).
Inductive answer := Refused | User (u : string).
(** need_authentication, auth.py:33-85.  [Refused] is the answer 401, [Err] the answer 500. *)
Definition need_authentication (mktime : Z -> Z) (rv : revoked) (data : option token) : res answer :=
  match data with
  | None => Ok Refused
  | Some t =>
      issued <-- check_reservation mktime (t_date t) ;;
      rg <-- (match r_global rv with None => Ok false | Some g => d <-- check_reservation mktime g ;; later d issued end) ;;
      r <-- (if rg : bool then Ok true else
             match r_users rv, t_user t with
             | Some l, Some u => match lookup_user u l with None => Ok false | Some x => d <-- check_reservation mktime x ;; later d issued end
             | _, _ => Ok false end) ;;
      if r : bool then Ok Refused else
      match t_user t with None => Ok Refused | Some u => if bool_decide (u = ""%string) then Ok Refused else Ok (User u) end
  end.
Definition authenticate (mktime : Z -> Z) (key : Z) (rv : revoked) (now : Z) (t : token) : res answer :=
  need_authentication mktime rv (get_token_data key now t).
(** get_new_token, routers/frontend.py:79-87. *)
Definition get_new_token (mktime : Z -> Z) (key minutes : Z) (rv : revoked) (now : Z) (t : token) : option token :=
  match authenticate mktime key rv now t with
  | Ok (User _) => match t_user t with Some u => Some (create_access_token key minutes now u) | None => None end
  | _ => None
  end.
(** The tokens around: those given at first and those obtained from the API, request by request
    ((date, number of the token shown)). *)
Definition ask (mktime : Z -> Z) (key minutes : Z) (rv : revoked) (ts : list token) (q : Z * nat) : list token :=
  match nth_error ts (snd q) with
  | Some t => match get_new_token mktime key minutes rv (fst q) t with Some t' => ts ++ [t'] | None => ts end
  | None => ts
  end.
Definition ask_all (mktime : Z -> Z) (key minutes : Z) (rv : revoked) (ts : list token) (qs : list (Z * nat)) : list token :=
  fold_left (ask mktime key minutes rv) qs ts.

(** * File requests, media.py *)
Local Open Scope char_scope.
(** re.sub(r"([$,`, ])", r"\\\1", path): a backslash before dollar, comma, backquote and space. *)
Definition escaped (c : Ascii.ascii) : bool := bool_decide (c ∈ (["$"%char; ","%char; "`"%char; " "%char] : list Ascii.ascii)).
Fixpoint escape (s : string) : string :=
  match s with EmptyString => EmptyString | String c s => if escaped c then String "\" (String c (escape s)) else String c (escape s) end.
(** user_and_filename_setup, media.py:52-68: the result of replacing "~" is not used. *)
Definition setup (path : string) : string := String "/" (escape path).
(** What the handlers run, in the name of the authenticated user: a program with its arguments, or
    a text given to bash. *)
Inductive cmd := Argv (l : list string) | Bash (s : string).
Definition cmd_get (path : string) : list cmd := [Argv ["test"; "-f"; setup path]; Argv ["test"; "-r"; setup path]; Argv ["cat"; setup path]]%string.
Definition cmd_delete (path : string) : list cmd := [Argv ["test"; "-e"; setup path]; Argv ["test"; "-w"; setup path]; Argv ["rm"; "-rf"; setup path]]%string.
Definition cmd_chmod (mode path : string) : list cmd := [Argv ["test"; "-e"; setup path]; Argv ["chmod"; mode; setup path]]%string.
Definition cmd_upload (path : string) : cmd := Bash ("cat > " +:+ setup path).
(** ls, media.py:73-123: the directory is tested, then "ls" is run without it. *)
Definition cmd_ls (path : string) : list cmd := [Argv ["test"; "-d"; setup path]; Argv ["test"; "-r"; setup path]; Argv ["ls"]]%string.
Close Scope char_scope.

(** * Proxy rules, routers/proxy.py:113-133 and proxy_utils.py *)
(** A rule: the path of the job (frontend and backend, 17-35) and where it goes.  toml.load and
    toml.dump give back what was written (external library); os.replace is atomic. *)
Notation rules := (list (string * string)).
Definition add_rule (r : rules) (path target : string) : rules := filter (fun x => fst x <> path) r ++ [(path, target)].
(** fcntl.lockf takes a POSIX lock: it belongs to the process, not to the thread, and closing any
    descriptor of the lock file gives it back.  A request runs in a thread of a server process. *)
Inductive ppc := PWant | PLocked | PLoaded (r : rules) | PSaved | PDone.
Record req := mkReq { q_proc : nat; q_path : string; q_target : string; q_pc : ppc }.
(** [lock]: the process holding the lock; [file]: the rules on disk. *)
Record pst := mkP { reqs : list req; lock : option nat; file : rules }.
Definition set_pc (r : req) (p : ppc) : req := mkReq (q_proc r) (q_path r) (q_target r) p.
(** The next step of request [i]; a request waits while another process has the lock. *)
Definition pstep (i : nat) (s : pst) : pst :=
  match reqs s !! i with
  | None => s
  | Some r =>
      match q_pc r with
      | PWant => if match lock s with Some p => Nat.eqb p (q_proc r) | None => true end
                 then mkP (<[i := set_pc r PLocked]> (reqs s)) (Some (q_proc r)) (file s) else s
      | PLocked => mkP (<[i := set_pc r (PLoaded (file s))]> (reqs s)) (lock s) (file s)
      | PLoaded l => mkP (<[i := set_pc r PSaved]> (reqs s)) (lock s) (add_rule l (q_path r) (q_target r))
      | PSaved => mkP (<[i := set_pc r PDone]> (reqs s)) (if match lock s with Some p => Nat.eqb p (q_proc r) | None => false end then None else lock s) (file s)
      | PDone => s
      end
  end.
Definition prun (l : list nat) (s : pst) : pst := fold_left (fun s i => pstep i s) l s.

(** * Pages *)
(** PaginationQuery, query.py:47-66, on the list of rows that the query gives.  A negative
    offset or an empty page past the first is answered by 404: None. *)
Definition paginate {A} (rows : list A) (offset limit : nat) : option (list A * nat) :=
  let items := take limit (drop offset rows) in
  let total := if (Nat.eqb offset 0) && (Nat.ltb (length items) limit) then length items else length rows in
  match items with [] => if Nat.eqb offset 0 then Some (items, total) else None | _ => Some (items, total) end.
(** list_paginate, url_utils.py:18-31, and "total" of media.py:119. *)
Definition ls_page {A} (rows : list A) (offset limit : nat) : option (list A * nat) :=
  if Nat.ltb (length rows) offset then None
  else let items := take (Nat.min (length rows) (offset + limit) - offset) (drop offset rows) in Some (items, length items).
