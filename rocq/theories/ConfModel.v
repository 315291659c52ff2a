(** The configuration: oar/lib/configuration.py:137-255 and try_convert_decimal, oar/lib/utils.py:148-159.  No proofs here.
    Left out: characters beyond ASCII (also in digits), the separators of lines other than newline, files that are
    not UTF-8, int() of more than 4300 digits.  A float is kept as its text. *)
From Verif Require Import Base ReqModel AdmModel FrontModel.
From Coq Require Import Ascii.

Inductive cval := CText (s : string) | CInt (n : Z) | CFloat (s : string) | CNone | CBool (b : bool).
Global Instance cval_dec : EqDecision cval.
Proof. solve_decision. Defined.
Notation dict := (list (string * cval)) (only parsing).
(** dict: d[k] = v; d.get(k) *)
Fixpoint dput (k : string) (v : cval) (d : dict) : dict :=
  match d with [] => [(k, v)] | (k', v') :: d' => if bool_decide (k' = k) then (k, v) :: d' else (k', v') :: dput k v d' end.
Fixpoint dget (k : string) (d : dict) : option cval :=
  match d with [] => None | (k', v) :: d' => if bool_decide (k' = k) then Some v else dget k d' end.

(** ** Texts *)
Definition strip (s : string) : string := rstrip (lstrip s).
Definition is_quote (c : ascii) : bool := Ascii.eqb c """"%char || Ascii.eqb c "'"%char.
Fixpoint lstrip_quotes (s : string) : string := match s with String c s' => if is_quote c then lstrip_quotes s' else s | EmptyString => EmptyString end.
Fixpoint rstrip_quotes (s : string) : string :=
  match s with
  | EmptyString => EmptyString
  | String c s' => match rstrip_quotes s' with EmptyString => if is_quote c then EmptyString else String c EmptyString | r => String c r end
  end.
(** value.strip with both quotes, line 175 *)
Definition unquote (s : string) : string := rstrip_quotes (lstrip_quotes s).
Fixpoint drop_underscores (s : string) : string :=
  match s with EmptyString => EmptyString | String c s' => if Ascii.eqb c "_"%char then drop_underscores s' else String c (drop_underscores s') end.
Definition lower_char (c : ascii) : ascii := let n := nat_of_ascii c in if ((65 <=? n) && (n <=? 90))%nat then ascii_of_nat (n + 32) else c.
Fixpoint lower (s : string) : string := match s with EmptyString => EmptyString | String c s' => String (lower_char c) (lower s') end.

(** ** Numbers *)
Definition skip_sign (s : string) : string := match s with String c s' => if Ascii.eqb c "+"%char || Ascii.eqb c "-"%char then s' else s | EmptyString => EmptyString end.
Definition nonempty (s : string) : bool := negb (bool_decide (s = ""%string)).
(** Nothing, or E, perhaps a sign, and digits. *)
Definition exponent_ok (s : string) : bool :=
  match s with
  | EmptyString => true
  | String c r => (Ascii.eqb c "e"%char || Ascii.eqb c "E"%char) && nonempty (skip_sign r) && all_digits (skip_sign r)
  end.
(** Digits, perhaps a point and digits, with one digit at least, perhaps an exponent. *)
Definition number_ok (s : string) : bool :=
  let i := digits_of s in
  match skip_digits s with
  | String "." r => (nonempty i || nonempty (digits_of r)) && exponent_ok (skip_digits r)
  | r => nonempty i && exponent_ok r
  end.
Definition infinite (s : string) : bool := bool_decide (lower s = "inf"%string) || bool_decide (lower s = "infinity"%string).
Definition nan_ok (s : string) : bool :=
  match match after_prefix "snan" (lower s) with Some r => Some r | None => after_prefix "nan" (lower s) end with Some r => all_digits r | None => false end.
(** Decimal(value) does not raise: blanks around and all underscores are dropped first. *)
Definition decimal_ok (s : string) : bool :=
  let t := skip_sign (drop_underscores (strip s)) in number_ok t || infinite t || nan_ok t.
(** Underscores only between digits. *)
Fixpoint between_digits (prev : bool) (s : string) : bool :=
  match s with
  | EmptyString => true
  | String c s' => if Ascii.eqb c "_"%char then prev && match s' with String d _ => is_digit d | EmptyString => false end && between_digits false s'
                   else between_digits (is_digit c) s'
  end.
(** int(value), float(value) do not raise. *)
Definition int_ok (s : string) : bool :=
  let t := strip s in between_digits false t && (let u := skip_sign (drop_underscores t) in nonempty u && all_digits u).
Definition float_ok (s : string) : bool :=
  let t := strip s in between_digits false t && (let u := skip_sign (drop_underscores t) in number_ok u || infinite u || bool_decide (lower u = "nan"%string)).
Definition int_of (s : string) : Z :=
  let t := drop_underscores (strip s) in
  match t with String "-" u => - number_from 0 u | String "+" u => number_from 0 u | u => number_from 0 u end.
Definition convert (s : string) : cval :=
  if decimal_ok s then (if int_ok s then CInt (int_of s) else if float_ok s then CFloat (strip s) else CNone) else CText s.

(** ** load_file, configuration.py:145-194 *)
Fixpoint before_char (c : ascii) (s : string) : string :=
  match s with EmptyString => EmptyString | String d s' => if Ascii.eqb c d then EmptyString else String d (before_char c s') end.
Definition read_setting (l : string) : option (string * cval) :=
  match cut_at "=" (before_char "#" l) with
  | Some (k, v) => Some (strip k, convert (unquote (strip v)))
  | None => None
  end.
Fixpoint read_settings (ls : list string) (d : dict) : dict :=
  match ls with [] => d | l :: ls' => read_settings ls' (match read_setting l with Some (k, v) => dput k v d | None => d end) end.
Fixpoint update (d : dict) (more : dict) : dict := match more with [] => d | (k, v) :: r => update (dput k v d) r end.
(** What the program meets when it opens and reads the file: it is not there; all of it; an error after some lines, which is
    an input/output error or a text that is not UTF-8. *)
Inductive file := NoFile | Text (t : string) | Broken (t : string) (io : bool).
(** conf is filled while the file is read (lines 161-177); then, lines 178-181, the configuration is changed; lines 182-192: the errors. *)
Definition read_file (f : file) : dict * option bool :=
  match f with
  | NoFile => ([], Some true)
  | Text t => (read_settings (split_on newline t) [], None)
  | Broken t io => (read_settings (split_on newline t) [], Some io)
  end.
(** The value returned, or the exception; the new configuration. *)
Definition load_file (f : file) (silent clear : bool) (d : dict) : res bool * dict :=
  let '(conf, failed) := read_file f in
  match failed with
  | None => (Ok true, update (if clear then [] else d) conf)
  | Some io => (if io && silent then Ok false else Err EValue, d)
  end.
(** __init__, lines 137-140: the argument is lost. *)
Definition configuration (defaults given : dict) : dict := update defaults defaults.

(** ** get_namespace, lines 222-255 *)
Definition get_namespace (ns : string) (lowercase trim : bool) (d : dict) : dict :=
  fold_left (fun rv p => match after_prefix ns (fst p) with
                         | Some r => let k := if trim then r else fst p in dput (if lowercase then lower k else k) (snd p) rv
                         | None => rv end) d [].

(** ** get_sqlalchemy_uri, lines 196-217: the URI, or the key that is missing, or an exception. *)
Definition print_val (print_int : Z -> string) (v : cval) : string :=
  match v with CText s | CFloat s => s | CInt n => print_int n | CNone => "None" | CBool true => "True" | CBool false => "False" end%string.
Inductive uri := Uri (s : string) | Missing (k : string) | Raised (e : err).
Fixpoint fill (pi : Z -> string) (d : dict) (parts : list (string + string)) (acc : string) : uri :=
  match parts with
  | [] => Uri acc
  | inl s :: r => fill pi d r (acc +:+ s)
  | inr k :: r => match dget k d with Some v => fill pi d r (acc +:+ print_val pi v) | None => Missing k end
  end.
Definition sqlalchemy_uri (pi : Z -> string) (d : dict) (read_only : bool) : uri :=
  let db := get_namespace "DB_" true true d in
  let login := (if read_only then "base_login_ro" else "base_login")%string in
  let passwd := (if read_only then "base_passwd_ro" else "base_passwd")%string in
  match dget "type" db with
  | None => Missing "type"
  | Some (CText t) =>
      let t := lower t in
      if bool_decide (t = "sqlite"%string) then fill pi (dput "type" (CText t) db) [inr "type"; inl ":///"; inr "base_file"]%string ""
      else
        let t := if bool_decide (t ∈ ["pg"; "psql"; "pgsql"]%string) then "postgresql"%string else t in
        let db := dput "type" (CText t) db in
        let auth := if bool_decide (default (CText "") (dget passwd db) = CText "") then [inr login] else [inr login; inl ":"%string; inr passwd] in
        fill pi db (inr "type"%string :: inl "://"%string :: auth ++ [inl "@"; inr "hostname"; inl ":"; inr "port"; inl "/"; inr "base_name"]%string) ""
  | Some _ => Raised EAttr
  end.
