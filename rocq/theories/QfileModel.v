(** The file of quotas (QUOTAS_CONF_FILE): Calendar.__init__, periodical_fromJson, oneshot_fromJson, oar/kao/quotas.py:31-212;
    quotas_rules_fromJson, load_quotas_rules, quotas.py:797-884; enable, quotas.py:520-536; hms_str_to_duration, oar/lib/tools.py:636-649.
    No proofs here.  Left out: the reading of JSON itself (a value is one of [jval], an object has each key once), entries that are not lists of texts,
    characters beyond ASCII.  A float is a number m * 2^e with m of 53 bits; the smallest (subnormal) ones are kept with 53 bits, which no whole number shows. *)
From Verif Require Import Base ReqModel AdmModel FrontModel ConfModel SlotModel QuotasModel CalendarModel.
From Coq Require Import Ascii.

(** The configuration is read; the program stops with exit(1); an exception. *)
Inductive start (A : Type) := Started (a : A) | Exits | Raises (e : err).
Arguments Started {A}. Arguments Exits {A}. Arguments Raises {A}.
Definition sbind {A B} (m : start A) (f : A -> start B) : start B := match m with Started a => f a | Exits => Exits | Raises e => Raises e end.
Notation "x <== m ;; k" := (sbind m (fun x => k)) (at level 60, m at next level, right associativity).

(** ** Weekly periods *)
(** str.split(): the words *)
Fixpoint split_blank (s : string) : list string :=
  match s with
  | EmptyString => [""%string]
  | String c s' => if is_blank c then ""%string :: split_blank s' else match split_blank s' with w :: ws => String c w :: ws | [] => [String c ""] end
  end.
Definition words (s : string) : list string := filter (fun w => w <> ""%string) (split_blank s).
Fixpoint has_char (c : ascii) (s : string) : bool := match s with EmptyString => false | String d s' => Ascii.eqb d c || has_char c s' end.
(** hms_str_to_duration; None: int() raises *)
Definition hms (s : string) : option Z :=
  match split_on ":" s with
  | [h] => if int_ok h then Some (3600 * int_of h) else None
  | [h; m] => if int_ok h && int_ok m then Some (3600 * int_of h + 60 * int_of m) else None
  | h :: m :: x :: _ => if int_ok h && int_ok m && int_ok x then Some (3600 * int_of h + 60 * int_of m + int_of x) else None
  | [] => None
  end.
(** quotas.py:124-135 *)
Definition hours (s : string) : option (option (Z * Z)) :=
  if bool_decide (s = "*"%string) then Some None
  else match split_on "-" s with
       | [a; b] => match hms a, hms b with Some x, Some y => Some (Some (x, y)) | _, _ => None end
       | _ => None
       end.
(** _day2week_offset, quotas.py:16-24 *)
Definition day_names : list (string * Z) := [("mon", 0); ("tue", 1); ("wed", 2); ("thu", 3); ("fri", 4); ("sat", 5); ("sun", 6)]%string.
Definition sget {A} (k : string) (l : list (string * A)) : option A := snd <$> List.find (fun p => bool_decide (fst p = k)) l.
(** quotas.py:137-153 *)
Definition week_days (s : string) : option wdays :=
  if bool_decide (s = "*"%string) then Some WAll
  else if has_char "-" s then
    match split_on "-" s with
    | [a; b] => match sget a day_names, sget b day_names with Some x, Some y => Some (WInterval x y) | _, _ => None end
    | _ => None
    end
  else WList <$> mapM (fun d => sget d day_names) (split_on "," s).
(** periodical_fromJson, quotas.py:112-178 *)
Definition periodical (s : string) (rid : Z) : start (list per) :=
  match words s with
  | [hm; wday; mday; month] =>
      if bool_decide (mday = "*"%string) && bool_decide (month = "*"%string) then
        match hours hm, week_days wday with Some h, Some d => Started (from_json h d rid) | _, _ => Exits end
      else Exits
  | _ => Raises EValue
  end.

(** ** Limits *)
(** The nearest m * 2^e with m of 53 bits, ties to even, of n / d (n, d > 0). *)
Definition nearest (a b : Z) : Z := let q := a / b in let r := a mod b in if (2 * r <? b) || ((2 * r =? b) && Z.even q) then q else q + 1.
Definition scale (n d : Z) : Z := let e := Z.log2 n - Z.log2 d - 52 in if n * 2 ^ Z.max 0 (- e) <? 2 ^ 52 * (d * 2 ^ Z.max 0 e) then e - 1 else e.
Definition round53 (n d : Z) : Z * Z :=
  let e := scale n d in (nearest (n * 2 ^ Z.max 0 (- e)) (d * 2 ^ Z.max 0 e), e).
Definition fround (n d : Z) : Z * Z := if n =? 0 then (0, 0) else let '(m, e) := round53 (Z.abs n) d in (Z.sgn n * m, e).
(** A float; None: infinite or nan. *)
Definition finite (f : Z * Z) : option (Z * Z) := if (fst f =? 0) || (Z.log2 (Z.abs (fst f)) + snd f <? 1024) then Some f else None.
Definition fmul (f g : Z * Z) : option (Z * Z) := let '(m, e) := fround (fst f * fst g) 1 in finite (m, e + snd f + snd g).
(** int(f) *)
Definition truncate (f : Z * Z) : Z := if 0 <=? snd f then fst f * 2 ^ snd f else Z.quot (fst f) (2 ^ (- snd f)).
(** What a numeral without sign is: (a, k) stands for a * 10^k. *)
Definition exponent_of (s : string) : Z := match s with EmptyString => 0 | String _ r => match r with String "-" u => - number_from 0 u | String "+" u => number_from 0 u | u => number_from 0 u end end.
Definition digits_value (t : string) : Z * Z :=
  let i := digits_of t in
  match skip_digits t with
  | String "." r => let f := digits_of r in (number_from 0 (i +:+ f), exponent_of (skip_digits r) - Z.of_nat (String.length f))
  | r => (number_from 0 i, exponent_of r)
  end.
Definition ten (a k : Z) : Z * Z := if 0 <=? k then fround (a * 10 ^ k) 1 else fround a (10 ^ (- k)).
(** float(text) *)
Inductive fl := Number (f : Z * Z) | Infinite | NotFloat.
Definition float_of (s : string) : fl :=
  if float_ok s then
    let t := drop_underscores (strip s) in
    if number_ok (skip_sign t) then
      let '(a, k) := digits_value (skip_sign t) in
      match finite (ten (match t with String "-" _ => - a | _ => a end) k) with Some f => Number f | None => Infinite end
    else Infinite
  else NotFloat.
(** A limit in the file. *)
Inductive jval := JInt (n : Z) | JFloat (f : Z * Z) | JText (s : string) | JOther.
Definition int_of_float (f : option (Z * Z)) : start Z := match f with Some f => Started (truncate f) | None => Raises EValue end.
(** alphanum_to_int, quotas.py:800-817; the float is computed, then int() *)
Definition whole (all : option Z) (v : jval) : start Z :=
  match v with
  | JInt n => Started n
  | JFloat f => Started (truncate f)
  | JOther => Raises EType
  | JText s =>
      match float_of s with
      | Number f => Started (truncate f)
      | Infinite => Raises EValue
      | NotFloat =>
          if has_char "*" s then
            match split_on "*" s with
            | [c; v] =>
                match float_of c with
                | NotFloat => Raises EValue
                | Infinite => Raises EValue
                | Number c =>
                    if bool_decide (v = "ALL"%string) then match all with Some n => int_of_float (fmul c (fround n 1)) | None => Raises EType end
                    else match float_of v with Number v => int_of_float (fmul c v) | _ => Raises EValue end
                end
            | _ => Raises EValue
            end
          else if bool_decide (s = "ALL"%string) then match all with Some n => Started n | None => Raises EType end
          else Raises EValue
      end
  end.
(** The three limits: a list, or one value; the characters of a text are its items. *)
Inductive jlimits := JList (l : list jval) | JOne (v : jval).
Definition items (l : jlimits) : start (list jval) :=
  match l with
  | JList l => Started l
  | JOne (JText s) => Started ((fun c => JText (String c "")) <$> list_ascii_of_string s)
  | JOne _ => Raises EType
  end.
Definition limits (all : option Z) (l : jlimits) : start rule :=
  l <== items l ;;
  match l with
  | a :: b :: c :: _ => a <== whole all a ;; b <== whole all b ;; c <== whole all c ;; Started (mkRule a b (3600 * c))
  | [a; b] => a <== whole all a ;; b <== whole all b ;; Raises EIndex
  | [a] => a <== whole all a ;; Raises EIndex
  | [] => Raises EIndex
  end.
(** quotas_rules_fromJson, quotas.py:797-823.  A key that does not have four parts is an exception when the first slot is made (init_rule_tree). *)
Definition key_of (s : string) : start qkey := match split_on "," s with [a; b; c; d] => Started (a, b, c, d) | _ => Raises EValue end.
Fixpoint rules_of (all : option Z) (js : list (string * jlimits)) : start rules :=
  match js with
  | [] => Started []
  | (k, v) :: js' => v <== limits all v ;; k <== key_of k ;; r <== rules_of all js' ;; Started ((k, v) :: r)
  end.

(** ** The file *)
Record qfile := mkQfile {
  f_periodical : option (list (list string)); f_oneshot : option (list (list string));
  f_sets : list (string * list (string * jlimits)); f_types : option (list string) }.
Definition nth_text (l : list string) (i : nat) : start string := match l !! i with Some s => Started s | None => Raises EIndex end.
(** quotas.py:53-66 *)
Definition add_set (f : qfile) (name : string) (acc : list (string * rules)) : start (list (string * rules)) :=
  if bool_decide (name ∈ fst <$> acc) then Started acc
  else match sget name (f_sets f) with
       | None => Raises EKey
       | Some js => r <== rules_of None js ;; Started (acc ++ [(name, r)])
       end.
Fixpoint add_sets (f : qfile) (i : nat) (entries : list (list string)) (acc : list (string * rules)) : start (list (string * rules)) :=
  match entries with [] => Started acc | p :: ps => n <== nth_text p i ;; acc <== add_set f n acc ;; add_sets f i ps acc end.
(** quotas_rules2id *)
Fixpoint id_from (n : Z) (name : string) (l : list (string * rules)) : option Z :=
  match l with [] => None | p :: l' => if bool_decide (fst p = name) then Some n else id_from (n + 1) name l' end.
Definition id_of (name : string) (l : list (string * rules)) : start Z := match id_from 0 name l with Some n => Started n | None => Raises EKey end.
(** quotas.py:69-76 *)
Fixpoint read_periods (sets : list (string * rules)) (entries : list (list string)) (dflt : option Z) (acc : list per) : start (list per * option Z) :=
  match entries with
  | [] => Started (acc, dflt)
  | p :: ps =>
      s <== nth_text p 0 ;; n <== nth_text p 1 ;; id <== id_of n sets ;;
      if bool_decide (s = "* * * *"%string) || bool_decide (s = "default"%string) then read_periods sets ps (Some id) acc
      else l <== periodical s id ;; read_periods sets ps dflt (acc ++ l)
  end.
(** check_reservation(text + ":00"), oneshot_fromJson, quotas.py:180-212 *)
Definition shot_date (mktime : list Z -> Z) (s : string) : start (option Z) :=
  match parse_date (s +:+ ":00") with None => Started None | Some l => if date_exists l then Started (Some (mktime l)) else Raises EValue end.
Definition oneshot (mktime : list Z -> Z) (sets : list (string * rules)) (o : list string) : start shot :=
  s0 <== nth_text o 0 ;; d0 <== shot_date mktime s0 ;; s1 <== nth_text o 1 ;; d1 <== shot_date mktime s1 ;;
  match d0, d1 with
  | Some d0, Some d1 => n <== nth_text o 2 ;; id <== id_of n sets ;; _ <== nth_text o 3 ;; Started (mkShot d0 d1 id)
  | _, _ => Exits
  end.
Fixpoint read_shots (mktime : list Z -> Z) (sets : list (string * rules)) (l : list (list string)) : start (list shot) :=
  match l with [] => Started [] | o :: l' => o <== oneshot mktime sets o ;; r <== read_shots mktime sets l' ;; Started (o :: r) end.
(** sorted(..., key=begin) *)
Definition earlier (a b : shot) : Prop := s_begin a <= s_begin b.
Global Instance earlier_dec a b : Decision (earlier a b).
Proof. unfold earlier. apply _. Defined.
Definition entries_of (l : option (list (list string))) : list (list string) := default [] l.
(** Calendar.__init__: the rules by number, the periods, the one-shots *)
Record cal := mkCalendar { c_sets : list (string * rules); c_pers : list per; c_shots : list shot }.
Definition read_calendar (mktime : list Z -> Z) (f : qfile) : start cal :=
  sets <== add_sets f 1 (entries_of (f_periodical f)) [] ;;
  sets <== add_sets f 2 (entries_of (f_oneshot f)) sets ;;
  l <== read_periods sets (entries_of (f_periodical f)) None [] ;;
  shots <== read_shots mktime sets (entries_of (f_oneshot f)) ;;
  Started (mkCalendar sets (periodicals (fst l) (snd l)) (merge_sort earlier shots)).
(** load_quotas_rules, quotas.py:825-884: the calendar, the default rules, the job types *)
Record loaded := mkLoaded { ld_cal : option cal; ld_default : rules; ld_types : list string }.
Definition load (mktime : list Z -> Z) (all : option Z) (f : qfile) : start loaded :=
  c <== match f_periodical f, f_oneshot f with None, None => Started None | _, _ => c <== read_calendar mktime f ;; Started (Some c) end ;;
  d <== match sget "quotas" (f_sets f) with Some js => rules_of all js | None => Started [] end ;;
  Started (mkLoaded c d ("*"%string :: default [] (f_types f))).
(** The numbers of resources ResourceSet counts, oar/lib/resource.py:18-24, 71-84: a resource is its state and its type.
    nb_resources_default is set to 1 ("= +1") at each resource that counts. *)
Record counts := mkCounts { nb_default_not_dead : Z; nb_default : Z }.
Definition count_one (n : counts) (r : string * string) : counts :=
  mkCounts (if negb (bool_decide (fst r = "Dead"%string)) && bool_decide (snd r = "default"%string) then nb_default_not_dead n + 1 else nb_default_not_dead n)
    (if (bool_decide (fst r = "Alive"%string) || bool_decide (fst r = "Absent"%string)) && bool_decide (snd r = "default"%string) then 1 else nb_default n).
Definition count_resources (rs : list (string * string)) : counts := fold_left count_one rs (mkCounts 0 0).
(** enable, quotas.py:520-536: ALL, according to QUOTAS_ALL_NB_RESOURCES_MODE *)
Definition all_value (mode : option string) (rs : list (string * string)) : Z :=
  if bool_decide (default "default_not_dead"%string mode = "default_not_dead"%string) then nb_default_not_dead (count_resources rs) else nb_default (count_resources rs).
(** What the slots use: the rules of a number (quotas.py:790-794), the week. *)
Definition rules_by_number (l : list (string * rules)) (id : Z) : rules := if 0 <=? id then default [] (snd <$> (l !! Z.to_nat id)) else [].
Definition conf_of (itvs : procset) (d : loaded) : qconf :=
  mkQconf (mkQenv itvs (ld_types d)) (ld_default d) (match ld_cal d with Some c => rules_by_number (c_sets c) | None => fun _ => [] end).
Definition calendar_of (c : cal) (period : Z) (week_of : Z -> Z) : calendar := mkCal (c_pers c) (c_shots c) period week_of.
