(** Resource requests: parse_resource_descriptions and estimate_job_nb_resources,
    oar/lib/submission.py:684-898.  Texts are byte strings; a newline is an ordinary character for the
    regular expressions (in Python "." stops at it).  No proofs here. *)
From Verif Require Import Base TimeModel HierarchyModel.

(** s.split(c), for a one-character separator. *)
Fixpoint split_on (c : ascii) (s : string) : list string :=
  match s with
  | EmptyString => [EmptyString]
  | String a s' =>
      if bool_decide (a = c) then EmptyString :: split_on c s'
      else match split_on c s' with
           | w :: ws => String a w :: ws
           | [] => [String a EmptyString]
           end
  end.
(** s.lstrip(): the ASCII blanks. *)
Definition is_blank (a : ascii) : bool :=
  let n := nat_of_ascii a in ((9 <=? n) && (n <=? 13) || (28 <=? n) && (n <=? 32))%nat.
Fixpoint lstrip (s : string) : string :=
  match s with
  | EmptyString => EmptyString
  | String a s' => if is_blank a then lstrip s' else s
  end.
(** The text before and after the first [c]. *)
Fixpoint cut_at (c : ascii) (s : string) : option (string * string) :=
  match s with
  | EmptyString => None
  | String a s' =>
      if bool_decide (a = c) then Some (EmptyString, s')
      else match cut_at c s' with Some (x, y) => Some (String a x, y) | None => None end
  end.
(** The regular expression of line 737: the property between braces, at least one character long, up to
    the first closing brace; and the rest. *)
Definition match_property (s : string) : option (string * string) :=
  match s with
  | String a (String b s') =>
      if bool_decide (a = "{"%char) then
        match cut_at "}" s' with Some (x, y) => Some (String b x, y) | None => None end
      else None
  | _ => None
  end.
(** re.match(r"walltime=.*", s) *)
Definition starts_walltime (s : string) : bool := String.prefix "walltime=" s.

(** The value of a level: an integer for ALL, BEST, HALF_BEST, the text otherwise. *)
Inductive rval := RInt (n : Z) | RText (s : string).
Definition level : Type := string * rval.
(** A group: property and levels.  A moldable instance: groups and walltime. *)
Definition group : Type := string * list level.
Definition moldable : Type := list group * option Z.

(** Lines 758-775: one level, with the number of special values it adds. *)
Definition parse_level (nodes : string) (s : string) : res (level * Z) :=
  match split_on "=" (lstrip s) with
  | [r; v] =>
      let r := if bool_decide (r = "nodes"%string) then nodes else r in
      if bool_decide (v = "ALL"%string) then Ok ((r, RInt (-1)), 1)
      else if bool_decide (v = "BEST"%string) then Ok ((r, RInt (-2)), 1)
      else if bool_decide (v = "HALF_BEST"%string) then Ok ((r, RInt (-3)), 1)
      else Ok ((r, RText v), 0)
  | _ => Err EValue
  end.
(** The loop of lines 756-784: None is the refusal with code 25. *)
Fixpoint parse_levels (nodes : string) (l : list string) (count : Z) (acc : list level) : res (option (list level)) :=
  match l with
  | [] => Ok (Some acc)
  | s :: l' =>
      if bool_decide (lstrip s = EmptyString) then parse_levels nodes l' count acc
      else
        '(v, n) <-- parse_level nodes s ;;
        if 1 <? count + n then Ok None
        else parse_levels nodes l' (count + n) (acc ++ [v])
  end.
(** Lines 735-786: one group. *)
Definition parse_group (nodes : string) (s : string) : res (option group) :=
  let '(p, rest) := match match_property s with Some pr => pr | None => (EmptyString, s) end in
  ls <-- parse_levels nodes (split_on "/" rest) 0 [] ;;
  Ok (match ls with Some ls => Some (p, ls) | None => None end).
Fixpoint parse_groups (nodes : string) (l : list string) : res (option (list group)) :=
  match l with
  | [] => Ok (Some [])
  | s :: l' =>
      g <-- parse_group nodes s ;;
      match g with
      | None => Ok None
      | Some g => gs <-- parse_groups nodes l' ;;
                  Ok (match gs with Some gs => Some (g :: gs) | None => None end)
      end
  end.
(** Lines 721-733 and 788: one moldable instance.  The walltime is kept only when there is exactly one
    comma, and one "=" after it. *)
Definition parse_moldable (default_resources nodes : string) (s : string) : res (option moldable) :=
  let parts := split_on "," s in
  let first := match parts with a :: _ => a | [] => EmptyString end in
  let parts := if starts_walltime first then [default_resources; first] else parts in
  let str_prop := match parts with a :: _ => a | [] => EmptyString end in
  walltime <--
    (match parts with
     | [_; w] => match split_on "=" w with
                 | [_; d] => match hms_str_to_duration d with Some t => Ok (Some t) | None => Err EValue end
                 | _ => Ok None
                 end
     | _ => Ok None
     end) ;;
  gs <-- parse_groups nodes (split_on "+" str_prop) ;;
  Ok (match gs with Some gs => Some (gs, walltime) | None => None end).
Fixpoint parse_moldables (default_resources nodes : string) (l : list string) : res (option (list moldable)) :=
  match l with
  | [] => Ok (Some [])
  | s :: l' =>
      m <-- parse_moldable default_resources nodes s ;;
      match m with
      | None => Ok None
      | Some m => ms <-- parse_moldables default_resources nodes l' ;;
                  Ok (match ms with Some ms => Some (m :: ms) | None => None end)
      end
  end.
(** parse_resource_descriptions, submission.py:684-790. *)
Definition parse_request (l : list string) (default_resources nodes : string) : res (option (list moldable)) :=
  parse_moldables default_resources nodes (match l with [] => [default_resources] | _ => l end).

(** ** estimate_job_nb_resources, submission.py:793-898 *)
(** [sql c]: the resources selected by the condition [c], None for an SQL error. *)
Record platform := mkPlatform { pf_all : procset; pf_hy : hierarchy; pf_sql : string -> option procset; pf_wall : Z }.

(** Lines 819-855: the resources that satisfy the properties of the job and of the group. *)
Definition group_constraints (pf : platform) (jprop gprop : string) : option procset :=
  if bool_decide (jprop = EmptyString)
     && (bool_decide (gprop = EmptyString) || bool_decide (gprop = "type='default'"%string))
  then Some (pf_all pf)
  else pf_sql pf (jprop +:+ (if negb (bool_decide (jprop = EmptyString)) && negb (bool_decide (gprop = EmptyString))
                            then " AND " else "") +:+ gprop)%string.
(** int(value) *)
Definition rval_int (v : rval) : res Z :=
  match v with RInt n => Ok n | RText s => match int_of s with Some n => Ok n | None => Err EValue end end.
(** Lines 857-873; inl: error code. *)
Fixpoint read_levels (hy : hierarchy) (l : list level) : res (Z + list (list procset * Z)) :=
  match l with
  | [] => Ok (inr [])
  | (name, v) :: l' =>
      match hy !! name with
      | None => Ok (inl (-3))
      | Some lv =>
          n <-- rval_int v ;;
          r <-- read_levels hy l' ;;
          Ok (match r with inl e => inl e | inr ls => inr ((lv, n) :: ls) end)
      end
  end.
(** Lines 814-881: the sum over the groups of the number of resources found. *)
Fixpoint estimate_groups (pf : platform) (jprop : string) (gs : list group) (acc : Z) : res (Z + Z) :=
  match gs with
  | [] => Ok (inr acc)
  | (gprop, ls) :: gs' =>
      match group_constraints pf jprop gprop with
      | None => Ok (inl (-5))
      | Some cs =>
          r <-- read_levels (pf_hy pf) ls ;;
          match r with
          | inl e => Ok (inl e)
          | inr levels =>
              x <-- find_scattered (cs ∩ pf_all pf) levels ;;
              estimate_groups pf jprop gs' (acc + Z.of_nat (size x))
          end
      end
  end.
(** Lines 806-898: (nb, walltime) for each moldable instance; refused when all are zero. *)
Fixpoint estimate_loop (pf : platform) (jprop : string) (ms : list moldable) : res (Z + list (Z * Z)) :=
  match ms with
  | [] => Ok (inr [])
  | (gs, w) :: ms' =>
      (* "if not walltime": a null walltime is replaced too *)
      let w := match w with Some t => if t =? 0 then pf_wall pf else t | None => pf_wall pf end in
      n <-- estimate_groups pf jprop gs 0 ;;
      match n with
      | inl e => Ok (inl e)
      | inr n => r <-- estimate_loop pf jprop ms' ;;
                 Ok (match r with inl e => inl e | inr l => inr ((n, w) :: l) end)
      end
  end.
Definition estimate (pf : platform) (jprop : string) (ms : list moldable) : res (Z + list (Z * Z)) :=
  r <-- estimate_loop pf jprop ms ;;
  Ok (match r with
      | inl e => inl e
      | inr l => if existsb (fun p => 0 <? fst p) l then inr l else inl (-5)
      end).
