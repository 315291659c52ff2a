(** The numbering of resources used by the scheduler: class ResourceSet, oar/lib/resource.py:12-135,
    and Hierarchy, oar/lib/hierarchy.py:13-31.  No proofs here. *)
From Verif Require Import Base HierarchyModel.

(** A row of the table resources.  [rr_attr] gives the value of a hierarchy label ("resource_id" stands
    for the column id).  The columns not used here are left out. *)
Record rrow := mkRrow { rr_id : Z; rr_state : string; rr_type : string; rr_upto : Z; rr_attr : string -> string }.

(** MAX_NB_RESOURCES, resource.py:10: the size of the two arrays. *)
Definition max_nb : Z := 100000.

(** Line 77: the resources taken into account. *)
Definition usable (r : rrow) : bool :=
  bool_decide (rr_state r = "Alive"%string) || bool_decide (rr_state r = "Absent"%string).

(** The rows come in the order of SCHEDULER_RESOURCE_ORDER; [roid] is the rank of a row.  The arrays
    rid_i2o and rid_o2i start with zeros and are filled for the usable rows only (lines 28-29, 86-87). *)
Fixpoint fill_i2o (rows : list rrow) (roid : Z) (a : Z -> Z) : Z -> Z :=
  match rows with
  | [] => a
  | r :: rows' => fill_i2o rows' (roid + 1) (if usable r then fun i => if i =? rr_id r then roid else a i else a)
  end.
Definition i2o (rows : list rrow) : Z -> Z := fill_i2o rows 0 (fun _ => 0).
Fixpoint fill_o2i (rows : list rrow) (roid : Z) (a : Z -> Z) : Z -> Z :=
  match rows with
  | [] => a
  | r :: rows' => fill_o2i rows' (roid + 1) (if usable r then fun i => if i =? roid then rr_id r else a i else a)
  end.
Definition o2i (rows : list rrow) : Z -> Z := fill_o2i rows 0 (fun _ => 0).
(** An access to an array: IndexError outside (negative ids do not occur). *)
Definition at_ (a : Z -> Z) (i : Z) : res Z := if i <? max_nb then Ok (a i) else Err EIndex.
(** The construction fails on an identifier or a rank beyond the arrays. *)
Definition build_ok (rows : list rrow) : bool :=
  forallb (fun r => negb (usable r) || (rr_id r <? max_nb)) rows && (Z.of_nat (length rows) <=? max_nb).

(** roids (line 79), absent_roids (109), suspendable (104), and the ranks of a selection in general. *)
Fixpoint ranks (f : rrow -> bool) (rows : list rrow) (roid : Z) : list Z :=
  match rows with
  | [] => []
  | r :: rows' => (if f r then [roid] else []) ++ ranks f rows' (roid + 1)
  end.
Definition roid_itvs (rows : list rrow) : procset := list_to_set (ranks usable rows 0).
Definition absent_itvs (rows : list rrow) : procset :=
  list_to_set (ranks (fun r => bool_decide (rr_state r = "Absent"%string)) rows 0).
(** default_itvs, lines 81-82, 133-134: through rid_i2o. *)
Definition default_itvs (rows : list rrow) : procset :=
  list_to_set (i2o rows <$> (rr_id <$> base.filter (fun r => usable r = true /\ rr_type r = "default"%string) rows)).

(** The resources given by an SQL condition, whatever their state, job_handling.py:361-368 and
    submission.py:837-853: [sel] says which rows the condition selects. *)
Definition sql_itvs (rows : list rrow) (sel : rrow -> bool) : procset :=
  list_to_set (i2o rows <$> (rr_id <$> base.filter (fun r => sel r = true) rows)).

(** One level of the hierarchy, lines 89-95: the ranks grouped by value, values in the order of their first
    occurrence (OrderedDict). *)
Fixpoint add_group (v : string) (roid : Z) (l : list (string * list Z)) : list (string * list Z) :=
  match l with
  | [] => [(v, [roid])]
  | (w, ids) :: l' => if bool_decide (w = v) then (w, ids ++ [roid]) :: l' else (w, ids) :: add_group v roid l'
  end.
Fixpoint group_loop (label : string) (rows : list rrow) (roid : Z) (l : list (string * list Z)) : list (string * list Z) :=
  match rows with
  | [] => l
  | r :: rows' => group_loop label rows' (roid + 1) (if usable r then add_group (rr_attr r label) roid l else l)
  end.
Definition level_of (label : string) (rows : list rrow) : list procset :=
  (fun p => list_to_set (snd p)) <$> group_loop label rows 0 [].
(** Lines 98-101: the ranks grouped by available_upto. *)
Fixpoint add_upto (v : Z) (roid : Z) (l : list (Z * list Z)) : list (Z * list Z) :=
  match l with
  | [] => [(v, [roid])]
  | (w, ids) :: l' => if w =? v then (w, ids ++ [roid]) :: l' else (w, ids) :: add_upto v roid l'
  end.
Fixpoint upto_loop (rows : list rrow) (roid : Z) (l : list (Z * list Z)) : list (Z * list Z) :=
  match rows with
  | [] => l
  | r :: rows' => upto_loop rows' (roid + 1) (if usable r then add_upto (rr_upto r) roid l else l)
  end.
Definition available_upto (rows : list rrow) : list (Z * procset) :=
  (fun p => (fst p, list_to_set (snd p))) <$> upto_loop rows 0 [].
