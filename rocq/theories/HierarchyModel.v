(** Model of oar/lib/hierarchy.py and of find_resource_hierarchies_job
    (oar/kao/scheduling.py:87-119).  Pure transcription, no proofs. *)
From Verif Require Import Base.

(** keep_no_empty_scat_bks, hierarchy.py:33-55. *)
Definition keep_no_empty (itvs : procset) (ref : list procset) : list procset :=
  base.filter (fun x => x ∩ itvs <> ∅) ref.

(** extract_n_scattered_block_itv, hierarchy.py:58-109: the while loop. *)
Fixpoint extract_loop (itvs1 : procset) (ref : list procset) (n : Z) (itvs : procset) : Z * procset :=
  match ref with
  | [] => (n, itvs)
  | x :: ref' =>
      if 0 <? n then
        let y := itvs1 ∩ x in
        if bool_decide (x = y) then extract_loop itvs1 ref' (n - 1) (itvs ∪ y)
        else extract_loop itvs1 ref' n itvs
      else (n, itvs)
  end.

Definition extract_n (itvs1 : procset) (ref : list procset) (n : Z) : procset :=
  let '(n, itvs) := extract_loop itvs1 ref n ∅ in
  if n =? 0 then itvs else ∅.

(** extract_all_best_half_scattered_block_itv, hierarchy.py:112-179.
    The first loop: union and number of the free blocks. *)
Fixpoint count_loop (itvs1 : procset) (ref : list procset) (itvs : procset) (b : Z) : procset * Z :=
  match ref with
  | [] => (itvs, b)
  | x :: ref' =>
      let y := itvs1 ∩ x in
      if bool_decide (x = y) then count_loop itvs1 ref' (itvs ∪ y) (b + 1)
      else count_loop itvs1 ref' itvs b
  end.

(** The HALF_BEST loop, hierarchy.py:166-174: [itvs_ref[i]] past the end raises IndexError. *)
Fixpoint half_loop (itvs1 : procset) (ref : list procset) (todo : Z) (itvs : procset) : res procset :=
  if 0 <? todo then
    match ref with
    | [] => Err EIndex
    | x :: ref' =>
        let y := itvs1 ∩ x in
        if bool_decide (x = y) then half_loop itvs1 ref' (todo - 1) (itvs ∪ y)
        else half_loop itvs1 ref' todo itvs
    end
  else Ok itvs.

(** [lr] is only bound by the for loop: an empty level raises UnboundLocalError (a NameError). *)
Definition extract_abh (itvs1 : procset) (ref : list procset) (n : Z) : res procset :=
  match ref with
  | [] => Err EName
  | _ =>
      let '(itvs, b) := count_loop itvs1 ref ∅ 0 in
      let lr := Z.of_nat (length ref) in
      if (n =? -1) && (lr =? b) then Ok itvs
      else if n =? -2 then Ok itvs
      else if n =? -3 then half_loop itvs1 ref (b / 2) ∅
      else Ok ∅
  end.

(** The block loop shared by both branches of find_resource_n_h, hierarchy.py:263-286 and
    292-309: [f bk] is what the block yields; stop after [n] successes. *)
Fixpoint take_loop (f : procset -> procset) (bks : list procset) (n nb_r : Z) (acc : procset) : Z * procset :=
  match bks with
  | [] => (nb_r, acc)
  | bk :: bks' =>
      if nb_r =? n then (nb_r, acc)
      else
        let r := f bk in
        if nonempty r then take_loop f bks' n (nb_r + 1) (acc ∪ r)
        else take_loop f bks' n nb_r acc
  end.

(** The sub-blocks tried inside a block at the last level, hierarchy.py:269-271. *)
Definition sub_blocks (bk : procset) (lv : list procset) : list procset :=
  base.filter (fun x => x <> ∅) ((fun x => bk ∩ x) <$> lv).
(** The children of a block at an intermediate level, hierarchy.py:297. *)
Definition children (bk : procset) (lv : list procset) : list procset :=
  base.filter (fun x => x ⊆ bk) lv.

(** find_resource_n_h, hierarchy.py:232-309.  [top], [n]: blocks and number wanted at this
    level; [rest]: the levels below with their numbers (never empty in a call). *)
Fixpoint find_n_h (itvs : procset) (top : list procset) (n : Z) (rest : list (list procset * Z)) : procset :=
  match rest with
  | [] => ∅
  | (lv, m) :: rest' =>
      let avail := keep_no_empty itvs top in
      if Z.of_nat (length avail) <? n then ∅
      else
        let f := fun bk =>
          match rest' with
          | [] => extract_n itvs (sub_blocks bk lv) m
          | _ => find_n_h itvs (children bk lv) m rest'
          end in
        let '(nb_r, acc) := take_loop f avail n 0 ∅ in
        if nb_r =? n then acc else ∅
  end.

(** find_resource_hierarchies_scattered, hierarchy.py:182-229. *)
Definition find_scattered (itvs : procset) (levels : list (list procset * Z)) : res procset :=
  match levels with
  | [] => Err EIndex
  | [(lv, n)] => if 0 <? n then Ok (extract_n itvs lv n) else extract_abh itvs lv n
  | (lv, n) :: rest => Ok (find_n_h itvs lv n rest)
  end.

(** A resource group of a request: level names with numbers, and the set of the resources
    that satisfy the group's properties.  A request is a list of groups. *)
Definition rgroup : Type := list (string * Z) * procset.
Notation hierarchy := (gmap string (list procset)).

(** Reading the levels: [hy[l_name]], scheduling.py:106-110. *)
Fixpoint get_levels (hy : hierarchy) (l : list (string * Z)) : res (list (list procset * Z)) :=
  match l with
  | [] => Ok []
  | (name, n) :: l' =>
      match hy !! name with
      | None => Err EKey
      | Some lv => r <-- get_levels hy l' ;; Ok ((lv, n) :: r)
      end
  end.

(** find_resource_hierarchies_job, scheduling.py:87-119. *)
Fixpoint find_job_loop (itvs : procset) (groups : list rgroup) (hy : hierarchy) (result : procset) : res procset :=
  match groups with
  | [] => Ok result
  | (l, constraints) :: groups' =>
      levels <-- get_levels hy l ;;
      r <-- find_scattered (constraints ∩ itvs) levels ;;
      if nonempty r then find_job_loop itvs groups' hy (result ∪ r) else Ok ∅
  end.

Definition find_resource_hierarchies_job (itvs : procset) (groups : list rgroup) (hy : hierarchy) : res procset :=
  find_job_loop itvs groups hy ∅.
