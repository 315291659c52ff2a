(** What it means to serve a hierarchical resource request. *)
From Verif Require Import Base.

(** The blocks of a level that are entirely free, in level order. *)
Definition free_blocks (free : procset) (lv : list procset) : list procset :=
  base.filter (fun b => b ⊆ free) lv.

(** The blocks of a level lying inside a block of the level above. *)
Definition inside (b : procset) (lv : list procset) : list procset :=
  base.filter (fun x => x ⊆ b) lv.

(** [placement free cands n rest x]: [x] is made of exactly [n] of the candidate blocks;
    in each of them the request [rest] for the levels below is placed in turn; at the
    bottom the blocks are taken whole and are entirely free. *)
Fixpoint placement (free : procset) (cands : list procset) (n : Z)
    (rest : list (list procset * Z)) (x : procset) : Prop :=
  match rest with
  | [] => exists bs, bs `sublist_of` cands /\ Z.of_nat (length bs) = n /\
            Forall (fun b => b ⊆ free) bs /\ x = ⋃ bs
  | (lv, m) :: rest' =>
      exists bs ys, bs `sublist_of` cands /\ Z.of_nat (length bs) = n /\
        Forall2 (fun b y => placement free (inside b lv) m rest' y) bs ys /\ x = ⋃ ys
  end.

(** Nested levels: a block of a level is inside, or disjoint from, each block of the level
    just above; and blocks are not empty. *)
Fixpoint nested (top : list procset) (rest : list (list procset * Z)) : Prop :=
  match rest with
  | [] => True
  | (lv, _) :: rest' =>
      (forall b x, b ∈ top -> x ∈ lv -> x ⊆ b \/ b ∩ x = ∅) /\ nested lv rest'
  end.

Definition nonempty_blocks (rest : list (list procset * Z)) : Prop :=
  Forall (fun p => Forall (fun b : procset => b <> ∅) (fst p)) rest.
Definition positive_counts (rest : list (list procset * Z)) : Prop :=
  Forall (fun p : list procset * Z => 0 < snd p) rest.

(** One group of a request, served from [free]: read the group's levels in the hierarchy, keep the
    resources that meet the group's properties, and place the request in them.  The numbers -1,
    -2, -3 (ALL, BEST, HALF_BEST) are only meaningful for one level. *)
Definition levels_of (hy : gmap string (list procset)) (l : list (string * Z)) (ls : list (list procset * Z)) : Prop :=
  Forall2 (fun p q => hy !! fst p = Some (fst q) /\ snd q = snd p) l ls.

Definition served (free : procset) (ls : list (list procset * Z)) (x : procset) : Prop :=
  x <> ∅ /\
  match ls with
  | [] => False
  | (lv, n) :: rest =>
      (0 < n /\ placement free lv n rest x) \/
      (rest = [] /\ n = -1 /\ Forall (fun b => b ⊆ free) lv /\ x = ⋃ lv) \/
      (rest = [] /\ n = -2 /\ x = ⋃ (free_blocks free lv)) \/
      (rest = [] /\ n = -3 /\
        x = ⋃ (take (length (free_blocks free lv) / 2)%nat (free_blocks free lv)))
  end.

(** Requests the scheduler can meet: known levels that nest, non-empty blocks, positive numbers
    except possibly in a one-level request. *)
Definition proper_levels (ls : list (list procset * Z)) : Prop :=
  match ls with
  | [] => False
  | (lv, n) :: rest =>
      lv <> [] /\ Forall (fun b : procset => b <> ∅) lv /\ nested lv rest /\
      nonempty_blocks rest /\ positive_counts rest /\ (0 < n \/ rest = [])
  end.

(** Blocks of one level do not overlap. *)
Definition disjoint_blocks (lv : list procset) : Prop :=
  forall i j a b, lv !! i = Some a -> lv !! j = Some b -> i <> j -> a ∩ b = ∅.
(** Number of bottom blocks of a request. *)
Fixpoint total (n : Z) (rest : list (list procset * Z)) : Z :=
  match rest with [] => n | (_, m) :: rest' => n * total m rest' end.
(** The blocks of the bottom level. *)
Fixpoint bottom (lv : list procset) (rest : list (list procset * Z)) : list procset :=
  match rest with [] => lv | (lv', _) :: rest' => bottom lv' rest' end.
