(** What it means to serve jobs and queues in order. *)
From Verif Require Import Base.
From Coq Require Import QArith Sorting.Sorted.
Local Open Scope Z_scope.

(** [x] occurs before [y] in [l]. *)
Definition before {A} (l : list A) (x y : A) : Prop :=
  exists l1 l2 l3, l = l1 ++ x :: l2 ++ y :: l3.

(** [out] holds the elements of [inp], each as many times, by increasing key; elements with the
    same key stay in the order of [inp]. *)
Definition orderly {A} (key : A -> Q) (inp out : list A) : Prop :=
  out ≡ₚ inp /\
  StronglySorted (fun x y => (key x < key y)%Q \/ ((key x == key y)%Q /\ before inp x y)) out.

(** The same by decreasing key. *)
Definition orderly_rev {A} (key : A -> Q) (inp out : list A) : Prop :=
  out ≡ₚ inp /\
  StronglySorted (fun x y => (key y < key x)%Q \/ ((key x == key y)%Q /\ before inp x y)) out.
