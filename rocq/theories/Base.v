(** Common definitions: exceptions as values, integer sets. *)
From Coq Require Export ZArith Lia String.
From stdpp Require Export base gmap list strings sorting.
From Coq Require Export ZifyBool.
Global Open Scope Z_scope.

(** Python exceptions the modelled code can raise.  [EFuel] is not a Python
    exception: it is the error value of a loop whose explicit fuel ran out. *)
Inductive err := EKey | EAssert | EIndex | EAttr | EName | EType | EFuel | EValue | EZeroDiv.

Inductive res (A : Type) : Type :=
| Ok (a : A)
| Err (e : err).
Arguments Ok {A} a.
Arguments Err {A} e.

Definition rbind {A B} (m : res A) (f : A -> res B) : res B :=
  match m with Ok a => f a | Err e => Err e end.

Declare Scope res_scope.
Notation "x <-- m ;; k" := (rbind m (fun x => k))
  (at level 100, m at next level, right associativity) : res_scope.
Notation "' p <-- m ;; k" := (rbind m (fun x => match x with p => k end))
  (at level 100, p pattern, m at next level, right associativity) : res_scope.
Global Open Scope res_scope.

(** [assert c] *)
Definition rassert {A} (c : bool) (k : res A) : res A :=
  if c then k else Err EAssert.

(** [d[k]] on a dictionary *)
Definition dget {A} (k : Z) (m : gmap Z A) : res A :=
  match m !! k with Some a => Ok a | None => Err EKey end.

Lemma rbind_Ok {A B} (m : res A) (f : A -> res B) b :
  rbind m f = Ok b -> exists a, m = Ok a /\ f a = Ok b.
Proof. destruct m as [a|e]; cbn; intros H; [eauto|discriminate]. Qed.

(** A ProcSet (external library [procset]): a finite set of integers. *)
Notation procset := (gset Z).

(** Python truth value of a ProcSet / [len(x) != 0]. *)
Definition nonempty (x : procset) : bool := negb (bool_decide (x = ∅)).

Lemma nonempty_true x : nonempty x = true <-> x <> ∅.
Proof. unfold nonempty. rewrite negb_true_iff, bool_decide_eq_false. done. Qed.
Lemma nonempty_false x : nonempty x = false <-> x = ∅.
Proof. unfold nonempty. rewrite negb_false_iff, bool_decide_eq_true. done. Qed.

(** The interval [lo..hi] as a ProcSet. *)
Definition range (lo hi : Z) : procset :=
  list_to_set ((fun i => lo + Z.of_nat i) <$> seq 0 (Z.to_nat (hi - lo + 1))).

Lemma elem_of_range x lo hi : x ∈ range lo hi <-> lo <= x <= hi.
Proof.
  unfold range. rewrite elem_of_list_to_set, elem_of_list_fmap. split.
  - intros (i & -> & Hi). apply elem_of_seq in Hi. lia.
  - intros H. exists (Z.to_nat (x - lo)). split; [lia|]. apply elem_of_seq. lia.
Qed.

(** Running closed examples: never normalise a finite map, only booleans about it. *)
Definition is_ok {A} (r : res A) : bool := match r with Ok _ => true | Err _ => false end.
Definition from_ok {A} (d : A) (r : res A) : A := match r with Ok a => a | Err _ => d end.
Lemma from_ok_eq {A} (d : A) (r : res A) : is_ok r = true -> r = Ok (from_ok d r).
Proof. destruct r; cbn; congruence. Qed.
Definition is_err {A} (e : err) (r : res A) : bool :=
  match r with
  | Ok _ => false
  | Err e' => match e, e' with
              | EKey, EKey | EAssert, EAssert | EIndex, EIndex | EAttr, EAttr
              | EName, EName | EType, EType | EFuel, EFuel | EValue, EValue | EZeroDiv, EZeroDiv => true
              | _, _ => false end
  end.
Lemma is_err_eq {A} e (r : res A) : is_err e r = true -> r = Err e.
Proof. destruct r as [a|[]]; cbn; destruct e; congruence. Qed.
Lemma lookup_computed {A} (d : A) (m : gmap Z A) k :
  (match m !! k with Some _ => true | None => false end) = true -> m !! k = Some (default d (m !! k)).
Proof. destruct (m !! k); cbn; congruence. Qed.

(** Decide a closed proposition by computation. *)
Ltac by_dec := lazymatch goal with
  | |- ~ ?P => refine (bool_decide_eq_false_1 P _)
  | |- ?P => refine (bool_decide_eq_true_1 P _) end; vm_compute; reflexivity.
