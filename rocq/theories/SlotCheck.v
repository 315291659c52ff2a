(** Boolean versions of the slot specification, to run closed examples. *)
From Verif Require Import Base SlotModel SlotSpec.

Definition slots_list (ss : slotset) : list slot := (map_to_list (slots ss)).*2.
Definition free_b (ss : slotset) (t r : Z) : bool :=
  existsb (fun s => (sb s <=? t) && (t <=? se s) && bool_decide (r ∈ itvs (cont s))) (slots_list ss).

Lemma elem_slots_list ss s : s ∈ slots_list ss <-> exists i, slots ss !! i = Some s.
Proof.
  unfold slots_list. rewrite elem_of_list_fmap. split.
  - intros ([i x] & -> & H). apply elem_of_map_to_list in H. eauto.
  - intros (i & H). exists (i, s). split; [done|]. by apply elem_of_map_to_list.
Qed.

Lemma free_b_spec ss t r : free_b ss t r = true <-> free_at ss t r.
Proof.
  unfold free_b, free_at, content_at. rewrite existsb_exists. split.
  - intros (s & Hs & H). apply elem_of_list_In, elem_slots_list in Hs as [i Hi].
    rewrite !andb_true_iff, bool_decide_eq_true in H. destruct H as [[H1 H2] H3].
    exists (cont s). split; [|done]. exists i, s. split; [done|]. split; [lia|done].
  - intros (c & (i & s & Hi & Ht & <-) & Hr). exists s. split; [apply elem_of_list_In, elem_slots_list; eauto|].
    rewrite !andb_true_iff, bool_decide_eq_true. split; [lia|done].
Qed.
Lemma free_b_true ss t r : free_b ss t r = true -> free_at ss t r.
Proof. apply free_b_spec. Qed.
Lemma free_b_false ss t r : free_b ss t r = false -> ~ free_at ss t r.
Proof. intros H. rewrite <- free_b_spec. congruence. Qed.

(** all contents at an instant satisfy a boolean *)
Lemma content_at_all ss t (P : content -> bool) :
  forallb (fun s => negb ((sb s <=? t) && (t <=? se s)) || P (cont s)) (slots_list ss) = true ->
  forall c, content_at ss t c -> P c = true.
Proof.
  rewrite forallb_forall. intros H c (i & s & Hi & Ht & <-).
  specialize (H s). rewrite <- elem_of_list_In in H. specialize (H (proj2 (elem_slots_list _ _) (ex_intro _ i Hi))).
  replace ((sb s <=? t) && (t <=? se s)) with true in H by lia. done.
Qed.
Lemma slots_all ss (P : slot -> bool) :
  forallb P (slots_list ss) = true -> forall i s, slots ss !! i = Some s -> P s = true.
Proof.
  rewrite forallb_forall. intros H i s Hi. apply H, elem_of_list_In, elem_slots_list. eauto.
Qed.

Definition dummy_slot : slot := mkSlot 0 0 0 0 0 (fresh_content false ∅).
Definition slot_of (ss : slotset) (k : Z) : slot := default dummy_slot (slots ss !! k).
Lemma slot_of_eq ss k : (match slots ss !! k with Some _ => true | None => false end) = true ->
  slots ss !! k = Some (slot_of ss k).
Proof. apply lookup_computed. Qed.
