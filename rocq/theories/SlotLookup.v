(** Look-ups, intersections and window enumeration. *)
From Verif Require Import Base SlotModel SlotSpec SlotProofs SlotJobs.

(** * slot_id_at *)
Lemma slot_at_loop_spec ss date l2 : forall l1 s fuel,
  Repr ss (l1 ++ s :: l2) -> (length l2 <= fuel)%nat -> sb s <= date ->
  exists mid c post, s :: l2 = mid ++ c :: post /\
    slot_at_loop fuel (slots ss) s date = Ok c /\ sb c <= date /\ (date <= se c \/ post = []).
Proof.
  induction l2 as [|a l2 IH]; intros l1 s fuel H Hf Hd.
  - exists [], s, []. split; [done|]. pose proof (repr_next_last _ _ _ H) as Hn.
    destruct fuel; cbn [slot_at_loop]; rewrite Hn; cbn [Z.eqb negb]; rewrite andb_false_r; auto.
  - pose proof (repr_next _ _ _ _ _ H) as Hn. pose proof (repr_adj _ _ _ _ _ H) as Ha.
    assert (Hin : a ∈ l1 ++ s :: a :: l2) by mem.
    pose proof (repr_nz _ _ _ H Hin) as Hnz.
    destruct (se s <? date) eqn:E.
    + cbn in Hf. destruct fuel as [|fuel]; [lia|].
      destruct (IH (l1 ++ [s]) a fuel) as (mid & c & post & Eq & E1 & H1 & H2).
      { rewrite <- app_assoc. exact H. } { lia. } { lia. }
      exists (s :: mid), c, post. split; [cbn; congruence|].
      cbn [slot_at_loop]. rewrite E, Hn. replace (sid a =? 0) with false by lia. cbn [negb andb].
      rewrite (repr_dget _ _ _ H Hin). cbn [rbind]. auto.
    + exists [], s, (a :: l2). split; [done|].
      destruct fuel; cbn [slot_at_loop]; rewrite E; cbn [andb]; (split; [done|split; [done|left; lia]]).
Qed.

Lemma slot_id_at_start ss l date : Repr ss l ->
  (begin_ ss <= date <= end_ ss /\ exists s, s ∈ l /\ sb s <= date <= se s /\ slot_id_at (slots ss) date 0 = Ok (sid s))
  \/ (~ begin_ ss <= date <= end_ ss /\ slot_id_at (slots ss) date 0 = Ok 0).
Proof.
  intros H. destruct l as [|s l]; [destruct (repr_ne _ _ H); done|].
  unfold slot_id_at. cbn [Z.eqb orb negb rassert]. rewrite (first_spec _ _ _ H). cbn [rbind].
  pose proof (repr_first_begin _ _ _ H) as Hb.
  assert (Hs : s ∈ s :: l) by mem. pose proof (repr_bounds _ _ _ H Hs).
  destruct (date <? sb s) eqn:E; [right; split; [lia|done]|].
  destruct (slot_at_loop_spec ss date l [] s (size (slots ss)) H) as (mid & c & post & Eq & E1 & H1 & H2).
  { rewrite (repr_size _ _ H). cbn. lia. } { lia. }
  rewrite E1. cbn [rbind].
  assert (Hc : c ∈ s :: l) by (rewrite Eq; mem). pose proof (repr_bounds _ _ _ H Hc).
  destruct (se c <? date) eqn:E2.
  - destruct H2 as [H2|H2]; [lia|]. subst post. rewrite Eq in H.
    rewrite (repr_next_last _ _ _ H). cbn [Z.eqb andb]. right.
    pose proof (repr_last_end _ _ _ H). split; [lia|done].
  - rewrite andb_false_r. left. split; [lia|]. exists c. split; [done|]. split; [lia|done].
Qed.

Lemma slot_id_at_spec ss date : WF ss ->
  (forall i, slot_id_at (slots ss) date 0 = Ok i -> i <> 0 ->
     exists s, slots ss !! i = Some s /\ sb s <= date <= se s) /\
  (slot_id_at (slots ss) date 0 = Ok 0 <-> date < begin_ ss \/ end_ ss < date) /\
  (exists i, slot_id_at (slots ss) date 0 = Ok i).
Proof.
  intros [l H]. destruct (slot_id_at_start ss l date H) as [[Hr (s & Hs & Hd & E)]|[Hr E]].
  - split; [|split].
    + intros i Hi _. rewrite E in Hi. injection Hi as <-. exists s. split; [eapply repr_lookup; eauto|done].
    + split; [|lia]. intros E'. rewrite E in E'. injection E' as E'.
      pose proof (repr_nz _ _ _ H Hs). done.
    + eauto.
  - split; [|split].
    + intros i Hi Hnz. rewrite E in Hi. injection Hi as <-. done.
    + split; [lia|done].
    + eauto.
Qed.

(** with a starting slot: nothing before that slot is seen *)
Lemma slot_id_at_from ss l1 s l2 date : Repr ss (l1 ++ s :: l2) ->
  (sb s <= date <= end_ ss /\ exists x, x ∈ s :: l2 /\ sb x <= date <= se x /\ slot_id_at (slots ss) date (sid s) = Ok (sid x))
  \/ (~ sb s <= date <= end_ ss /\ slot_id_at (slots ss) date (sid s) = Ok 0).
Proof.
  intros H. assert (Hs : s ∈ l1 ++ s :: l2) by mem.
  unfold slot_id_at. pose proof (repr_nz _ _ _ H Hs) as Hnz.
  replace (sid s =? 0) with false by lia. cbn [orb negb].
  rewrite bool_decide_true by (rewrite (repr_lookup _ _ _ H Hs); eauto). cbn [rassert].
  rewrite (repr_dget _ _ _ H Hs). cbn [rbind].
  pose proof (repr_bounds _ _ _ H Hs).
  destruct (date <? sb s) eqn:E; [right; split; [lia|done]|].
  destruct (slot_at_loop_spec ss date l2 l1 s (size (slots ss)) H) as (mid & c & post & Eq & E1 & H1 & H2).
  { rewrite (repr_size _ _ H), app_length. cbn. lia. } { lia. }
  rewrite E1. cbn [rbind].
  assert (Hc' : c ∈ s :: l2) by (rewrite Eq; mem).
  assert (Hc : c ∈ l1 ++ s :: l2) by (apply elem_of_app; auto). pose proof (repr_bounds _ _ _ H Hc).
  destruct (se c <? date) eqn:E2.
  - destruct H2 as [H2|H2]; [lia|]. subst post. rewrite Eq in H. rewrite app_assoc in H.
    rewrite (repr_next_last _ _ _ H). cbn [Z.eqb andb]. right.
    pose proof (repr_last_end _ _ _ H). split; [lia|done].
  - rewrite andb_false_r. left. split; [lia|]. exists c. split; [done|]. split; [lia|done].
Qed.

(** * intersec_itvs_slots *)
Definition inter_list (acc : procset) (l : list slot) : procset :=
  fold_left (fun a s => a ∩ itvs (cont s)) l acc.

Lemma elem_inter_list l : forall acc r, r ∈ inter_list acc l <-> r ∈ acc /\ Forall (fun s => r ∈ itvs (cont s)) l.
Proof.
  unfold inter_list. induction l as [|s l IH]; intros acc r; cbn [fold_left].
  - rewrite Forall_nil. tauto.
  - rewrite IH, elem_of_intersection, Forall_cons. tauto.
Qed.

Lemma intersec_loop_spec ss mid : forall l1 s l3 fuel acc h rest,
  Repr ss (l1 ++ mid ++ s :: l3) -> (length mid <= fuel)%nat -> mid ++ [s] = h :: rest ->
  intersec_loop fuel (slots ss) (sid h) (sid s) acc = Ok (inter_list acc rest).
Proof.
  induction mid as [|a mid IH]; intros l1 s l3 fuel acc h rest H Hf Hh.
  - cbn in Hh. injection Hh as <- <-. destruct fuel; cbn [intersec_loop]; rewrite bool_decide_true by done; done.
  - cbn in Hh. injection Hh as <- <-. cbn in Hf. destruct fuel as [|fuel]; [lia|].
    cbn [intersec_loop].
    pose proof (nodup_ids_neq _ _ _ _ _ (repr_nodup _ _ H)) as Hne.
    rewrite bool_decide_false by done.
    assert (Ha : a ∈ l1 ++ (a :: mid) ++ s :: l3) by mem.
    rewrite (repr_dget _ _ _ H Ha). cbn [rbind].
    assert (exists b rest, mid ++ [s] = b :: rest) as (b & rest & Eb) by (destruct mid; cbn; eauto).
    assert (Eb' : mid ++ s :: l3 = b :: rest ++ l3).
    { replace (mid ++ s :: l3) with ((mid ++ [s]) ++ l3) by (rewrite <- app_assoc; done). rewrite Eb. done. }
    assert (H' := H). cbn [app] in H'. rewrite Eb' in H'.
    rewrite (repr_next _ _ _ _ _ H').
    assert (Hb : b ∈ l1 ++ a :: b :: rest ++ l3) by mem.
    rewrite (repr_dget _ _ _ H' Hb). cbn [rbind].
    rewrite (IH (l1 ++ [a]) s l3 fuel _ b rest); [|rewrite <- app_assoc; exact H|lia|done].
    rewrite Eb. done.
Qed.

Lemma intersec_spec ss l1 mid R l3 L :
  Repr ss (l1 ++ mid ++ R :: l3) -> head (mid ++ [R]) = Some L ->
  exists x, intersec_itvs_slots (slots ss) (sid L) (sid R) = Ok x /\
    forall r, r ∈ x <-> forall t, sb L <= t <= se R -> free_at ss t r.
Proof.
  intros H Hh.
  assert (exists rest, mid ++ [R] = L :: rest) as [rest Er].
  { destruct (mid ++ [R]); cbn in Hh; [done|]. injection Hh as ->. eauto. }
  assert (HL : L ∈ l1 ++ mid ++ R :: l3).
  { destruct mid; cbn in Hh; injection Hh as <-; mem. }
  unfold intersec_itvs_slots. rewrite (repr_dget _ _ _ H HL). cbn [rbind].
  exists (inter_list (itvs (cont L)) rest). split.
  { eapply intersec_loop_spec; [exact H| |exact Er]. rewrite (repr_size _ _ H), !app_length. lia. }
  assert (Hx : forall r, r ∈ inter_list (itvs (cont L)) rest <-> Forall (fun s => r ∈ itvs (cont s)) (mid ++ [R])).
  { intros r. rewrite Er, elem_inter_list, Forall_cons. done. }
  intros r. rewrite Hx. clear Hx.
  pose proof (repr_contig _ _ H) as HC. apply contig_app in HC as (a & HC1 & HC2).
  replace (mid ++ R :: l3) with ((mid ++ [R]) ++ l3) in HC2 by (rewrite <- app_assoc; done).
  apply contig_app in HC2 as (b & HC2 & HC3).
  assert (Ha : sb L = a + 1) by (rewrite Er in HC2; cbn [contig] in HC2; lia).
  assert (Hb : se R = b).
  { clear - HC2. apply contig_app in HC2 as (b0 & _ & HC2). cbn [contig] in HC2. lia. }
  rewrite Forall_forall. split.
  - intros HF t Ht. destruct (contig_cover _ _ _ t HC2) as (s & Hs & Hst); [lia|].
    exists (cont s). split; [|apply HF; done].
    apply (content_at_cat _ _ _ _ H). exists s. split; [|done].
    replace (mid ++ R :: l3) with ((mid ++ [R]) ++ l3) by (rewrite <- app_assoc; done).
    apply elem_of_app; right. apply elem_of_app; left. done.
  - intros HF s Hs. pose proof (contig_bounds _ _ _ _ HC2 Hs) as Hbs.
    destruct (HF (sb s)) as (c & Hc & Hr); [lia|].
    rewrite (content_at_cat _ _ _ _ H) in Hc.
    assert (c = cont s) as ->; [|done].
    eapply cat_functional; [exact (repr_contig _ _ H)|exact Hc|]. exists s. split; [|split; [lia|done]].
    replace (mid ++ R :: l3) with ((mid ++ [R]) ++ l3) by (rewrite <- app_assoc; done).
    apply elem_of_app; right. apply elem_of_app; left. done.
Qed.

(** * Time-sharing / placeholder intersection *)
Definition offered (j : job) (ss : slotset) (t r : Z) : Prop :=
  exists c x, content_at ss t c /\ ts_ph_itvs j c = Ok x /\ r ∈ x.

Lemma ts_ph_ok j c : job_ok j -> exists x, ts_ph_itvs j c = Ok x.
Proof.
  intros [_ Hph]. unfold ts_ph_itvs. destruct (bool_decide (jph j = ALLOW)) eqn:E; [|eauto].
  apply bool_decide_eq_true in E. destruct Hph as [n Hn]; [auto|]. rewrite Hn.
  destruct (ph_itvs c !! n); eauto.
Qed.

Lemma intersec_ts_loop_spec ss j r0 mid : forall l1 s l3 fuel acc h,
  job_ok j -> Repr ss (l1 ++ mid ++ s :: l3) -> (length mid < fuel)%nat -> head (mid ++ [s]) = Some h ->
  Forall (fun y => exists z, ts_ph_itvs j (cont y) = Ok z /\ r0 ∈ z) mid ->
  (nonempty acc = true -> r0 ∈ acc) ->
  exists x, intersec_ts_loop fuel (slots ss) (sid h) (sid s) j acc = Ok x /\
    forall r, r ∈ x <-> (nonempty acc = true -> r ∈ acc) /\
       Forall (fun y => exists z, ts_ph_itvs j (cont y) = Ok z /\ r ∈ z) (mid ++ [s]).
Proof.
  induction mid as [|a mid IH]; intros l1 s l3 fuel acc h Hj H Hf Hh Hr0 Hacc.
  - cbn in Hh. injection Hh as <-. destruct fuel as [|fuel]; [lia|]. cbn [intersec_ts_loop].
    assert (Hs : s ∈ l1 ++ [] ++ s :: l3) by mem.
    rewrite (repr_dget _ _ _ H Hs). cbn [rbind].
    destruct (ts_ph_ok j (cont s) Hj) as [z Ez]. rewrite Ez. cbn [rbind].
    rewrite bool_decide_true by done. eexists. split; [done|]. intros r. cbn [app].
    rewrite Forall_singleton. destruct (nonempty acc) eqn:En.
    + rewrite elem_of_intersection. split; [intros [? ?]; split; [done|eauto]|].
      intros [H1 (z' & E1 & E2)]. rewrite Ez in E1. injection E1 as <-. auto.
    + split; [intros ?; split; [done|eauto]|]. intros [_ (z' & E1 & E2)]. rewrite Ez in E1. injection E1 as <-. done.
  - cbn in Hh. injection Hh as <-. cbn in Hf. destruct fuel as [|fuel]; [lia|]. cbn [intersec_ts_loop].
    apply Forall_cons in Hr0 as [(z & Ez & Hz) Hr0].
    pose proof (nodup_ids_neq _ _ _ _ _ (repr_nodup _ _ H)) as Hneq.
    rewrite bool_decide_false by done.
    assert (Ha : a ∈ l1 ++ (a :: mid) ++ s :: l3) by mem.
    rewrite (repr_dget _ _ _ H Ha). cbn [rbind].
    rewrite Ez. cbn [rbind].
    assert (exists b rest, mid ++ [s] = b :: rest) as (b & rest & Eb) by (destruct mid; cbn; eauto).
    assert (Eb' : mid ++ s :: l3 = b :: rest ++ l3).
    { replace (mid ++ s :: l3) with ((mid ++ [s]) ++ l3) by (rewrite <- app_assoc; done). rewrite Eb. done. }
    assert (H' := H). cbn [app] in H'. rewrite Eb' in H'.
    rewrite (repr_next _ _ _ _ _ H').
    set (acc' := if nonempty acc then acc ∩ z else z).
    assert (Hacc' : r0 ∈ acc').
    { unfold acc'. destruct (nonempty acc); [apply elem_of_intersection; auto|done]. }
    destruct (IH (l1 ++ [a]) s l3 fuel acc' b Hj) as (x & E & Hx).
    { rewrite <- app_assoc. exact H. } { lia. } { rewrite Eb. done. } { done. } { done. }
    exists x. split; [done|]. intros r. rewrite Hx. cbn [app]. rewrite Forall_cons.
    assert (nonempty acc' = true) as ->.
    { apply nonempty_true. intros E'. rewrite E' in Hacc'. apply elem_of_empty in Hacc'. done. }
    unfold acc'. destruct (nonempty acc) eqn:En.
    + rewrite elem_of_intersection. split.
      * intros [H1 H2]. destruct (H1 eq_refl) as [? ?]. split; [done|]. split; [eauto|done].
      * intros [H1 [(z' & E1 & E2) H2]]. rewrite Ez in E1. injection E1 as <-. auto.
    + split.
      * intros [H1 H2]. split; [done|]. split; [eauto|done].
      * intros [H1 [(z' & E1 & E2) H2]]. rewrite Ez in E1. injection E1 as <-. auto.
Qed.

(** what a content explicitly lets a job share *)
Lemma ts_ph_elem j c x r : ts_ph_itvs j c = Ok x -> r ∈ x -> usable_by j c r.
Proof.
  unfold ts_ph_itvs. intros H Hr.
  set (y := if jts j then _ else _) in H.
  assert (Hy : forall r, r ∈ y -> r ∈ itvs c \/ shared_with j c r).
  { clear. intros r. unfold y, shared_with. destruct (jts j); [|auto].
    destruct (ts_itvs c !! "*"%string) as [d|] eqn:Ed.
    - destruct (d !! "*"%string) as [z|] eqn:Ez.
      + rewrite elem_of_union. intros [?|?]; [auto|right]. split; [done|]. exists "*"%string, "*"%string, d, z. auto.
      + destruct (d !! jname j) as [z|] eqn:Ez2; [|auto].
        rewrite elem_of_union. intros [?|?]; [auto|right]. split; [done|]. exists "*"%string, (jname j), d, z. auto 10.
    - destruct (ts_itvs c !! juser j) as [d|] eqn:Ed2; [|auto].
      destruct (d !! "*"%string) as [z|] eqn:Ez.
      + rewrite elem_of_union. intros [?|?]; [auto|right]. split; [done|]. exists (juser j), "*"%string, d, z. auto 10.
      + destruct (d !! jname j) as [z|] eqn:Ez2; [|auto].
        rewrite elem_of_union. intros [?|?]; [auto|right]. split; [done|]. exists (juser j), (jname j), d, z. auto 10. }
  clearbody y. unfold usable_by. destruct (bool_decide (jph j = ALLOW)) eqn:E.
  - apply bool_decide_eq_true in E. destruct (jph_name j) as [n|] eqn:En; [|done].
    destruct (ph_itvs c !! n) as [z|] eqn:Ez; injection H as <-.
    + apply elem_of_union in Hr as [Hr|Hr]; [destruct (Hy _ Hr); auto|]. right. right. split; [done|]. eauto.
    + destruct (Hy _ Hr); auto.
  - injection H as <-. destruct (Hy _ Hr); auto.
Qed.

(** two slots of the chain, in order *)
Lemma repr_between ss l L R : Repr ss l -> L ∈ l -> R ∈ l -> sb L <= sb R ->
  exists l1 mid l3, l = l1 ++ mid ++ R :: l3 /\ head (mid ++ [R]) = Some L.
Proof.
  intros H HL HR Hle. apply elem_of_list_split in HL as (l1 & l2 & ->).
  assert (HR' : R ∈ L :: l2).
  { apply elem_of_app in HR as [HR|HR]; [|done]. exfalso.
    pose proof (repr_contig _ _ H) as HC. apply contig_app in HC as (m & HC1 & HC2).
    pose proof (contig_bounds _ _ _ _ HC1 HR). cbn [contig] in HC2. lia. }
  apply elem_of_list_split in HR' as (m1 & m2 & E).
  exists l1, m1, m2. rewrite E. split; [done|]. exact (head_app_cons _ _ _ _ _ (eq_sym E)).
Qed.

Lemma repr_elem ss l i s : Repr ss l -> slots ss !! i = Some s -> s ∈ l /\ sid s = i.
Proof. intros H Hi. apply (repr_map _ _ H). done. Qed.

Lemma intersec_WF ss i k L R :
  WF ss -> slots ss !! i = Some L -> slots ss !! k = Some R -> sb L <= sb R ->
  exists x, intersec_itvs_slots (slots ss) i k = Ok x /\
    forall r, r ∈ x <-> forall t, sb L <= t <= se R -> free_at ss t r.
Proof.
  intros [l H] HL HR Hle. apply (repr_elem _ _ _ _ H) in HL as [HL <-], HR as [HR <-].
  destruct (repr_between _ _ _ _ H HL HR Hle) as (l1 & mid & l3 & -> & Hh).
  eapply intersec_spec; eauto.
Qed.

Lemma intersec_ts_WF ss j i k L R r0 :
  WF ss -> job_ok j -> slots ss !! i = Some L -> slots ss !! k = Some R -> sb L <= sb R ->
  (forall t, sb L <= t < sb R -> offered j ss t r0) ->
  exists x, intersec_ts_ph_itvs_slots (slots ss) i k j = Ok x /\
    forall r, r ∈ x <-> forall t, sb L <= t <= se R -> offered j ss t r.
Proof.
  intros [l H] Hj HL HR Hle Hr0. apply (repr_elem _ _ _ _ H) in HL as [HL <-], HR as [HR <-].
  destruct (repr_between _ _ _ _ H HL HR Hle) as (l1 & mid & l3 & -> & Hh). clear HL HR.
  assert (HC := repr_contig _ _ H). apply contig_app in HC as (a & HC1 & HC2).
  replace (mid ++ R :: l3) with ((mid ++ [R]) ++ l3) in HC2 by (rewrite <- app_assoc; done).
  apply contig_app in HC2 as (b & HC2 & HC3).
  assert (Ha : sb L = a + 1).
  { destruct (mid ++ [R]); cbn in Hh; [done|]. injection Hh as ->. cbn [contig] in HC2. lia. }
  assert (HC2' := HC2). apply contig_app in HC2' as (b0 & HC4 & HC5). cbn [contig] in HC5.
  assert (Hin : forall y, y ∈ mid ++ [R] -> y ∈ l1 ++ mid ++ R :: l3).
  { intros y Hy. apply elem_of_app in Hy as [Hy|Hy]; rewrite !elem_of_app; [auto|].
    apply elem_of_list_singleton in Hy as ->. rewrite elem_of_cons. auto. }
  assert (Hoff : forall y r t, y ∈ mid ++ [R] -> sb y <= t <= se y -> offered j ss t r ->
            exists z, ts_ph_itvs j (cont y) = Ok z /\ r ∈ z).
  { intros y r t Hy Ht (c & z & Hc & Ez & Hz). exists z. split; [|done].
    rewrite (content_at_cat _ _ _ _ H) in Hc. rewrite <- Ez. f_equal.
    eapply cat_functional; [exact (repr_contig _ _ H)| |exact Hc]. exists y. auto. }
  destruct (intersec_ts_loop_spec ss j r0 mid l1 R l3 (S (size (slots ss))) ∅ L Hj H) as (x & E & Hx).
  { rewrite (repr_size _ _ H), !app_length. lia. } { done. }
  { apply Forall_forall. intros y Hy. pose proof (contig_bounds _ _ _ _ HC4 Hy).
    apply (Hoff y r0 (sb y)); [apply elem_of_app; auto|lia|]. apply Hr0. lia. }
  { done. }
  exists x. split; [exact E|]. intros r. rewrite Hx. split.
  - intros [_ HF] t Ht. rewrite Forall_forall in HF.
    destruct (contig_cover _ _ _ t HC2) as (y & Hy & Hyt); [lia|].
    destruct (HF y Hy) as (z & Ez & Hz). exists (cont y), z. split; [|done].
    apply (content_at_cat _ _ _ _ H). exists y. auto.
  - intros HF. split; [done|]. apply Forall_forall. intros y Hy.
    pose proof (contig_bounds _ _ _ _ HC2 Hy). apply (Hoff y r (sb y)); [done|lia|]. apply HF. lia.
Qed.

(** * windows *)
Lemma find_end_spec l b width t e :
  contig t l e ->
  match find_end l b width with
  | Some s => exists p q, l = p ++ s :: q /\ width <= se s - b + 1 /\ Forall (fun x => se x - b + 1 < width) p
  | None => Forall (fun x => se x - b + 1 < width) l
  end.
Proof.
  revert t; induction l as [|a l IH]; intros t HC; cbn [find_end]; [constructor|].
  cbn [contig] in HC. destruct HC as (_ & _ & HC). specialize (IH _ HC).
  destruct (width <=? se a - b + 1) eqn:E.
  - exists [], l. split; [done|]. split; [lia|constructor].
  - destruct (find_end l b width) as [s|].
    + destruct IH as (p & q & -> & H1 & H2). exists (a :: p), q. split; [done|]. split; [done|].
      constructor; [lia|done].
    + constructor; [lia|done].
Qed.

(** The windows enumerated from a suffix of the slots. *)
Fixpoint windows_of (l : list slot) (width : Z) : list (slot * slot) :=
  match l with
  | [] => []
  | s :: l' => match find_end (s :: l') (sb s) width with
               | Some e => (s, e) :: windows_of l' width
               | None => windows_of l' width
               end
  end.

Lemma windows_eq ss width l2 : forall l1,
  Repr ss (l1 ++ l2) -> windows (slots ss) l2 width = Ok (windows_of l2 width).
Proof.
  induction l2 as [|s l2 IH]; intros l1 H; [done|].
  cbn [windows windows_of]. rewrite (traverse_id_end _ _ _ _ H). cbn [rbind].
  rewrite (IH (l1 ++ [s])) by (rewrite <- app_assoc; exact H). cbn [rbind].
  destruct (find_end _ _ _); done.
Qed.

Lemma traverse_with_width_eq ss l1 s l2 width : Repr ss (l1 ++ s :: l2) -> 0 < width ->
  traverse_with_width (slots ss) width (sid s) = Ok (windows_of (s :: l2) width).
Proof.
  intros H Hw. unfold traverse_with_width. replace (0 <? width) with true by lia. cbn [rassert].
  rewrite (traverse_id_end _ _ _ _ H). cbn [rbind]. eapply windows_eq. exact H.
Qed.

Lemma traverse_with_width_all ss l width : Repr ss l -> 0 < width ->
  traverse_with_width (slots ss) width 0 = Ok (windows_of l width).
Proof.
  intros H Hw. unfold traverse_with_width. replace (0 <? width) with true by lia. cbn [rassert].
  rewrite (traverse_id_all _ _ H). cbn [rbind]. apply (windows_eq _ _ l []). exact H.
Qed.

(** (s, e) is a window: a run of consecutive slots from [s] to [e], at least [width] long,
    and no shorter run from [s] is. *)
Lemma windows_of_elem l width t e p : contig t l e ->
  p ∈ windows_of l width <->
  exists l1 mid l3, l = l1 ++ mid ++ (snd p) :: l3 /\ head (mid ++ [snd p]) = Some (fst p) /\
    width <= se (snd p) - sb (fst p) + 1 /\ Forall (fun x => se x - sb (fst p) + 1 < width) mid.
Proof.
  revert t; induction l as [|s l IH]; intros t HC.
  - cbn. split; [intros Hp; apply elem_of_nil in Hp; done|].
    intros (l1 & mid & l3 & E & _). destruct l1, mid; done.
  - assert (HC' := HC). cbn [contig] in HC'. destruct HC' as (Hb & Hbe & HC').
    pose proof (find_end_spec _ (sb s) width _ _ HC) as HF. cbn [windows_of].
    specialize (IH _ HC'). split.
    + intros Hp.
      assert (Hc : p ∈ windows_of l width \/ exists e', find_end (s :: l) (sb s) width = Some e' /\ p = (s, e')).
      { destruct (find_end (s :: l) (sb s) width); [|auto]. apply elem_of_cons in Hp as [->|Hp]; eauto. }
      destruct Hc as [Hc|(e' & Ef & ->)].
      * apply IH in Hc as (l1 & mid & l3 & -> & Hh & Hw & Hm). exists (s :: l1), mid, l3. done.
      * rewrite Ef in HF. destruct HF as (q1 & q2 & E & H1 & H2). exists [], q1, q2. cbn [fst snd app].
        split; [done|]. split; [|done]. destruct q1; cbn in E |- *; congruence.
    + intros (l1 & mid & l3 & E & Hh & Hw & Hm). destruct l1 as [|x l1].
      * (* starts here *)
        assert (fst p = s) as Efst by (destruct mid; cbn in E, Hh; congruence).
        assert (Hfe : find_end (s :: l) (sb s) width = Some (snd p)).
        { rewrite Efst in Hw, Hm. rewrite E. clear - Hw Hm. induction mid as [|x mid IH]; cbn [app find_end].
          - replace (width <=? _) with true by lia. done.
          - apply Forall_cons in Hm as [Hx Hm]. replace (width <=? se x - sb s + 1) with false by lia. auto. }
        rewrite Hfe. apply elem_of_cons. left. destruct p; cbn in *; congruence.
      * cbn in E. injection E as <- ->.
        assert (Hin : p ∈ windows_of (l1 ++ mid ++ snd p :: l3) width).
        { apply IH. exists l1, mid, l3. done. }
        destruct (find_end _ _ _); [apply elem_of_cons; auto|done].
Qed.

Lemma windows_of_sorted l width t e : contig t l e ->
  StronglySorted (fun p q : slot * slot => sb (fst p) < sb (fst q)) (windows_of l width).
Proof.
  revert t; induction l as [|s l IH]; intros t HC; cbn [windows_of]; [constructor|].
  assert (HC' := HC). cbn [contig] in HC'. destruct HC' as (Hb & Hbe & HC').
  destruct (find_end _ _ _); [|eauto]. constructor; [eauto|].
  apply Forall_forall. intros p Hp. apply (windows_of_elem _ _ _ _ _ HC') in Hp as (l1 & mid & l3 & -> & Hh & _).
  cbn [fst]. assert (Hin : fst p ∈ l1 ++ mid ++ snd p :: l3).
  { destruct mid; cbn in Hh; injection Hh as E; rewrite <- E; mem. }
  pose proof (contig_bounds _ _ _ _ HC' Hin). lia.
Qed.

(** completeness: a start slot is used iff enough time remains after it *)
Lemma windows_of_complete l width t e s : contig t l e -> s ∈ l ->
  (exists x, (s, x) ∈ windows_of l width) <-> width <= e - sb s + 1.
Proof.
  intros HC Hs. split.
  - intros (x & Hx). apply (windows_of_elem _ _ _ _ _ HC) in Hx as (l1 & mid & l3 & -> & Hh & Hw & _).
    cbn [fst snd] in *. assert (Hin : x ∈ l1 ++ mid ++ x :: l3) by mem.
    pose proof (contig_bounds _ _ _ _ HC Hin). lia.
  - intros Hw. apply elem_of_list_split in Hs as (l1 & l2 & ->).
    apply contig_app in HC as (m & HC1 & HC2).
    assert (HF := find_end_spec _ (sb s) width _ _ HC2).
    assert (Hne : exists x, find_end (s :: l2) (sb s) width = Some x).
    { destruct (find_end (s :: l2) (sb s) width); [eauto|exfalso].
      destruct (contig_cover _ _ _ e HC2) as (x & Hx & Hxe).
      { cbn [contig] in HC2. destruct HC2 as (? & ? & HC2). apply contig_le in HC2. lia. }
      rewrite Forall_forall in HF. specialize (HF _ Hx). lia. }
    destruct Hne as [x Ex]. exists x.
    assert (HC : contig t (l1 ++ s :: l2) e) by (apply contig_app; eauto).
    rewrite Ex in HF. destruct HF as (q1 & q2 & E & H1 & H2).
    apply (windows_of_elem _ _ _ _ _ HC). exists l1, q1, q2. cbn [fst snd]. rewrite E.
    split; [done|]. split; [destruct q1; cbn in E |- *; congruence|]. done.
Qed.

(** * get_encompassing_range *)
Lemma range_loop_spec ss start stop l2 : forall l1 first_slot,
  Repr ss (l1 ++ l2) -> start <= stop <= end_ ss -> 
  (forall s, s ∈ l1 -> se s < stop) ->
  (forall s, s ∈ l1 -> sb s <= start <= se s -> first_slot = sid s) ->
  begin_ ss <= start -> l2 <> [] ->
  exists f e, range_loop l2 start stop first_slot = (sid f, sid e) /\ f ∈ l1 ++ l2 /\ e ∈ l1 ++ l2 /\
     sb f <= start <= se f /\ sb e <= stop <= se e.
Proof.
  induction l2 as [|s l2 IH]; intros l1 fs H Hr Hl1 Hfs Hb Hne; [done|].
  cbn [range_loop]. assert (Hs : s ∈ l1 ++ s :: l2) by mem.
  pose proof (repr_bounds _ _ _ H Hs) as Hbs.
  assert (Hsb : forall x, x ∈ l1 ++ s :: l2 -> x ∈ l1 \/ sb s <= sb x).
  { intros x Hx. pose proof (repr_contig _ _ H) as HC. apply contig_app in HC as (m & HC1 & HC2).
    apply elem_of_app in Hx as [Hx|Hx]; [auto|]. right.
    assert (HC2' := HC2). cbn [contig] in HC2'. pose proof (contig_bounds _ _ _ _ HC2 Hx). lia. }
  assert (Hss : sb s <= stop).
  { destruct (contig_cover _ _ _ stop (repr_contig _ _ H)) as (x & Hx & Hxs); [lia|].
    destruct (Hsb x Hx) as [Hx1|Hx1]; [specialize (Hl1 _ Hx1)|]; lia. }
  set (fs' := if (sb s <=? start) && (start <=? se s) then sid s else fs).
  destruct ((sb s <=? stop) && (stop <=? se s)) eqn:E.
  - destruct (contig_cover _ _ _ start (repr_contig _ _ H)) as (x & Hx & Hxs); [lia|].
    exists x, s. split; [|split; [done|split; [done|split; [lia|lia]]]]. f_equal. unfold fs'.
    destruct ((sb s <=? start) && (start <=? se s)) eqn:E2.
    + f_equal. eapply (contig_unique _ _ _ start); [exact (repr_contig _ _ H)|done|done|lia|lia].
    + destruct (Hsb x Hx) as [Hx1|Hx1]; [auto|]. lia.
  - destruct l2 as [|s' l2].
    { pose proof (repr_last_end _ _ _ H). lia. }
    destruct (IH (l1 ++ [s]) fs') as (f & e & E1 & Hf & He & Hf' & He').
    { rewrite <- app_assoc. exact H. } { lia. }
    { intros x Hx. apply elem_of_app in Hx as [Hx|Hx]; [auto|]. apply elem_of_list_singleton in Hx as ->. lia. }
    { intros x Hx Hxs. unfold fs'. destruct ((sb s <=? start) && (start <=? se s)) eqn:E2.
      - f_equal. symmetry. eapply (contig_unique _ _ _ start); [exact (repr_contig _ _ H)| |done|lia|lia].
        apply elem_of_app in Hx as [Hx|Hx]; [apply elem_of_app; auto|]. apply elem_of_list_singleton in Hx as ->. done.
      - apply elem_of_app in Hx as [Hx|Hx]; [auto|]. apply elem_of_list_singleton in Hx as ->. lia. }
    { done. } { done. }
    rewrite <- app_assoc in Hf, He. exists f, e. auto.
Qed.

Lemma get_encompassing_range_spec ss start stop :
  WF ss -> begin_ ss <= start -> start <= stop -> stop <= end_ ss ->
  exists f e sf sl, get_encompassing_range (slots ss) start stop = Ok (f, e) /\
    slots ss !! f = Some sf /\ sb sf <= start <= se sf /\
    slots ss !! e = Some sl /\ sb sl <= stop <= se sl.
Proof.
  intros [l H] H1 H2 H3. unfold get_encompassing_range.
  replace (start <=? stop) with true by lia. cbn [rassert].
  rewrite (traverse_id_all _ _ H). cbn [rbind].
  destruct (range_loop_spec ss start stop l [] 0 H) as (f & e & E & Hf & He & Hf' & He'); [lia| | |done|exact (repr_ne _ _ H)|].
  { intros s Hs. apply elem_of_nil in Hs. done. }
  { intros s Hs. apply elem_of_nil in Hs. done. }
  exists (sid f), (sid e), f, e. rewrite E. split; [done|].
  split; [eapply repr_lookup; eauto|]. split; [done|]. split; [eapply repr_lookup; eauto|done].
Qed.

Lemma windows_WF ss width : WF ss -> 0 < width ->
  exists ws, traverse_with_width (slots ss) width 0 = Ok ws /\
    StronglySorted (fun p q : slot * slot => sb (fst p) < sb (fst q)) ws /\
    (forall s e, (s, e) ∈ ws <->
       slots ss !! sid s = Some s /\ slots ss !! sid e = Some e /\ sb s <= sb e /\
       width <= se e - sb s + 1 /\ (s = e \/ sb e - sb s < width)) /\
    (forall i s, slots ss !! i = Some s -> width <= end_ ss - sb s + 1 -> exists e, (s, e) ∈ ws).
Proof.
  intros [l H] Hw. exists (windows_of l width). split; [apply traverse_with_width_all; done|].
  pose proof (repr_contig _ _ H) as HC.
  split; [eapply windows_of_sorted; eauto|]. split.
  - intros s e. rewrite (windows_of_elem _ _ _ _ _ HC). cbn [fst snd]. split.
    + intros (l1 & mid & l3 & -> & Hh & Hw1 & Hm).
      assert (He : e ∈ l1 ++ mid ++ e :: l3) by mem.
      assert (Hs : s ∈ l1 ++ mid ++ e :: l3) by (destruct mid; cbn in Hh; injection Hh as <-; mem).
      split; [eapply repr_lookup; eauto|]. split; [eapply repr_lookup; eauto|].
      apply contig_app in HC as (a & HC1 & HC2). 
      destruct (ids_split_last mid) as [->|(m0 & y & ->)].
      * cbn in Hh. injection Hh as <-. split; [lia|]. split; [done|auto].
      * assert (Hs' : sb s = a + 1).
        { destruct m0; cbn in Hh; injection Hh as <-; cbn [contig app] in HC2; lia. }
        assert (HC2' := HC2). apply contig_app in HC2 as (b & HC2 & HC3).
        apply contig_app in HC2 as (b' & HC2 & HC4). cbn [contig] in HC3, HC4.
        apply contig_le in HC2.
        rewrite Forall_app, Forall_singleton in Hm. destruct Hm as [_ Hm].
        split; [lia|]. split; [done|]. right. lia.
    + intros (Hs & He & Hle & Hw1 & Hmin).
      apply (repr_elem _ _ _ _ H) in Hs as [Hs _], He as [He _].
      destruct (repr_between _ _ _ _ H Hs He Hle) as (l1 & mid & l3 & -> & Hh).
      exists l1, mid, l3. split; [done|]. split; [done|]. split; [done|].
      apply Forall_forall. intros x Hx.
      apply contig_app in HC as (a & HC1 & HC2). apply contig_app in HC2 as (b & HC2 & HC3).
      pose proof (contig_bounds _ _ _ _ HC2 Hx). cbn [contig] in HC3.
      destruct Hmin as [->|Hmin]; [|lia]. exfalso.
      destruct mid as [|m mid]; [apply elem_of_nil in Hx; done|]. cbn in Hh. injection Hh as ->.
      cbn [contig] in HC2. destruct HC2 as (? & ? & HC2). apply contig_le in HC2. lia.
  - intros i s Hi Hle. apply (repr_elem _ _ _ _ H) in Hi as [Hs _].
    apply (windows_of_complete _ _ _ _ _ HC Hs). done.
Qed.
