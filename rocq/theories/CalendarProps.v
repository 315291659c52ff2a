(** Property theorems about the calendar of temporal quotas: C26, C27. *)
From Verif Require Import Base SlotModel SlotSpec SlotOps CalendarModel.

(** * Specification *)
(** The period [p] contains the instant [t] of the week. *)
Definition in_period (t : Z) (p : per) : Prop := p_begin p <= t < p_begin p + p_dur p.

Global Instance in_period_dec t p : Decision (in_period t p). Proof. unfold in_period. apply _. Defined.

(** A list of periods follows each other from [t] to [e], each lasting at least one second. *)
Fixpoint contiguous (t : Z) (l : list per) (e : Z) : Prop :=
  match l with
  | [] => t = e
  | p :: l' => p_begin p = t /\ 0 < p_dur p /\ contiguous (t + p_dur p) l' e
  end.
Definition covers_week (l : list per) : Prop := contiguous 0 l WEEK.

(** Periods inside the week that do not overlap. *)
Definition disjoint_in_week (l : list per) : Prop :=
  (forall p, p ∈ l -> 0 < p_dur p /\ 0 <= p_begin p /\ p_begin p + p_dur p <= WEEK) /\
  forall t, (length (base.filter (in_period t) l) <= 1)%nat.

(** * Lemmas *)
Lemma contiguous_bounds l : forall t e p, contiguous t l e -> p ∈ l -> t <= p_begin p /\ p_begin p + p_dur p <= e /\ 0 < p_dur p.
Proof.
  induction l as [|q l IH]; intros t e p H Hp; [by apply elem_of_nil in Hp|].
  destruct H as (H1 & H2 & H3). assert (Hle : t + p_dur q <= e).
  { clear - H3. revert H3. generalize (t + p_dur q). induction l as [|x l IHl]; intros z H; cbn in H; [lia|].
    destruct H as (? & ? & H). apply IHl in H. lia. }
  apply elem_of_cons in Hp as [->|Hp]; [lia|]. destruct (IH _ _ _ H3 Hp). lia.
Qed.

Lemma contiguous_unique l : forall a e t, contiguous a l e -> a <= t < e ->
  exists i p, l !! i = Some p /\ in_period t p /\ forall j q, l !! j = Some q -> in_period t q -> j = i.
Proof.
  induction l as [|p l IH]; intros a e t H Ht; [cbn in H; lia|]. destruct H as (H1 & H2 & H3).
  destruct (decide (t < a + p_dur p)).
  - exists 0%nat, p. split; [done|]. split; [unfold in_period; lia|].
    intros [|j] q Hj Hq; [done|]. exfalso. cbn in Hj. apply elem_of_list_lookup_2 in Hj.
    destruct (contiguous_bounds _ _ _ _ H3 Hj). unfold in_period in Hq. lia.
  - destruct (IH _ _ t H3) as (i & q & Hi & Hq & Hu); [lia|]. exists (S i), q. split; [done|]. split; [done|].
    intros [|j] q' Hj Hq'; cbn in Hj.
    + injection Hj as <-. unfold in_period in Hq'. lia.
    + f_equal. by eapply Hu.
Qed.

(** ** The sort *)
Definition ltb_per (p q : per) : Prop := p_begin p < p_begin q.
Global Instance ltb_antisym : AntiSymm (=) ltb_per.
Proof. intros p q. unfold ltb_per. lia. Qed.

Lemma ins_perm p l : Permutation (ins p l) (p :: l).
Proof.
  induction l as [|q l IH]; cbn [ins]; [done|]. destruct (_ <=? _); [|done].
  etransitivity; [apply perm_skip, IH|]. apply perm_swap.
Qed.
Lemma order_perm_acc l : forall a, Permutation (fold_left (fun a p => ins p a) l a) (a ++ l).
Proof.
  induction l as [|p l IH]; intros a; cbn [fold_left]; [by rewrite app_nil_r|].
  rewrite IH. rewrite ins_perm. cbn [app]. apply Permutation_middle.
Qed.
Lemma order_perm l : Permutation (order l) l.
Proof. unfold order. by rewrite order_perm_acc. Qed.

Definition leb_per (p q : per) : Prop := p_begin p <= p_begin q.
Lemma ins_sorted p l : StronglySorted leb_per l -> StronglySorted leb_per (ins p l).
Proof.
  induction 1 as [|q l Hs IH HF]; cbn [ins]; [repeat constructor|]. destruct (p_begin q <=? p_begin p) eqn:E.
  - constructor; [done|]. apply Forall_forall. intros x Hx. rewrite ins_perm in Hx. rewrite Forall_forall in HF.
    apply elem_of_cons in Hx as [->|Hx]; [unfold leb_per; lia|]. by apply HF.
  - constructor; [by constructor|]. constructor; [unfold leb_per; lia|]. eapply Forall_impl; [exact HF|]. unfold leb_per. intros; cbn in *; lia.
Qed.
Lemma order_sorted l : StronglySorted leb_per (order l).
Proof.
  unfold order. assert (H : forall a, StronglySorted leb_per a -> StronglySorted leb_per (fold_left (fun a p => ins p a) l a)).
  { induction l as [|p l IH]; intros a Ha; cbn [fold_left]; [done|]. apply IH. by apply ins_sorted. }
  apply H. constructor.
Qed.

(** Sorting a list that has a strictly sorted permutation gives that permutation. *)
Lemma order_unique l s : StronglySorted ltb_per s -> Permutation l s -> order l = s.
Proof.
  intros Hs Hp. assert (Hp' : Permutation (order l) s) by (rewrite order_perm; done).
  assert (Hn : NoDup (p_begin <$> s)).
  { clear - Hs. induction Hs as [|p s Hs IH HF]; cbn; [constructor|]. constructor; [|done].
    rewrite elem_of_list_fmap. intros (q & Hq & Hin). rewrite Forall_forall in HF. specialize (HF q Hin). unfold ltb_per in HF. lia. }
  assert (Hn' : NoDup (p_begin <$> order l)) by (by rewrite Hp').
  assert (Hs' : StronglySorted ltb_per (order l)).
  { pose proof (order_sorted l) as H. induction H as [|p o Ho IH HF]; [constructor|]. 
    clear IH. revert Ho HF Hn'. clear. intros Ho HF Hn.
    assert (forall o p, StronglySorted leb_per o -> Forall (leb_per p) o -> NoDup (p_begin <$> (p :: o)) -> StronglySorted ltb_per (p :: o)) as K.
    { clear. induction o as [|x o IH]; intros p Ho HF Hn; [repeat constructor|].
      inversion Ho as [|? ? Ho' HF']; subst. cbn in Hn. apply NoDup_cons in Hn as [Hn1 Hn2].
      constructor; [by apply IH|]. apply Forall_forall. intros y Hy. rewrite Forall_forall in HF. specialize (HF y Hy).
      unfold leb_per, ltb_per in *. assert (p_begin y <> p_begin p); [|lia]. intros E. apply Hn1. rewrite <- E.
      change (p_begin x :: (p_begin <$> o)) with (p_begin <$> (x :: o)). apply elem_of_list_fmap. eauto. }
    by apply K. }
  by apply (StronglySorted_unique ltb_per).
Qed.

Lemma contiguous_sorted l : forall t e, contiguous t l e -> StronglySorted ltb_per l.
Proof.
  induction l as [|p l IH]; intros t e H; [constructor|]. destruct H as (H1 & H2 & H3). constructor; [by eapply IH|].
  apply Forall_forall. intros q Hq. destruct (contiguous_bounds _ _ _ _ H3 Hq). unfold ltb_per. lia.
Qed.

(** ** The gaps *)
Fixpoint merged (t : Z) (l : list per) (d : Z) : list per :=
  match l with
  | [] => if t =? WEEK then [] else [mkPer t (WEEK - t) d]
  | p :: l' => (if t =? p_begin p then [] else [mkPer t (p_begin p - t) d]) ++ p :: merged (p_begin p + p_dur p) l' d
  end.

(** Sorted disjoint periods from [t] on. *)
Fixpoint spaced (t : Z) (l : list per) : Prop :=
  match l with
  | [] => t <= WEEK
  | p :: l' => t <= p_begin p /\ 0 < p_dur p /\ spaced (p_begin p + p_dur p) l'
  end.

Lemma spaced_le l : forall t, spaced t l -> t <= WEEK.
Proof. induction l as [|p l IH]; intros t H; cbn in H; [done|]. destruct H as (? & ? & H). apply IH in H. lia. Qed.

Lemma merged_contiguous l d : forall t, spaced t l -> contiguous t (merged t l d) WEEK.
Proof.
  induction l as [|p l IH]; intros t H; cbn [merged].
  - cbn [spaced] in H. destruct (t =? WEEK) eqn:E; cbn [contiguous p_begin p_dur]; lia.
  - destruct H as (H1 & H2 & H3). specialize (IH _ H3). destruct (t =? p_begin p) eqn:E; cbn [app contiguous p_begin p_dur].
    + assert (p_begin p = t) as Et by lia. rewrite Et in *. done.
    + split; [done|]. split; [lia|]. replace (t + (p_begin p - t)) with (p_begin p) by lia. done.
Qed.

Lemma gaps_merged l d : forall t, spaced t l -> Permutation (l ++ gaps t l d) (merged t l d).
Proof.
  induction l as [|p l IH]; intros t H; cbn [gaps merged app]; [done|].
  destruct H as (H1 & H2 & H3). pose proof (spaced_le _ _ H3). replace (t <? WEEK) with true by lia. cbn [app].
  specialize (IH _ H3). destruct (t =? p_begin p); cbn [app].
  - by rewrite IH.
  - rewrite <- IH. rewrite <- Permutation_middle. apply perm_swap.
Qed.

Lemma sorted_spaced l : StronglySorted leb_per l -> disjoint_in_week l -> forall t, (match l with [] => t <= WEEK | p :: _ => t <= p_begin p end) -> spaced t l.
Proof.
  induction 1 as [|p l Hs IH HF]; intros [Hin Hd] t Ht; cbn [spaced]; [done|].
  destruct (Hin p) as (Hp1 & Hp2 & Hp3); [by left|]. split; [done|]. split; [done|].
  apply IH.
  - split; [intros q Hq; apply Hin; by right|]. intros t'. specialize (Hd t'). rewrite filter_cons in Hd.
    destruct (decide _); cbn [length] in Hd; lia.
  - destruct l as [|q l]; [lia|]. apply Forall_cons in HF as [HF _]. unfold leb_per in HF.
    destruct (decide (p_begin p + p_dur p <= p_begin q)); [done|]. exfalso.
    destruct (Hin q) as (Hq1 & _); [right; by left|].
    specialize (Hd (p_begin q)). rewrite !filter_cons in Hd.
    rewrite !decide_True in Hd by (unfold in_period; lia). cbn [length] in Hd. lia.
Qed.

Lemma disjoint_perm l l' : Permutation l l' -> disjoint_in_week l -> disjoint_in_week l'.
Proof.
  intros Hp [H1 H2]. split; [intros p H; apply H1; by rewrite Hp|]. intros t. rewrite <- Hp. done.
Qed.

(** * C27: a calendar with a default covers the week *)
Theorem C27_default_covers : forall l d, disjoint_in_week l ->
  covers_week (periodicals l (Some d)) /\
  (forall p, p ∈ l -> p ∈ periodicals l (Some d)) /\
  (forall p, p ∈ periodicals l (Some d) -> p ∈ l \/ p_rules p = d).
Proof.
  intros l d Hl.
  assert (Ho : disjoint_in_week (order l)) by (eapply disjoint_perm; [|exact Hl]; by rewrite order_perm).
  assert (Hsp : spaced 0 (order l)).
  { apply sorted_spaced; [apply order_sorted|done|]. destruct (order l) as [|p o] eqn:E; [unfold WEEK; lia|].
    destruct Ho as [Ho _]. destruct (Ho p) as (_ & ? & _); [by left|]. done. }
  assert (HP : Permutation (l ++ gaps 0 (order l) d) (merged 0 (order l) d)).
  { rewrite <- gaps_merged by done. apply Permutation_app; [|done]. symmetry. apply order_perm. }
  assert (E : periodicals l (Some d) = merged 0 (order l) d).
  { unfold periodicals. apply order_unique; [|done]. eapply contiguous_sorted, merged_contiguous; done. }
  rewrite E. split; [by apply merged_contiguous|]. split.
  - intros p Hp. rewrite <- HP. apply elem_of_app. by left.
  - intros p Hp. rewrite <- HP in Hp. apply elem_of_app in Hp as [Hp|Hp]; [by left|right]. clear - Hp. revert Hp. generalize 0.
    induction (order l) as [|q o IH]; intros t Hp; cbn [gaps] in Hp.
    + destruct (t =? WEEK); [by apply elem_of_nil in Hp|]. apply elem_of_list_singleton in Hp. by subst p.
    + destruct (t <? WEEK).
      * apply elem_of_app in Hp as [Hp|Hp]; [|by eapply IH]. destruct (t =? p_begin q); [by apply elem_of_nil in Hp|].
        apply elem_of_list_singleton in Hp. by subst p.
      * destruct (t =? WEEK); [by apply elem_of_nil in Hp|]. apply elem_of_list_singleton in Hp. by subst p.
Qed.
Print Assumptions C27_default_covers.

(** At each second of the week the rules are those of the explicit period that contains it, if
    any, and the default ones otherwise. *)
Theorem C27_rules_of_instant : forall l d t, disjoint_in_week l -> 0 <= t < WEEK ->
  exists i p, periodicals l (Some d) !! i = Some p /\ in_period t p /\
    (forall j q, periodicals l (Some d) !! j = Some q -> in_period t q -> j = i) /\
    ((exists q, q ∈ l /\ in_period t q) -> p ∈ l) /\
    (~ (exists q, q ∈ l /\ in_period t q) -> p_rules p = d).
Proof.
  intros l d t Hl Ht. destruct (C27_default_covers l d Hl) as (Hc & H1 & H2).
  destruct (contiguous_unique _ _ _ t Hc Ht) as (i & p & Hi & Hp & Hu). exists i, p.
  split; [done|]. split; [done|]. split; [done|]. split.
  - intros (q & Hq & Hqt). assert (Hq' := H1 q Hq). apply elem_of_list_lookup in Hq' as [j Hj].
    assert (j = i) as -> by (by eapply Hu). congruence.
  - intros Hn. destruct (H2 p) as [Hpl|Hpl]; [by eapply elem_of_list_lookup_2| |done]. exfalso. eauto.
Qed.
Print Assumptions C27_rules_of_instant.

(** check_periodicals accepts exactly the calendars that cover the week. *)
Theorem C27_check : forall l, (forall p, p ∈ l -> 0 < p_dur p) -> check_periodicals l = true <-> covers_week l.
Proof.
  intros l. unfold check_periodicals, covers_week. generalize 0 at 2 3 as t.
  induction l as [|p l IH]; intros t Hp; cbn [check_from contiguous]; [lia|].
  rewrite andb_true_iff, IH by (intros; apply Hp; by right). assert (0 < p_dur p) by (apply Hp; by left). split.
  - intros [E H']. assert (t = p_begin p) as -> by lia. done.
  - intros (<- & _ & H'). split; [lia|done].
Qed.
Print Assumptions C27_check.

Definition ex_pers : list per := [mkPer (86400 + 28800) 39600 1; mkPer 28800 39600 1; mkPer 432000 172800 2].
Lemma filter_le_disjoint l : StronglySorted (fun p q => p_begin p + p_dur p <= p_begin q) l ->
  (forall p, p ∈ l -> 0 < p_dur p) -> forall t, (length (base.filter (in_period t) l) <= 1)%nat.
Proof.
  induction 1 as [|p l Hs IH HF]; intros Hd t; [cbn; lia|]. rewrite filter_cons. specialize (IH ltac:(intros; apply Hd; by right) t).
  destruct (decide (in_period t p)) as [Hp|]; [|done].
  assert (base.filter (in_period t) l = []) as ->; [|cbn; lia].
  destruct (base.filter (in_period t) l) as [|q f] eqn:E; [done|].
  assert (Hq : q ∈ base.filter (in_period t) l) by (rewrite E; by left).
  apply elem_of_list_filter in Hq as [Hq Hin]. rewrite Forall_forall in HF. specialize (HF q Hin). unfold in_period in *. lia.
Qed.
Lemma ex_pers_disjoint : disjoint_in_week ex_pers.
Proof.
  eapply (disjoint_perm (order ex_pers)); [apply order_perm|].
  assert (order ex_pers = [mkPer 28800 39600 1; mkPer (86400 + 28800) 39600 1; mkPer 432000 172800 2]) as -> by reflexivity.
  split.
  - intros p Hp. repeat (apply elem_of_cons in Hp as [->|Hp]; [unfold WEEK; cbn [p_begin p_dur]; lia|]). by apply elem_of_nil in Hp.
  - apply filter_le_disjoint; [repeat constructor; cbn [p_begin p_dur]; lia|].
    intros p Hp. repeat (apply elem_of_cons in Hp as [->|Hp]; [cbn [p_dur]; lia|]). by apply elem_of_nil in Hp.
Qed.
Example C27_example : disjoint_in_week ex_pers /\
  periodicals ex_pers (Some 0) =
    [mkPer 0 28800 0; mkPer 28800 39600 1; mkPer 68400 46800 0; mkPer 115200 39600 1; mkPer 154800 277200 0; mkPer 432000 172800 2].
Proof. split; [exact ex_pers_disjoint|]. vm_compute. reflexivity. Qed.

(** * C26: the rules at a date *)
(** Full statement: for a calendar covering the week, the rules at a date are those of the period
    that contains it and the remaining duration leads to the end of that period.  False: on Monday
    01:00 the rules of the week-end are selected. *)
Definition ex_week : list per := [mkPer 0 432000 1; mkPer 432000 172800 2].
Theorem C26_rules_at_refuted : exists l week_of t i rid rem p,
  covers_week l /\ week_of t <= t < week_of t + WEEK /\
  periodical_rules_at l week_of t = Ok (i, rid, rem) /\
  p ∈ l /\ in_period (t - week_of t) p /\ rid <> p_rules p /\ t + rem <> week_of t + p_begin p + p_dur p.
Proof.
  exists ex_week, (fun _ => 0), 3600, 1%nat, 2, 169200, (mkPer 0 432000 1).
  split; [unfold covers_week, ex_week, WEEK; cbn [contiguous p_begin p_dur]; lia|].
  split; [unfold WEEK; lia|]. split; [vm_compute; reflexivity|]. split; [by left|].
  unfold in_period. cbn [p_begin p_dur p_rules]. split_and!; lia.
Qed.
Print Assumptions C26_rules_at_refuted.

(** What is selected, exactly: the first period that begins at or after the date, and the last
    one when there is none; the remaining duration is off by the beginning of the period. *)
Lemma scan_spec l : forall a e t k, contiguous a l e -> l <> [] ->
  exists i p, scan t l k = Some (k + i)%nat /\ l !! i = Some p /\
    ((t <= p_begin p /\ forall j q, (j < i)%nat -> l !! j = Some q -> p_begin q < t) \/
     (S i = length l /\ forall q, q ∈ l -> p_begin q < t)).
Proof.
  induction l as [|p l IH]; intros a e t k H Hne; [done|]. destruct H as (H1 & H2 & H3). cbn [scan].
  destruct ((t <=? p_begin p) && (t <=? p_begin p + p_dur p - 1)) eqn:E.
  - exists 0%nat, p. rewrite Nat.add_0_r. split; [done|]. split; [done|]. left. split; [lia|]. intros j q Hj. lia.
  - destruct l as [|q l].
    + exists 0%nat, p. rewrite Nat.add_0_r. split; [done|]. split; [done|]. right. split; [done|].
      intros q Hq. apply elem_of_list_singleton in Hq as ->. lia.
    + destruct (IH _ _ t (S k) H3) as (i & p' & Hs & Hi & Hcase); [done|]. exists (S i), p'.
      split; [rewrite Hs; f_equal; lia|]. split; [done|]. destruct Hcase as [[Hc1 Hc2]|[Hc1 Hc2]].
      * left. split; [done|]. intros [|j] q' Hj Hq'; cbn in Hq'; [injection Hq' as <-; lia|]. apply (Hc2 j); [lia|done].
      * right. split; [cbn [length] in *; lia|]. intros q' Hq'. apply elem_of_cons in Hq' as [->|Hq']; [lia|by apply Hc2].
Qed.

Theorem C26_rules_at_selected : forall l week_of t, covers_week l -> exists i p,
  periodical_rules_at l week_of t = Ok (i, p_rules p, p_dur p - (t - week_of t)) /\ l !! i = Some p /\
  ((t - week_of t <= p_begin p /\ forall j q, (j < i)%nat -> l !! j = Some q -> p_begin q < t - week_of t) \/
   (S i = length l /\ forall q, q ∈ l -> p_begin q < t - week_of t)).
Proof.
  intros l week_of t Hc. assert (Hne : l <> []) by (intros ->; unfold covers_week, WEEK in Hc; cbn in Hc; lia).
  destruct (scan_spec l 0 WEEK (t - week_of t) 0 Hc Hne) as (i & p & Hs & Hi & Hcase).
  exists i, p. split; [|done]. unfold periodical_rules_at. rewrite Hs. cbn [Nat.add]. rewrite Hi. done.
Qed.
Print Assumptions C26_rules_at_selected.

(** Proved: the rules are the right ones at the very beginning of a period and during the last
    period of the week; the remaining duration is right at the beginning of the week. *)
Theorem C26_rules_at_partial : forall l week_of t k p, covers_week l -> l !! k = Some p -> in_period (t - week_of t) p ->
  (t - week_of t = p_begin p \/ S k = length l) ->
  exists rem, periodical_rules_at l week_of t = Ok (k, p_rules p, rem) /\
    (p_begin p = 0 -> t + rem = week_of t + p_begin p + p_dur p).
Proof.
  intros l week_of t k p Hc Hk Hp Hcase. destruct (C26_rules_at_selected l week_of t Hc) as (i & q & E & Hi & Hs).
  assert (i = k) as ->.
  { pose proof (contiguous_sorted _ _ _ Hc) as Hss.
    assert (Hlt : forall a b x y, (a < b)%nat -> l !! a = Some x -> l !! b = Some y -> p_begin x < p_begin y).
    { clear - Hss. induction Hss as [|z l Hss IH HF]; intros a b x y Hab Hx Hy; [done|].
      destruct a as [|a], b as [|b]; cbn in Hx, Hy; [lia| |lia|].
      - injection Hx as ->. rewrite Forall_forall in HF. apply elem_of_list_lookup_2 in Hy. exact (HF y Hy).
      - eapply (IH a b); eauto. lia. }
    destruct (decide (i = k)) as [|Hne]; [done|]. exfalso. unfold in_period in Hp.
    destruct Hs as [[Hs1 Hs2]|[Hs1 Hs2]].
    - destruct (decide (k < i)%nat) as [Hlk|Hlk].
      + pose proof (Hs2 _ _ Hlk Hk). destruct Hcase as [?|Hlast]; [lia|]. apply lookup_lt_Some in Hi. lia.
      + pose proof (Hlt i k q p ltac:(lia) Hi Hk). lia.
    - pose proof (Hs2 p ltac:(by eapply elem_of_list_lookup_2)). destruct Hcase as [?|?]; [lia|]. lia. }
  assert (q = p) as -> by congruence. eexists. split; [exact E|]. intros ->. lia.
Qed.
Print Assumptions C26_rules_at_partial.
Example C26_example : covers_week ex_week /\ periodical_rules_at ex_week (fun _ => 1000) 433000 = Ok (1%nat, 2, -259200) /\
  periodical_rules_at ex_week (fun _ => 1000) 1000 = Ok (0%nat, 1, 432000).
Proof.
  split; [unfold covers_week, ex_week, WEEK; cbn [contiguous p_begin p_dur]; lia|]. split; vm_compute; reflexivity.
Qed.

(** As a consequence the scheduler stops with an AssertionError when it builds its slots on a
    Saturday morning. *)
Theorem C26_slots_crash_refuted : exists c ss, covers_week (pers c) /\ WF ss /\
  (forall t, week_of c t <= t < week_of c t + WEEK \/ ~ begin_ ss <= t <= end_ ss) /\
  ss_with_calendar 10 c ss = Err EAssert.
Proof.
  exists (mkCal ex_week [] WEEK (fun _ => 0)), (ss_of_slot (mkSlot 1 0 0 440000 500000 (fresh_content true (range 1 4)))).
  split; [unfold covers_week; cbn [pers]; unfold ex_week, WEEK; cbn [contiguous p_begin p_dur]; lia|].
  split; [apply ss_of_slot_wf; lia|]. split; [intros t; cbn; unfold WEEK; lia|].
  apply is_err_eq. vm_compute. reflexivity.
Qed.
Print Assumptions C26_slots_crash_refuted.

(** * C57: what a periodical entry covers *)
(** Day [d] (0 = Monday) is among the days of an entry; an interval may go over the week-end. *)
Definition day_in (d : Z) (wd : wdays) : Prop :=
  0 <= d < 7 /\
  match wd with
  | WAll => True
  | WInterval d0 d1 => if d0 <=? d1 then d0 <= d <= d1 else d0 <= d \/ d <= d1
  | WList ds => d ∈ ds
  end.
(** The hour [h] (second of the day) is among the hours of an entry; an end at 00:00 is midnight. *)
Definition hour_in (h : Z) (hm : option (Z * Z)) : Prop :=
  match hm with None => True | Some (b, e) => b <= h /\ (e = 0 \/ h < e) end.
Definition good_days (wd : wdays) : Prop :=
  match wd with
  | WAll => True
  | WInterval d0 d1 => 0 <= d0 < 7 /\ 0 <= d1 < 7
  | WList ds => forall d, d ∈ ds -> 0 <= d < 7
  end.

Lemma expand_simple b dur days rid : (forall d, d ∈ days -> 86400 * d + b + dur <= WEEK) ->
  expand b dur days rid = (fun d => mkPer (86400 * d + b) dur rid) <$> days.
Proof.
  induction days as [|d days IH]; intros H; [done|]. cbn [expand].
  assert (Hd := H d ltac:(by left)). replace (WEEK <? 86400 * d + b + dur) with false by lia.
  rewrite IH by (intros; apply H; by right). done.
Qed.
Lemma elem_zseq a b x : x ∈ zseq a b <-> a <= x < b.
Proof.
  unfold zseq. rewrite elem_of_list_fmap. split.
  - intros (i & -> & Hi). apply elem_of_seq in Hi. lia.
  - intros H. exists (Z.to_nat (x - a)). split; [lia|]. apply elem_of_seq. lia.
Qed.
Lemma expand_covers b dur days rid t : 0 <= b -> b + dur <= 86400 -> (forall d, d ∈ days -> 0 <= d < 7) -> 
  (exists p, p ∈ expand b dur days rid /\ in_period t p) <-> exists d, d ∈ days /\ 86400 * d + b <= t < 86400 * d + b + dur.
Proof.
  intros Hb Hd Hdays. rewrite expand_simple by (intros d H; specialize (Hdays d H); unfold WEEK; lia).
  unfold in_period. split.
  - intros (p & Hp & Ht). apply elem_of_list_fmap in Hp as (d & -> & Hin). cbn [p_begin p_dur] in Ht. eauto.
  - intros (d & Hin & Ht). eexists. split; [apply elem_of_list_fmap; eauto|]. cbn [p_begin p_dur]. done.
Qed.

Theorem C57_entry_partial : forall hm wd rid t, good_days wd -> 0 <= t < WEEK ->
  (match hm with None => True | Some (b, e) => 0 <= b < 86400 /\ (e = 0 \/ b < e <= 86400) end) ->
  (match wd, hm with WInterval d0 d1, Some _ => d0 <= d1 | _, _ => True end) ->
  (exists p, p ∈ from_json hm wd rid /\ in_period t p) <-> day_in (t / 86400) wd /\ hour_in (t mod 86400) hm.
Proof.
  intros hm wd rid t Hg Ht Hhm Hint. pose proof (Z.div_mod t 86400 ltac:(lia)) as Hdm. pose proof (Z.mod_pos_bound t 86400 ltac:(lia)) as Hm.
  set (d := t / 86400) in *. set (h := t mod 86400) in *. unfold WEEK in Ht.
  assert (Hday : 0 <= d < 7) by lia.
  assert (Hexp : forall b dur days, 0 <= b -> 0 < dur -> b + dur <= 86400 -> (forall x, x ∈ days -> 0 <= x < 7) ->
    (exists p, p ∈ expand b dur days rid /\ in_period t p) <-> d ∈ days /\ b <= h < b + dur).
  { intros b dur days H1 H2 H3 H4. rewrite expand_covers by done. split.
    - intros (x & Hx & Hxt). assert (x = d) as -> by lia. split; [done|]. lia.
    - intros [Hx Hh]. exists d. split; [done|]. lia. }
  unfold day_in, hour_in, from_json. destruct hm as [[b e]|].
  - set (dur := if e =? 0 then 24 * 3600 - b else e - b).
    assert (Hdur : 0 < dur /\ b + dur <= 86400) by (unfold dur; destruct (e =? 0) eqn:E; lia).
    assert (Hh : b <= h < b + dur <-> b <= h /\ (e = 0 \/ h < e)) by (unfold dur; destruct (e =? 0) eqn:E; lia).
    destruct wd as [|d0 d1|ds].
    + rewrite Hexp by (try lia; intros x Hx; apply elem_zseq in Hx; lia). rewrite elem_zseq. tauto.
    + cbn [good_days] in Hg. rewrite Hexp by (try lia; intros x Hx; apply elem_zseq in Hx; lia). rewrite elem_zseq.
      replace (d0 <=? d1) with true by lia. rewrite Hh. split; intros [? ?]; (split; [lia|done]).
    + rewrite Hexp by (try lia; exact Hg). rewrite Hh. tauto.
  - destruct wd as [|d0 d1|ds].
    + rewrite Hexp by (try lia; intros x Hx; apply elem_zseq in Hx; lia). rewrite elem_zseq. split; [intros; split; [tauto|done]|]. intros; split; [lia|lia].
    + cbn [good_days] in Hg. cbn [expand]. rewrite Z.add_0_r.
      destruct (d1 <? d0) eqn:E0.
      * replace (d0 <=? d1) with false by lia.
        destruct (WEEK <? 86400 * d0 + 86400 * (d1 + 7 - d0 + 1)) eqn:E; [|unfold WEEK in E; lia].
        assert (Emod : (86400 * d0 + 86400 * (d1 + 7 - d0 + 1)) mod WEEK = 86400 * (d1 + 1)).
        { replace (86400 * d0 + 86400 * (d1 + 7 - d0 + 1)) with (86400 * (d1 + 1) + 1 * WEEK) by (unfold WEEK; lia).
          rewrite Z.mod_add by (unfold WEEK; lia). apply Z.mod_small. unfold WEEK. lia. }
        rewrite Emod. split.
        -- intros (p & Hp & Hpt). rewrite !elem_of_cons in Hp. unfold in_period in Hpt.
           destruct Hp as [->|[->|Hp]]; [..|by apply elem_of_nil in Hp]; cbn [p_begin p_dur] in Hpt; (split; [|done]); split; try done; lia.
        -- intros [[_ [Hc|Hc]] _].
           ++ eexists. split; [right; left|]. unfold in_period. cbn [p_begin p_dur]. lia.
           ++ eexists. split; [left|]. unfold in_period. cbn [p_begin p_dur]. lia.
      * replace (d0 <=? d1) with true by lia.
        destruct (WEEK <? 86400 * d0 + 86400 * (d1 - d0 + 1)) eqn:E; [unfold WEEK in E; lia|]. split.
        -- intros (p & Hp & Hpt). apply elem_of_list_singleton in Hp as ->. unfold in_period in Hpt. cbn [p_begin p_dur] in Hpt. lia.
        -- intros [[_ Hc] _]. eexists. split; [by left|]. unfold in_period. cbn [p_begin p_dur]. lia.
    + rewrite Hexp by (try lia; exact Hg). split; [intros; split; [tauto|done]|]. intros; split; [tauto|lia].
Qed.
Print Assumptions C57_entry_partial.

(** Full statement without the restrictions: hours over midnight, and intervals of days with hours
    that go over the week-end, cover nothing. *)
Theorem C57_entry_refuted :
  (forall t, ~ exists p, p ∈ from_json (Some (19 * 3600, 8 * 3600)) WAll 1 /\ in_period t p) /\
  (forall t, ~ exists p, p ∈ from_json (Some (8 * 3600, 19 * 3600)) (WInterval 5 0) 1 /\ in_period t p).
Proof.
  split.
  - intros t (p & Hp & Ht). rewrite expand_simple in Hp || idtac. unfold from_json in Hp. change (8 * 3600 =? 0) with false in Hp. cbn iota in Hp.
    rewrite expand_simple in Hp. 2: { intros d Hd. apply elem_zseq in Hd. unfold WEEK. lia. }
    apply elem_of_list_fmap in Hp as (d & -> & _). unfold in_period in Ht. cbn [p_begin p_dur] in Ht. lia.
  - intros t (p & Hp & _). unfold from_json in Hp. change (zseq 5 (0 + 1)) with (@nil Z) in Hp. cbn [expand] in Hp. by apply elem_of_nil in Hp.
Qed.
Print Assumptions C57_entry_refuted.
Example C57_example :
  from_json None (WInterval 5 0) 3 = [mkPer 0 86400 3; mkPer 432000 172800 3] /\
  from_json (Some (28800, 68400)) (WInterval 0 1) 1 = [mkPer 28800 39600 1; mkPer 115200 39600 1].
Proof. split; vm_compute; reflexivity. Qed.
