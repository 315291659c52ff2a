(** The order of jobs and queues: properties C46, C47, C88 to C93. *)
From Verif Require Import Base PrioModel PrioSpec.
From Coq Require Import QArith Qminmax Lqa Sorting.Sorted.
Local Open Scope Z_scope.

(** ** Stable sorts *)
Lemma Qlt_bool_true x y : Qlt_bool x y = true <-> (x < y)%Q.
Proof.
  unfold Qlt_bool. rewrite negb_true_iff. split; intros H.
  - apply Qnot_le_lt. intros L. apply Qle_bool_iff in L. congruence.
  - destruct (Qle_bool y x) eqn:E; [|done]. apply Qle_bool_iff in E. lra.
Qed.
Lemma Qlt_bool_false x y : Qlt_bool x y = false <-> (y <= x)%Q.
Proof. unfold Qlt_bool. rewrite negb_false_iff. apply Qle_bool_iff. Qed.

Lemma before_cons {A} (l : list A) z x y : before l x y -> before (z :: l) x y.
Proof. intros (l1 & l2 & l3 & ->). exists (z :: l1), l2, l3. done. Qed.
Lemma before_head {A} (l : list A) x y : y ∈ l -> before (x :: l) x y.
Proof. intros (l2 & l3 & ->)%elem_of_list_split. exists [], l2, l3. done. Qed.

Lemma SS_impl {A} (R S : A -> A -> Prop) l :
  (forall x y, R x y -> S x y) -> StronglySorted R l -> StronglySorted S l.
Proof.
  intros HRS. induction 1 as [|x l Hl IH Hx]; constructor; [done|].
  eapply Forall_impl; [exact Hx|]. intros y. apply HRS.
Qed.
Lemma SS_Forall_split {A} (R : A -> A -> Prop) l i j x y :
  StronglySorted R l -> l !! i = Some x -> l !! j = Some y -> (i < j)%nat -> R x y.
Proof.
  intros HS. revert i j. induction HS as [|z l Hl IH Hz]; intros i j Hi Hj Hij.
  - rewrite lookup_nil in Hi. discriminate.
  - destruct j as [|j]; [lia|]. cbn in Hj. destruct i as [|i].
    + cbn in Hi. injection Hi as ->. rewrite Forall_forall in Hz. apply Hz.
      apply elem_of_list_lookup. eauto.
    + cbn in Hi. apply (IH i j); [done|done|lia].
Qed.

Lemma ins_up_perm {A} (k : A -> Q) x (l : list A) : ins_up k x l ≡ₚ x :: l.
Proof.
  induction l as [|y l IH]; cbn [ins_up]; [done|].
  destruct (Qlt_bool (k y) (k x)); [|done]. rewrite IH. apply Permutation_swap.
Qed.
Lemma sorted_by_perm {A} (k : A -> Q) (l : list A) : sorted_by k l ≡ₚ l.
Proof.
  induction l as [|x l IH]; [done|]. change (sorted_by k (x :: l)) with (ins_up k x (sorted_by k l)).
  rewrite ins_up_perm. by rewrite IH.
Qed.
Lemma ins_up_sorted {A} (k : A -> Q) (R : A -> A -> Prop) x (s : list A) :
  (forall y, y ∈ s -> (k y < k x)%Q -> R y x) -> (forall y, y ∈ s -> (k x <= k y)%Q -> R x y) ->
  (forall y z, R y z -> (k y <= k z)%Q) ->
  StronglySorted R s -> StronglySorted R (ins_up k x s).
Proof.
  intros H1 H2 H3 HS. induction HS as [|y s Hs IH Hy]; cbn [ins_up].
  - constructor; constructor.
  - destruct (Qlt_bool (k y) (k x)) eqn:E.
    + apply Qlt_bool_true in E. constructor.
      * apply IH; intros z Hz; [apply H1|apply H2]; by right.
      * rewrite ins_up_perm. constructor; [apply H1; [left|done]|done].
    + apply Qlt_bool_false in E. constructor; [constructor; done|].
      constructor; [apply H2; [left|done]|].
      apply Forall_forall. intros z Hz. apply H2; [by right|].
      rewrite Forall_forall in Hy. specialize (H3 _ _ (Hy _ Hz)). lra.
Qed.
Lemma sorted_by_orderly {A} (k : A -> Q) (l : list A) : orderly k l (sorted_by k l).
Proof.
  split; [apply sorted_by_perm|]. induction l as [|x l IH]; [constructor|].
  change (sorted_by k (x :: l)) with (ins_up k x (sorted_by k l)).
  apply ins_up_sorted.
  - intros y _ Hy. by left.
  - intros y Hy Hk. rewrite sorted_by_perm in Hy.
    destruct (Qlt_le_dec (k x) (k y)) as [L|L]; [by left|right]. split; [lra|by apply before_head].
  - intros y z [L|[L _]]; lra.
  - eapply SS_impl; [|exact IH]. intros y z [L|[L Hb]]; [by left|right]. split; [done|by apply before_cons].
Qed.

Lemma ins_down_perm {A} (k : A -> Q) x (l : list A) : ins_down k x l ≡ₚ x :: l.
Proof.
  induction l as [|y l IH]; cbn [ins_down]; [done|].
  destruct (Qlt_bool (k x) (k y)); [|done]. rewrite IH. apply Permutation_swap.
Qed.
Lemma sorted_rev_perm {A} (k : A -> Q) (l : list A) : sorted_rev k l ≡ₚ l.
Proof.
  induction l as [|x l IH]; [done|]. change (sorted_rev k (x :: l)) with (ins_down k x (sorted_rev k l)).
  rewrite ins_down_perm. by rewrite IH.
Qed.
Lemma ins_down_sorted {A} (k : A -> Q) (R : A -> A -> Prop) x (s : list A) :
  (forall y, y ∈ s -> (k x < k y)%Q -> R y x) -> (forall y, y ∈ s -> (k y <= k x)%Q -> R x y) ->
  (forall y z, R y z -> (k z <= k y)%Q) ->
  StronglySorted R s -> StronglySorted R (ins_down k x s).
Proof.
  intros H1 H2 H3 HS. induction HS as [|y s Hs IH Hy]; cbn [ins_down].
  - constructor; constructor.
  - destruct (Qlt_bool (k x) (k y)) eqn:E.
    + apply Qlt_bool_true in E. constructor.
      * apply IH; intros z Hz; [apply H1|apply H2]; by right.
      * rewrite ins_down_perm. constructor; [apply H1; [left|done]|done].
    + apply Qlt_bool_false in E. constructor; [constructor; done|].
      constructor; [apply H2; [left|done]|].
      apply Forall_forall. intros z Hz. apply H2; [by right|].
      rewrite Forall_forall in Hy. specialize (H3 _ _ (Hy _ Hz)). lra.
Qed.
Lemma sorted_rev_orderly {A} (k : A -> Q) (l : list A) : orderly_rev k l (sorted_rev k l).
Proof.
  split; [apply sorted_rev_perm|]. induction l as [|x l IH]; [constructor|].
  change (sorted_rev k (x :: l)) with (ins_down k x (sorted_rev k l)).
  apply ins_down_sorted.
  - intros y _ Hy. by left.
  - intros y Hy Hk. rewrite sorted_rev_perm in Hy.
    destruct (Qlt_le_dec (k y) (k x)) as [L|L]; [by left|right]. split; [lra|by apply before_head].
  - intros y z [L|[L _]]; lra.
  - eapply SS_impl; [|exact IH]. intros y z [L|[L Hb]]; [by left|right]. split; [done|by apply before_cons].
Qed.

(** ** Evaluation of the keys *)
Lemma eval_all_Ok {A} (f : A -> res Q) (l : list A) r :
  eval_all f l = Ok r -> r.*1 = l /\ Forall (fun p => f (fst p) = Ok (snd p)) r.
Proof.
  revert r. induction l as [|x l IH]; intros r H; cbn [eval_all] in H.
  - injection H as <-. split; [done|constructor].
  - apply rbind_Ok in H as (k & Hk & H). apply rbind_Ok in H as (r' & Hr & H). injection H as <-.
    destruct (IH _ Hr) as [H1 H2]. split; [cbn; by rewrite H1|]. constructor; [done|done].
Qed.
Lemma eval_all_Err {A} (f : A -> res Q) (l : list A) x e :
  x ∈ l -> f x = Err e -> exists e', eval_all f l = Err e'.
Proof.
  intros Hx He. induction l as [|y l IH]; [by apply elem_of_nil in Hx|].
  apply elem_of_cons in Hx as [->|Hx]; cbn [eval_all].
  - rewrite He. cbn. eauto.
  - destruct (f y) as [k|e']; cbn [rbind]; [|eauto]. destruct (IH Hx) as [e' ->]. cbn. eauto.
Qed.

Lemma before_fmap {A B} (g : A -> B) (l : list A) x y : before l x y -> before (g <$> l) (g x) (g y).
Proof.
  intros (l1 & l2 & l3 & ->). exists (g <$> l1), (g <$> l2), (g <$> l3).
  rewrite fmap_app, fmap_cons, fmap_app, fmap_cons. done.
Qed.
Lemma SS_fmap {A B} (g : A -> B) (R : A -> A -> Prop) (S : B -> B -> Prop) (l : list A) :
  (forall x y, x ∈ l -> y ∈ l -> R x y -> S (g x) (g y)) -> StronglySorted R l -> StronglySorted S (g <$> l).
Proof.
  intros HRS HS. induction HS as [|x l Hl IH Hx]; [constructor|]. rewrite fmap_cons. constructor.
  - apply IH. intros y z Hy Hz. apply HRS; by right.
  - apply Forall_forall. intros b Hb. apply elem_of_list_fmap in Hb as (y & -> & Hy).
    rewrite Forall_forall in Hx. apply HRS; [left|by right|by apply Hx].
Qed.

(** Sorting jobs after evaluating a key that succeeds for each of them. *)
Lemma eval_sorted {A} (f : A -> res Q) (l : list A) r (key : A -> Q) :
  eval_all f l = Ok r -> (forall x q, f x = Ok q -> key x = q) ->
  orderly key l (fst <$> sorted_by snd r) /\ orderly_rev key l (fst <$> sorted_rev snd r).
Proof.
  intros Hr Hkey. destruct (eval_all_Ok _ _ _ Hr) as [Hl Hf]. rewrite Forall_forall in Hf.
  destruct (sorted_by_orderly snd r) as [P1 S1]. destruct (sorted_rev_orderly snd r) as [P2 S2].
  assert (K : forall p, p ∈ r -> key (fst p) = snd p) by (intros p Hp; apply Hkey, Hf, Hp).
  split.
  - split; [rewrite P1, Hl; done|]. eapply SS_fmap; [|exact S1]. intros p q Hp Hq HR.
    rewrite P1 in Hp, Hq. rewrite (K p Hp), (K q Hq). destruct HR as [L|[L B]]; [by left|right].
    split; [done|]. rewrite <- Hl. by apply before_fmap.
  - split; [rewrite P2, Hl; done|]. eapply SS_fmap; [|exact S2]. intros p q Hp Hq HR.
    rewrite P2 in Hp, Hq. rewrite (K p Hp), (K q Hq). destruct HR as [L|[L B]]; [by left|right].
    split; [done|]. rewrite <- Hl. by apply before_fmap.
Qed.

(** ** C46: the order of a round *)

(** The rank given to a job by each policy; the default of the match is never used for a job of a
    round that did not fail (second part of the theorem). *)
Definition rank_of (pol : policy) (kc : kconf) (queues : list string) (now : Z) (t : list acc) (j : wj) : res Q :=
  match pol with
  | ById => Ok (inject_Z 0)
  | Fairshare => karma kc queues now t j
  | Multifactor c nb => k <-- karma kc queues now t j ;; priority c nb now j k
  end.
Definition key_of (pol : policy) kc queues now t (j : wj) : Q :=
  match rank_of pol kc queues now t j with Ok q => q | Err _ => 0%Q end.

Lemma eval_all_total {A} (f : A -> res Q) (l : list A) r :
  eval_all f l = Ok r -> Forall (fun x => exists q, f x = Ok q) l.
Proof.
  intros H. destruct (eval_all_Ok _ _ _ H) as [<- Hf]. apply Forall_fmap.
  eapply Forall_impl; [exact Hf|]. intros p Hp. exists (snd p). exact Hp.
Qed.

(** The two passes of the multifactor sort are one evaluation of the rank. *)
Lemma eval_two {A} (f : A -> res Q) (g : A -> Q -> res Q) (l : list A) ks r :
  eval_all f l = Ok ks -> eval_all (fun p => g (fst p) (snd p)) ks = Ok r ->
  eval_all (fun x => k <-- f x ;; g x k) l = Ok ((fun p => (fst (fst p), snd p)) <$> r).
Proof.
  revert ks r. induction l as [|x l IH]; intros ks r H1 H2; cbn [eval_all] in H1.
  - injection H1 as <-. cbn in H2. injection H2 as <-. done.
  - apply rbind_Ok in H1 as (k & Hk & H1). apply rbind_Ok in H1 as (ks' & Hks & H1). injection H1 as <-.
    cbn [eval_all fst snd] in H2. apply rbind_Ok in H2 as (q & Hq & H2).
    apply rbind_Ok in H2 as (r' & Hr & H2). injection H2 as <-.
    cbn [eval_all]. rewrite Hk. cbn [rbind]. rewrite Hq. cbn [rbind]. rewrite (IH _ _ Hks Hr). done.
Qed.
Lemma ins_down_fmap {A B} (g : A -> B) (k : B -> Q) x (l : list A) :
  ins_down k (g x) (g <$> l) = g <$> ins_down (fun a => k (g a)) x l.
Proof.
  induction l as [|y l IH]; [done|]. rewrite fmap_cons. cbn [ins_down].
  destruct (Qlt_bool (k (g x)) (k (g y))); [|done]. rewrite IH. done.
Qed.
Lemma sorted_rev_fmap {A B} (g : A -> B) (k : B -> Q) (l : list A) :
  sorted_rev k (g <$> l) = g <$> sorted_rev (fun a => k (g a)) l.
Proof.
  induction l as [|x l IH]; [done|].
  change (sorted_rev k (g <$> (x :: l))) with (ins_down k (g x) (sorted_rev k (g <$> l))).
  rewrite IH, ins_down_fmap. done.
Qed.

Lemma sorting_spec pol kc queues now t l o : jobs_sorting pol kc queues now t l = Ok o ->
  (pol = ById -> o = l) /\
  Forall (fun j => rank_of pol kc queues now t j = Ok (key_of pol kc queues now t j)) l /\
  o ≡ₚ l /\
  (pol = Fairshare -> orderly (key_of pol kc queues now t) l o) /\
  (forall c nb, pol = Multifactor c nb -> orderly_rev (key_of pol kc queues now t) l o).
Proof.
  intros H.
  assert (K : forall j q, rank_of pol kc queues now t j = Ok q -> key_of pol kc queues now t j = q).
  { intros j q Hq. unfold key_of. by rewrite Hq. }
  destruct pol as [| |c nb]; cbn [jobs_sorting] in H.
  - injection H as <-. split; [done|]. split; [by apply Forall_true|]. split; [done|]. split; discriminate.
  - unfold karma_sorting in H. apply rbind_Ok in H as (r & Hr & H). injection H as <-.
    destruct (eval_sorted _ l r (key_of Fairshare kc queues now t) Hr K) as [H1 _].
    split; [discriminate|]. split.
    + eapply Forall_impl; [exact (eval_all_total _ _ _ Hr)|]. intros j [q Hq]. cbn [rank_of].
      rewrite Hq. f_equal. symmetry. by apply K.
    + split; [apply H1|]. split; [done|discriminate].
  - unfold multifactor_sorting in H. apply rbind_Ok in H as (ks & Hks & H).
    apply rbind_Ok in H as (r & Hr & H). injection H as <-.
    pose proof (eval_two (karma kc queues now t) (priority c nb now) l ks r Hks Hr) as Hev.
    destruct (eval_sorted _ l _ (key_of (Multifactor c nb) kc queues now t) Hev K) as [_ H1].
    rewrite sorted_rev_fmap in H1. rewrite <- list_fmap_compose in H1.
    rewrite <- list_fmap_compose.
    change (fst ∘ (fun p : wj * Q * Q => (p.1.1, p.2))) with (fst ∘ (fst : wj * Q * Q -> wj * Q)) in H1.
    change (fun a : wj * Q * Q => (a.1.1, a.2).2) with (snd : wj * Q * Q -> Q) in H1.
    split; [discriminate|]. split.
    + eapply Forall_impl; [exact (eval_all_total _ _ _ Hev)|]. intros j [q Hq]. cbn [rank_of].
      rewrite Hq. f_equal. symmetry. by apply K.
    + split; [apply H1|]. split; [discriminate|]. intros ? ? _. exact H1.
Qed.

(** What a round considers: the waiting jobs of its queues that are not reservations, once each, in
    the order of the policy, cut after the configured number. *)
Theorem C46_round_order : forall pol kc limit queues now t jobs o,
  round_jobs pol kc limit queues now t jobs = Ok o ->
  exists inp full,
    inp = base.filter (fun j => w_state j = "Waiting"%string /\ w_queue j ∈ queues /\ w_resv j = "None"%string) jobs /\
    full ≡ₚ inp /\
    (pol = ById -> full = inp) /\
    Forall (fun j => rank_of pol kc queues now t j = Ok (key_of pol kc queues now t j)) inp /\
    (pol = Fairshare -> orderly (key_of pol kc queues now t) inp full) /\
    (forall c nb, pol = Multifactor c nb -> orderly_rev (key_of pol kc queues now t) inp full) /\
    (o = match limit with
         | Some n => if 0 <? n then take (Z.to_nat n) full else full
         | None => full
         end).
Proof.
  intros pol kc limit queues now t jobs o H. unfold round_jobs in H.
  unfold get_waiting_jobs in H.
  set (inp := base.filter _ jobs) in *. exists inp.
  assert (Hcut : forall full, match max_job limit with
         | Some n => if n <? Z.of_nat (length full) then Ok (take (Z.to_nat n) full) else Ok full
         | None => Ok full
         end = Ok o -> o = match limit with
         | Some n => if 0 <? n then take (Z.to_nat n) full else full
         | None => full end).
  { intros full. destruct limit as [n|]; cbn [max_job]; [|congruence].
    destruct (0 <? n) eqn:En; [|congruence].
    destruct (n <? Z.of_nat (length full)) eqn:El; [congruence|]. intros [= <-].
    symmetry. apply take_ge. lia. }
  destruct inp as [|j0 l0] eqn:Ei.
  - injection H as <-. exists []. split; [done|]. split; [done|]. split; [done|]. split; [constructor|].
    split; [intros _; split; [done|constructor]|]. split; [intros ? ? _; split; [done|constructor]|].
    destruct limit as [n|]; [|done]. destruct (0 <? n); [|done]. by rewrite take_nil.
  - rewrite <- Ei in *. apply rbind_Ok in H as (full & Hs & H). exists full.
    destruct (sorting_spec _ _ _ _ _ _ _ Hs) as (A1 & A2 & A3 & A4 & A5).
    split; [done|]. split; [done|]. split; [done|]. split; [done|]. split; [done|]. split; [done|].
    by apply Hcut.
Qed.

Lemma sublist_NoDup' {A} (l k : list A) : NoDup k -> l `sublist_of` k -> NoDup l.
Proof. intros Hk Hs. apply sublist_submseteq, submseteq_Permutation in Hs as [k' Hk']. rewrite Hk' in Hk. by apply NoDup_app in Hk as [? _]. Qed.
Lemma sublist_filter' {A} (P : A -> Prop) `{!forall x, Decision (P x)} (l : list A) : base.filter P l `sublist_of` l.
Proof.
  induction l as [|x l IH]; [done|]. rewrite filter_cons. destruct (decide (P x)); by constructor.
Qed.
(** Corollary: no job is considered twice in a round. *)
Theorem C46_once : forall pol kc limit queues now t jobs o,
  NoDup (w_id <$> jobs) -> round_jobs pol kc limit queues now t jobs = Ok o ->
  NoDup (w_id <$> o) /\ (forall j, j ∈ o -> j ∈ jobs /\ w_state j = "Waiting"%string /\ w_queue j ∈ queues).
Proof.
  intros pol kc limit queues now t jobs o Hnd H.
  destruct (C46_round_order _ _ _ _ _ _ _ _ H) as (inp & full & Hi & Hp & _ & _ & _ & _ & Ho).
  assert (Hsub : o `sublist_of` full).
  { rewrite Ho. destruct limit as [n|]; [|done]. destruct (0 <? n); [|done]. apply sublist_take. }
  split.
  - eapply sublist_NoDup'; [|apply fmap_sublist, Hsub].
    rewrite Hp, Hi. eapply sublist_NoDup'; [exact Hnd|]. apply fmap_sublist, sublist_filter'.
  - intros j Hj. apply sublist_submseteq in Hsub. apply (elem_of_submseteq _ _ _ Hj) in Hsub as Hj'. clear Hj; rename Hj' into Hj. rewrite Hp, Hi in Hj.
    apply elem_of_list_filter in Hj as ((H1 & H2 & _) & H3). done.
Qed.

(** ** C93: the limit on the number of jobs *)
(** With the order by id, a job behind [n] waiting jobs of its queues is never considered,
    whatever these jobs wait for; this holds round after round as long as they stay. *)
Theorem C93_behind_limit : forall kc n queues now t jobs o first j rest,
  0 < n -> jobs = first ++ j :: rest ->
  n <= Z.of_nat (length (base.filter (fun j => w_state j = "Waiting"%string /\ w_queue j ∈ queues /\ w_resv j = "None"%string) first)) ->
  NoDup (w_id <$> jobs) ->
  round_jobs ById kc (Some n) queues now t jobs = Ok o -> j ∉ o.
Proof.
  intros kc n queues now t jobs o first j rest Hn Hjobs Hlen Hnd H Hin.
  destruct (C46_round_order _ _ _ _ _ _ _ _ H) as (inp & full & Hi & _ & Hf & _ & _ & _ & Ho).
  rewrite (Hf eq_refl) in Ho. destruct (0 <? n) eqn:E; [|lia].
  rewrite Ho, Hi, Hjobs in Hin. rewrite filter_app in Hin. rewrite take_app_le in Hin by lia.
  apply elem_of_take in Hin as (i & Hi' & _). apply elem_of_list_lookup_2 in Hi'.
  apply elem_of_list_filter in Hi' as [_ Hi'].
  rewrite Hjobs, fmap_app, fmap_cons in Hnd. apply NoDup_app in Hnd as (_ & Hd & _).
  apply (Hd (w_id j)); [apply elem_of_list_fmap; eauto|left].
Qed.
(** The first jobs are considered: those with fewer than [n] waiting jobs before them. *)
Theorem C93_within_limit : forall kc n queues now t jobs o first j rest,
  jobs = first ++ j :: rest ->
  w_state j = "Waiting"%string -> w_queue j ∈ queues -> w_resv j = "None"%string ->
  Z.of_nat (length (base.filter (fun j => w_state j = "Waiting"%string /\ w_queue j ∈ queues /\ w_resv j = "None"%string) first)) < n ->
  round_jobs ById kc (Some n) queues now t jobs = Ok o -> j ∈ o.
Proof.
  intros kc n queues now t jobs o first j rest Hjobs W1 W2 W3 Hlen H.
  destruct (C46_round_order _ _ _ _ _ _ _ _ H) as (inp & full & Hi & _ & Hf & _ & _ & _ & Ho).
  rewrite (Hf eq_refl) in Ho. destruct (0 <? n) eqn:E; [|lia].
  rewrite Ho, Hi, Hjobs. rewrite filter_app, filter_cons_True by done. apply elem_of_list_lookup.
  exists (length (base.filter (fun j => w_state j = "Waiting"%string /\ w_queue j ∈ queues /\ w_resv j = "None"%string) first)).
  rewrite lookup_take by lia. rewrite lookup_app_r by lia. rewrite Nat.sub_diag. done.
Qed.

(** ** C47: the groups of queues *)
Lemma ins_queue_perm x l : ins_queue x l ≡ₚ x :: l.
Proof.
  induction l as [|y l IH]; cbn [ins_queue]; [done|].
  destruct (q_prio x <? q_prio y); [|done]. rewrite IH. apply Permutation_swap.
Qed.
Lemma by_priority_perm l : by_priority l ≡ₚ l.
Proof.
  induction l as [|x l IH]; [done|]. change (by_priority (x :: l)) with (ins_queue x (by_priority l)).
  rewrite ins_queue_perm. by rewrite IH.
Qed.
Definition down (x y : queue) : Prop := q_prio y <= q_prio x.
Lemma ins_queue_sorted x l : StronglySorted down l -> StronglySorted down (ins_queue x l).
Proof.
  intros HS. induction HS as [|y s Hs IH Hy]; cbn [ins_queue].
  - constructor; constructor.
  - destruct (q_prio x <? q_prio y) eqn:E.
    + constructor; [done|]. rewrite ins_queue_perm. constructor; [unfold down; lia|done].
    + constructor; [by constructor|]. constructor; [unfold down; lia|].
      eapply Forall_impl; [exact Hy|]. unfold down. intros z. lia.
Qed.
Lemma by_priority_sorted l : StronglySorted down (by_priority l).
Proof.
  induction l as [|x l IH]; [constructor|].
  change (by_priority (x :: l)) with (ins_queue x (by_priority l)). by apply ins_queue_sorted.
Qed.
Lemma group_by_concat l : mjoin (group_by l) = l.
Proof.
  induction l as [|x l IH]; [done|]. cbn [group_by].
  destruct (group_by l) as [|[|y g] gs]; rewrite <- IH; [done|done|].
  destruct (q_prio x =? q_prio y); done.
Qed.
Lemma group_by_nonempty l : Forall (fun g => g <> []) (group_by l).
Proof.
  induction l as [|x l IH]; [constructor|]. cbn [group_by].
  destruct (group_by l) as [|[|y g] gs]; [by repeat constructor|by constructor|].
  inversion IH; subst.
  destruct (q_prio x =? q_prio y); constructor; try done.
Qed.
Lemma group_by_same l : Forall (fun g => forall p q, p ∈ g -> q ∈ g -> q_prio p = q_prio q) (group_by l).
Proof.
  assert (S1 : forall x p q, p ∈ [x] -> q ∈ [x] -> q_prio p = q_prio q).
  { intros x p q Hp%elem_of_list_singleton Hq%elem_of_list_singleton. by subst. }
  induction l as [|x l IH]; [constructor|]. cbn [group_by].
  destruct (group_by l) as [|[|y g] gs]; [constructor; [apply S1|constructor]|constructor; [apply S1|done]|].
  destruct (q_prio x =? q_prio y) eqn:E; [|constructor; [apply S1|done]].
  inversion IH as [|? ? H1 H2]; subst. constructor; [|done].
  assert (Hx : forall p, p ∈ x :: y :: g -> q_prio p = q_prio y).
  { intros p [->|Hp]%elem_of_cons; [lia|]. apply H1; [done|left]. }
  intros p q Hp Hq. rewrite (Hx p Hp), (Hx q Hq). done.
Qed.
Lemma group_by_down l : StronglySorted down l ->
  StronglySorted (fun g h => forall p q, p ∈ g -> q ∈ h -> q_prio q < q_prio p) (group_by l).
Proof.
  induction l as [|x l IH]; intros HS; [constructor|]. inversion HS as [|? ? H1 H2]; subst.
  specialize (IH H1). pose proof (group_by_concat l) as Hc. pose proof (group_by_same l) as Hsm.
  pose proof (group_by_nonempty l) as Hne. cbn [group_by].
  destruct (group_by l) as [|[|y g] gs].
  - constructor; constructor.
  - inversion Hne. done.
  - inversion IH as [|? ? I1 I2]; subst.
    assert (Hxy : down x y). { rewrite Forall_forall in H2. apply H2. change (y ∈ y :: g ++ mjoin gs). left. }
    unfold down in Hxy. inversion Hsm as [|? ? G1 G2]; subst.
    destruct (q_prio x =? q_prio y) eqn:E.
    + constructor; [done|]. eapply Forall_impl; [exact I2|]. intros h Hh p q [->|Hp]%elem_of_cons Hq.
      * assert (q_prio x = q_prio y) as -> by lia. apply Hh; [left|done].
      * by apply Hh.
    + constructor; [done|]. constructor.
      * intros p q ->%elem_of_list_singleton Hq. assert (q_prio q = q_prio y) as -> by (apply G1; [done|left]). lia.
      * eapply Forall_impl; [exact I2|]. intros h Hh p q ->%elem_of_list_singleton Hq.
        assert (q_prio q < q_prio y) by (apply Hh; [left|done]). lia.
Qed.

(** The groups partition the queues by priority, highest first; each group serves its active queues. *)
Theorem C47_groups : forall l,
  mjoin (queue_groups l) ≡ₚ l /\
  Forall (fun g => g <> [] /\ forall p q, p ∈ g -> q ∈ g -> q_prio p = q_prio q) (queue_groups l) /\
  StronglySorted (fun g h => forall p q, p ∈ g -> q ∈ h -> q_prio q < q_prio p) (queue_groups l) /\
  (forall p q, p ∈ l -> q ∈ l -> q_prio p = q_prio q -> exists g, g ∈ queue_groups l /\ p ∈ g /\ q ∈ g).
Proof.
  intros l. unfold queue_groups.
  assert (P : mjoin (group_by (by_priority l)) ≡ₚ l) by (rewrite group_by_concat; apply by_priority_perm).
  assert (F : Forall (fun g => g <> [] /\ forall p q, p ∈ g -> q ∈ g -> q_prio p = q_prio q) (group_by (by_priority l))).
  { apply Forall_and. split; [apply group_by_nonempty|apply group_by_same]. }
  assert (S : StronglySorted (fun g h => forall p q, p ∈ g -> q ∈ h -> q_prio q < q_prio p) (group_by (by_priority l)))
    by apply group_by_down, by_priority_sorted.
  split; [exact P|]. split; [exact F|]. split; [exact S|].
  intros p q Hp Hq E. rewrite <- P in Hp, Hq.
  apply elem_of_list_join in Hp as (g & Hpg & Hg). apply elem_of_list_join in Hq as (h & Hqh & Hh).
  apply elem_of_list_lookup in Hg as [i Hi]. apply elem_of_list_lookup in Hh as [j Hj].
  destruct (decide (i = j)) as [->|Hne].
  - rewrite Hi in Hj. injection Hj as ->. exists h. split; [|done]. apply elem_of_list_lookup. eauto.
  - exfalso. assert (L : (i < j \/ j < i)%nat) by lia. destruct L as [L|L].
    + pose proof (SS_Forall_split _ _ _ _ _ _ S Hi Hj L p q Hpg Hqh). lia.
    + pose proof (SS_Forall_split _ _ _ _ _ _ S Hj Hi L q p Hqh Hpg). lia.
Qed.
(** What the meta-scheduler hands to the scheduler, group after group, is exactly the active queues. *)
Theorem C47_active : forall l,
  mjoin (served_groups l) ≡ₚ base.filter (fun q => q_active q = true) l /\
  StronglySorted (fun g h => forall p q, p ∈ g -> q ∈ h -> q_prio q < q_prio p) (served_groups l).
Proof.
  intros l. unfold served_groups. destruct (C47_groups l) as (P & _ & S & _). split.
  - rewrite <- P at 2. generalize (queue_groups l) as gs. intros gs.
    induction gs as [|g gs IH]; [done|].
    rewrite fmap_cons. change (mjoin (g :: gs)) with (g ++ mjoin gs). rewrite filter_app. rewrite <- IH. done.
  - eapply SS_fmap; [|exact S]. intros g h _ _ H p q Hp Hq.
    apply elem_of_list_filter in Hp as [_ Hp]. apply elem_of_list_filter in Hq as [_ Hq]. by apply H.
Qed.
Definition ex_queues : list queue :=
  [mkQueue "default" 2 true; mkQueue "admin" 10 true; mkQueue "besteffort" 0 true; mkQueue "test" 2 false].
Example ex_queue_groups :
  map (map q_name) (queue_groups ex_queues) = [["admin"]; ["default"; "test"]; ["besteffort"]]%string.
Proof. reflexivity. Qed.

(** ** Fair share: C88, C89, C90 *)
(** The consumption recorded for a user (for a project) in the window of the fair share: the sum over the
    rows of type [ty] of the queues, started in the window and ended by now (before now, for a project). *)
Definition consumed (t : list acc) (f : acc -> bool) : Z :=
  fold_right (fun a s => if f a then a_cons a + s else s) 0 t.
Definition user_rows (kc : kconf) (queues : list string) (now : Z) (ty u : string) (a : acc) : bool :=
  bool_decide (a_queue a ∈ queues) && (now - k_window kc <=? a_wstart a) && (a_wstop a <=? now)
  && bool_decide (a_type a = ty) && bool_decide (a_user a = u).
Definition all_rows (kc : kconf) (queues : list string) (now : Z) (ty : string) (a : acc) : bool :=
  bool_decide (a_queue a ∈ queues) && (now - k_window kc <=? a_wstart a) && (a_wstop a <? now)
  && bool_decide (a_type a = ty).
Definition project_rows (kc : kconf) (queues : list string) (now : Z) (ty p : string) (a : acc) : bool :=
  all_rows kc queues now ty a && bool_decide (a_project a = p).

Lemma sum_where_consumed f t : default 0%Q (sum_where f t) = inject_Z (consumed t f).
Proof.
  unfold sum_where, consumed.
  assert (H : fold_right (fun a s => a_cons a + s) 0 (base.filter (fun a => f a = true) t)
              = fold_right (fun a s => if f a then a_cons a + s else s) 0 t).
  { induction t as [|a t IH]; [done|]. rewrite filter_cons. cbn [fold_right].
    destruct (decide (f a = true)) as [E|E].
    - rewrite E. cbn [fold_right]. by rewrite IH.
    - apply not_true_iff_false in E. rewrite E. done. }
  rewrite <- H. destruct (base.filter _ t); done.
Qed.
Lemma sum_where_total f t : (exists a, a ∈ t /\ f a = true) -> default 1%Q (sum_where f t) = inject_Z (consumed t f).
Proof.
  intros (a & Ha & Hf). rewrite <- sum_where_consumed. unfold sum_where.
  destruct (base.filter (fun a => f a = true) t) eqn:E; [|done].
  exfalso. assert (a ∈ base.filter (fun a => f a = true) t) by (apply elem_of_list_filter; done).
  rewrite E in H. by apply elem_of_nil in H.
Qed.
Lemma consumed_nonneg f t : (forall a, a ∈ t -> 0 <= a_cons a) -> 0 <= consumed t f.
Proof.
  unfold consumed. induction t as [|a t IH]; intros H; cbn [fold_right]; [lia|].
  assert (0 <= a_cons a) by (apply H; left). 
  assert (0 <= fold_right (fun a s => if f a then a_cons a + s else s) 0 t) by (apply IH; intros b Hb; apply H; by right).
  destruct (f a); lia.
Qed.
Lemma consumed_mono f g t : (forall a, a ∈ t -> 0 <= a_cons a) -> (forall a, a ∈ t -> f a = true -> g a = true) ->
  consumed t f <= consumed t g.
Proof.
  unfold consumed. induction t as [|a t IH]; intros H Hfg; cbn [fold_right]; [lia|].
  assert (0 <= a_cons a) by (apply H; left).
  assert (fold_right (fun a s => if f a then a_cons a + s else s) 0 t <= fold_right (fun a s => if g a then a_cons a + s else s) 0 t).
  { apply IH; intros b Hb; [apply H|apply Hfg]; by right. }
  pose proof (Hfg a ltac:(left)). destruct (f a), (g a); lia.
Qed.
Lemma consumed_ext f g t : (forall a, a ∈ t -> f a = g a) -> consumed t f = consumed t g.
Proof.
  unfold consumed. induction t as [|a t IH]; intros H; cbn [fold_right]; [done|].
  rewrite (H a) by left. rewrite IH; [done|]. intros b Hb. apply H. by right.
Qed.
(** Totals: at least one when there is no row. *)
Definition total (t : list acc) (f : acc -> bool) : Q :=
  if existsb f t then inject_Z (consumed t f) else 1%Q.
Lemma sum_where_total' f t : default 1%Q (sum_where f t) = total t f.
Proof.
  unfold total. destruct (existsb f t) eqn:E.
  - apply sum_where_total. apply existsb_exists in E as (a & Ha & Hf). exists a. split; [by apply elem_of_list_In|done].
  - unfold sum_where. destruct (base.filter (fun a => f a = true) t) as [|a l] eqn:F; [done|].
    exfalso. assert (Ha : a ∈ base.filter (fun a => f a = true) t) by (rewrite F; left).
    apply elem_of_list_filter in Ha as [H1 H2]. apply elem_of_list_In in H2.
    assert (existsb f t = true) by (apply existsb_exists; eauto). congruence.
Qed.

Lemma qdiv_Ok x y q : qdiv x y = Ok q -> q = (x / y)%Q /\ ~ (y == 0)%Q.
Proof.
  unfold qdiv. destruct (Qeq_bool y 0) eqn:E; [discriminate|]. intros [= <-]. split; [done|].
  intros H. apply Qeq_bool_iff in H. congruence.
Qed.

(** The karma in closed form. *)
Theorem C88_karma_value : forall kc queues now t j q, karma kc queues now t j = Ok q ->
  assoc (w_user j) (k_user_targets kc) = None /\
  ~ (total t (all_rows kc queues now "USED") == 0)%Q /\ ~ (total t (all_rows kc queues now "ASKED") == 0)%Q /\
  (q == k_coef_proj kc * (inject_Z (consumed t (project_rows kc queues now "USED" (w_project j))) / total t (all_rows kc queues now "USED")
                          - default 0 (assoc (w_project j) (k_proj_targets kc)) / 100)
      + k_coef_user kc * (inject_Z (consumed t (user_rows kc queues now "USED" (w_user j))) / total t (all_rows kc queues now "USED"))
      + k_coef_ask kc * (inject_Z (consumed t (user_rows kc queues now "ASKED" (w_user j))) / total t (all_rows kc queues now "ASKED")))%Q.
Proof.
  intros kc queues now t j q.
  unfold karma. intros H.
  rewrite !sum_where_consumed, !sum_where_total' in H.
  change (fun a => in_window queues (now - k_window kc) now a && bool_decide (a_type a = "USED"%string)) with (all_rows kc queues now "USED") in H.
  change (fun a => in_window queues (now - k_window kc) now a && bool_decide (a_type a = "ASKED"%string)) with (all_rows kc queues now "ASKED") in H.
  change (fun a => in_window queues (now - k_window kc) now a && bool_decide (a_type a = "USED"%string) && bool_decide (a_project a = w_project j))
    with (project_rows kc queues now "USED" (w_project j)) in H.
  change (fun a => in_window_user queues (now - k_window kc) now a && bool_decide (a_type a = "USED"%string) && bool_decide (a_user a = w_user j))
    with (user_rows kc queues now "USED" (w_user j)) in H.
  change (fun a => in_window_user queues (now - k_window kc) now a && bool_decide (a_type a = "ASKED"%string) && bool_decide (a_user a = w_user j))
    with (user_rows kc queues now "ASKED" (w_user j)) in H.
  destruct (assoc (w_user j) (k_user_targets kc)) as [v|]; [discriminate|]. cbn [rbind] in H.
  apply rbind_Ok in H as (p & Hp & H). apply rbind_Ok in H as (u & Hu & H). apply rbind_Ok in H as (a & Ha & H).
  apply qdiv_Ok in Hp as [-> Hz]. apply qdiv_Ok in Hu as [-> _]. apply qdiv_Ok in Ha as [-> Hz'].
  injection H as <-. split; [done|]. split; [done|]. split; [done|].
  field. split; done.
Qed.

Lemma total_pos t f : (forall a, a ∈ t -> 0 <= a_cons a) -> ~ (total t f == 0)%Q -> (0 < total t f)%Q.
Proof.
  intros H Hz. unfold total in *. destruct (existsb f t); [|lra].
  assert (0 <= consumed t f) by by apply consumed_nonneg.
  assert (0 <= inject_Z (consumed t f))%Q by (change 0%Q with (inject_Z 0); by rewrite <- Zle_Qle). lra.
Qed.

(** C88: of two waiting jobs of the same project, the one whose user consumed less (and asked no more)
    in the window is considered first. *)
Theorem C88_less_consumed_first : forall kc limit queues now t jobs o x y i k,
  round_jobs Fairshare kc limit queues now t jobs = Ok o ->
  (forall a, a ∈ t -> 0 <= a_cons a) -> (0 < k_coef_user kc)%Q -> (0 <= k_coef_ask kc)%Q ->
  w_project x = w_project y ->
  consumed t (user_rows kc queues now "USED" (w_user x)) < consumed t (user_rows kc queues now "USED" (w_user y)) ->
  consumed t (user_rows kc queues now "ASKED" (w_user x)) <= consumed t (user_rows kc queues now "ASKED" (w_user y)) ->
  o !! i = Some x -> o !! k = Some y -> (i < k)%nat.
Proof.
  intros kc limit queues now t jobs o x y i k H Hpos Hu Ha Hproj Hused Hasked Hi Hk.
  destruct (C46_round_order _ _ _ _ _ _ _ _ H) as (inp & full & _ & Hp & _ & Hr & Ho & _ & Hcut).
  specialize (Ho eq_refl) as [_ Hsort].
  assert (Hfull : forall n z, o !! n = Some z -> full !! n = Some z).
  { intros n z Hn. rewrite Hcut in Hn. destruct limit as [m|]; [|done]. destruct (0 <? m); [|done].
    apply lookup_take_Some in Hn as [Hn _]. done. }
  pose proof (Hfull _ _ Hi) as Fi. pose proof (Hfull _ _ Hk) as Fk.
  assert (Ix : x ∈ inp) by (rewrite <- Hp; by eapply elem_of_list_lookup_2).
  assert (Iy : y ∈ inp) by (rewrite <- Hp; by eapply elem_of_list_lookup_2).
  rewrite Forall_forall in Hr. pose proof (Hr _ Ix) as Rx. pose proof (Hr _ Iy) as Ry.
  apply C88_karma_value in Rx as (_ & Z1 & Z2 & Kx). apply C88_karma_value in Ry as (_ & _ & _ & Ky).
  apply total_pos in Z1; [|done]. apply total_pos in Z2; [|done].
  set (X := key_of Fairshare kc queues now t x) in *. set (Y := key_of Fairshare kc queues now t y) in *.
  assert (HXY : (X < Y)%Q).
  { rewrite Kx, Ky, Hproj. rewrite Zlt_Qlt in Hused. rewrite Zle_Qle in Hasked.
    set (TU := total t (all_rows kc queues now "USED")) in *. set (TA := total t (all_rows kc queues now "ASKED")) in *.
    assert (D1 : (inject_Z (consumed t (user_rows kc queues now "USED" (w_user x))) / TU < inject_Z (consumed t (user_rows kc queues now "USED" (w_user y))) / TU)%Q).
    { apply Qmult_lt_r; [by apply Qinv_lt_0_compat|done]. }
    assert (D2 : (inject_Z (consumed t (user_rows kc queues now "ASKED" (w_user x))) / TA <= inject_Z (consumed t (user_rows kc queues now "ASKED" (w_user y))) / TA)%Q).
    { apply Qmult_le_compat_r; [done|]. apply Qlt_le_weak. by apply Qinv_lt_0_compat. }
    set (ux := (inject_Z _ / TU)%Q) in D1 |- *. set (uy := (inject_Z (consumed t (user_rows kc queues now "USED" (w_user y))) / TU)%Q) in D1 |- *.
    set (ax := (inject_Z _ / TA)%Q) in D2 |- *. set (ay := (inject_Z (consumed t (user_rows kc queues now "ASKED" (w_user y))) / TA)%Q) in D2 |- *.
    assert (E1 : (k_coef_user kc * ux < k_coef_user kc * uy)%Q) by (by apply Qmult_lt_l).
    assert (E2 : (k_coef_ask kc * ax <= k_coef_ask kc * ay)%Q).
    { rewrite (Qmult_comm _ ax), (Qmult_comm _ ay). by apply Qmult_le_compat_r. }
    set (pp := (k_coef_proj kc * _)%Q). lra. }
  destruct (decide (i < k)%nat) as [L|L]; [done|]. exfalso.
  destruct (decide (i = k)) as [->|Hne].
  - rewrite Fi in Fk. injection Fk as ->. unfold X, Y in HXY. lra.
  - assert (L' : (k < i)%nat) by lia.
    pose proof (SS_Forall_split _ _ _ _ _ _ Hsort Fk Fi L') as [B|[B _]]; fold X Y in B; lra.
Qed.

(** C88, meets its hypotheses: two users, one consumed more. *)
Definition ex_kc : kconf := mkKconf 2592000 [("default"%string, 21%Q)] [("default"%string, "22.0"%string)] 0 1 1.
Definition ex_j (id : Z) (u : string) : wj :=
  mkWj id u "default" "default" "Waiting" "None" 1000 None None None None.
Definition ex_acc : list acc :=
  [mkAcc "alice" "default" "default" "USED" 900000 986399 5000; mkAcc "bob" "default" "default" "USED" 900000 986399 100;
   mkAcc "alice" "default" "default" "ASKED" 900000 986399 6000; mkAcc "bob" "default" "default" "ASKED" 900000 986399 200].
Example C88_example :
  match round_jobs Fairshare ex_kc (Some 1000) ["default"%string] 1000000 ex_acc [ex_j 1 "alice"; ex_j 2 "bob"; ex_j 3 "carol"] with
  | Ok o => map w_id o | Err _ => [] end = [3; 2; 1].
Proof. vm_compute. reflexivity. Qed.

(** ** C89: the share of a user *)
(** A user's share of the consumption is counted over a window that differs from that of the total by
    the rows ending exactly now: the share can exceed one (here it is 86400). *)
Theorem C89_share_refuted : exists kc queues now t j q,
  (forall a, a ∈ t -> 0 <= a_cons a) /\ k_coef_proj kc = 0%Q /\ k_coef_user kc = 1%Q /\ k_coef_ask kc = 0%Q /\
  karma kc queues now t j = Ok q /\ (q == 86400)%Q.
Proof.
  exists (mkKconf 2592000 [] [] 0 1 0), ["default"%string], 1000000,
    [mkAcc "alice" "default" "default" "USED" 913601 1000000 86400], (ex_j 1 "alice").
  eexists. split; [|split; [reflexivity|split; [reflexivity|split; [reflexivity|split; [vm_compute; reflexivity|vm_compute; reflexivity]]]]].
  intros a Ha%elem_of_list_singleton. subst. cbn. lia.
Qed.
(** When no accounting window ends exactly at the time of the round, shares are between zero and one
    and the karma lies between minus the project target and the sum of the coefficients. *)
Theorem C89_share_partial : forall kc queues now t j q,
  (forall a, a ∈ t -> 0 <= a_cons a /\ a_wstop a <> now) ->
  (0 <= k_coef_proj kc)%Q -> (0 <= k_coef_user kc)%Q -> (0 <= k_coef_ask kc)%Q ->
  karma kc queues now t j = Ok q ->
  (- (k_coef_proj kc * (default 0 (assoc (w_project j) (k_proj_targets kc)) / 100)) <= q /\
   q <= k_coef_proj kc * (1 - default 0 (assoc (w_project j) (k_proj_targets kc)) / 100) + k_coef_user kc + k_coef_ask kc)%Q.
Proof.
  intros kc queues now t j q Hrows Hcp Hcu Hca H.
  assert (Hpos : forall a, a ∈ t -> 0 <= a_cons a) by (intros a Ha; apply Hrows, Ha).
  apply C88_karma_value in H as (_ & Z1 & Z2 & K).
  assert (S : forall ty f, ~ (total t (all_rows kc queues now ty) == 0)%Q ->
      (forall a, a ∈ t -> f a = true -> all_rows kc queues now ty a = true) ->
      (0 <= inject_Z (consumed t f) / total t (all_rows kc queues now ty) /\
       inject_Z (consumed t f) / total t (all_rows kc queues now ty) <= 1)%Q).
  { intros ty f Hz Hf. apply total_pos in Hz; [|done]. set (T := total _ _) in *.
    assert (N : (0 <= inject_Z (consumed t f))%Q) by (change 0%Q with (inject_Z 0); rewrite <- Zle_Qle; by apply consumed_nonneg).
    split.
    - apply Qle_shift_div_l; [done|]. lra.
    - apply Qle_shift_div_r; [done|]. rewrite Qmult_1_l. unfold T, total.
      destruct (existsb (all_rows kc queues now ty) t) eqn:E.
      + rewrite <- Zle_Qle. by apply consumed_mono.
      + assert (consumed t f = 0) as ->; [|unfold inject_Z; lra].
        rewrite (consumed_ext f (fun _ => false)).
        * unfold consumed. clear. induction t as [|a t IH]; [done|]. cbn [fold_right]. done.
        * intros a Ha. destruct (f a) eqn:Ef; [|done]. specialize (Hf a Ha Ef).
          assert (existsb (all_rows kc queues now ty) t = true) by (apply existsb_exists; exists a; split; [by apply elem_of_list_In|done]).
          congruence. }
  assert (Hu : forall ty u a, a ∈ t -> user_rows kc queues now ty u a = true -> all_rows kc queues now ty a = true).
  { intros ty u a Ha. destruct (Hrows a Ha) as [_ Hne]. unfold user_rows, all_rows.
    rewrite !andb_true_iff. intros ((((A & B) & C) & D) & _). repeat split; try done. lia. }
  destruct (S "USED"%string (project_rows kc queues now "USED" (w_project j)) Z1) as [P1 P2].
  { intros a _. unfold project_rows. rewrite andb_true_iff. tauto. }
  destruct (S "USED"%string (user_rows kc queues now "USED" (w_user j)) Z1 (Hu _ _)) as [U1 U2].
  destruct (S "ASKED"%string (user_rows kc queues now "ASKED" (w_user j)) Z2 (Hu _ _)) as [A1 A2].
  rewrite K. set (p := (inject_Z _ / _)%Q) in P1, P2 |- *.
  set (u := (inject_Z (consumed t (user_rows kc queues now "USED" (w_user j))) / _)%Q) in U1, U2 |- *.
  set (a := (inject_Z (consumed t (user_rows kc queues now "ASKED" (w_user j))) / _)%Q) in A1, A2 |- *.
  set (d := (default 0 _ / 100)%Q).
  split; nra.
Qed.

(** ** C90: targets of users *)
(** As soon as a waiting job belongs to a user with a target, no order is produced: the round fails. *)
Theorem C90_user_target_refuted : forall pol kc limit queues now t jobs j v,
  pol <> ById -> j ∈ jobs -> w_state j = "Waiting"%string -> w_queue j ∈ queues -> w_resv j = "None"%string ->
  assoc (w_user j) (k_user_targets kc) = Some v ->
  exists e, round_jobs pol kc limit queues now t jobs = Err e.
Proof.
  intros pol kc limit queues now t jobs j v Hpol Hj W1 W2 W3 Hv.
  destruct (round_jobs pol kc limit queues now t jobs) as [o|e] eqn:E; [|eauto]. exfalso.
  destruct (C46_round_order _ _ _ _ _ _ _ _ E) as (inp & full & Hi & _ & _ & Hr & _).
  assert (Hin : j ∈ inp) by (rewrite Hi; apply elem_of_list_filter; done).
  rewrite Forall_forall in Hr. specialize (Hr _ Hin).
  assert (K : karma kc queues now t j = Err EType) by (unfold karma; rewrite Hv; done).
  destruct pol; cbn [rank_of] in Hr; [done|rewrite K in Hr; discriminate|rewrite K in Hr; discriminate].
Qed.
(** Without a user target among the waiting jobs and with non-zero totals the fair share order exists. *)
Theorem C90_no_target_partial : forall kc limit queues now t jobs,
  (forall j, j ∈ jobs -> assoc (w_user j) (k_user_targets kc) = None) ->
  ~ (total t (all_rows kc queues now "USED") == 0)%Q -> ~ (total t (all_rows kc queues now "ASKED") == 0)%Q ->
  exists o, round_jobs Fairshare kc limit queues now t jobs = Ok o.
Proof.
  intros kc limit queues now t jobs Hj Z1 Z2.
  assert (Hk : forall j, j ∈ jobs -> exists q, karma kc queues now t j = Ok q).
  { intros j Hin. unfold karma. rewrite (Hj j Hin), !sum_where_total'.
    change (fun a => in_window queues (now - k_window kc) now a && bool_decide (a_type a = "USED"%string)) with (all_rows kc queues now "USED").
    change (fun a => in_window queues (now - k_window kc) now a && bool_decide (a_type a = "ASKED"%string)) with (all_rows kc queues now "ASKED").
    cbn [rbind]. unfold qdiv.
    destruct (Qeq_bool (total t (all_rows kc queues now "USED")) 0) eqn:E1; [apply Qeq_bool_iff in E1; done|].
    destruct (Qeq_bool (total t (all_rows kc queues now "ASKED")) 0) eqn:E2; [apply Qeq_bool_iff in E2; done|].
    cbn [rbind]. eauto. }
  assert (He : exists r, eval_all (karma kc queues now t) (get_waiting_jobs queues "None" jobs) = Ok r).
  { assert (Hsub : forall j, j ∈ get_waiting_jobs queues "None" jobs -> j ∈ jobs).
    { intros j Hin. apply elem_of_list_filter in Hin as [_ Hin]. done. }
    revert Hsub. generalize (get_waiting_jobs queues "None" jobs) as l. induction l as [|j l IH]; intros Hsub; [eexists; done|].
    destruct IH as [r Hr]; [intros z Hz; apply Hsub; by right|].
    destruct (Hk j) as [q Hq]; [apply Hsub; left|]. cbn [eval_all]. rewrite Hq, Hr. cbn. eauto. }
  destruct He as [r Hr]. unfold round_jobs. destruct (get_waiting_jobs queues "None" jobs) as [|j0 l0]; [eauto|].
  cbn [jobs_sorting]. unfold karma_sorting. rewrite Hr. cbn [rbind].
  destruct (max_job limit) as [n|]; [|eauto]. destruct (n <? _); eauto.
Qed.

(** ** C91: the age of jobs in the multifactor priority *)
Definition with_submission (j : wj) (s : Z) : wj :=
  mkWj (w_id j) (w_user j) (w_project j) (w_queue j) (w_state j) (w_resv j) s
       (w_work j) (w_size j) (w_qos j) (w_nice j).
Definition age_coef_default : Q := 165 # 100000000.
(** With the default coefficient, the age has no effect on the priority during the first seven days:
    whatever the weight of the age, a job submitted now and one submitted 606060 seconds ago rank the same. *)
Theorem C91_age_refuted : forall c nb now j k s,
  p_age_coef c = age_coef_default -> now - 606060 <= w_submission j -> now - 606060 <= s ->
  priority c nb now (with_submission j s) k = priority c nb now j k.
Proof.
  intros c nb now j k s Hc H1 H2. unfold priority. rewrite Hc.
  assert (A : forall x, now - 606060 <= x -> Qmax 1 (age_coef_default * inject_Z (now - x)) = 1%Q).
  { intros x Hx. unfold Qmax, GenericMinMax.gmax, age_coef_default.
    assert (Hle : ((165 # 100000000) * inject_Z (now - x) <= 1)%Q).
    { assert (Hi : (inject_Z (now - x) <= inject_Z 606060)%Q) by (rewrite <- Zle_Qle; lia).
      unfold inject_Z in Hi at 2. lra. }
    destruct (1 ?= (165 # 100000000) * inject_Z (now - x))%Q eqn:E; [done| |done].
    apply Qlt_alt in E. lra. }
  cbn [w_submission with_submission w_queue w_work w_size w_qos w_nice].
  rewrite (A s H2), (A (w_submission j) H1). done.
Qed.
(** The age never lowers the priority. *)
Theorem C91_age_monotone_partial : forall c nb now j k s p p',
  (0 <= p_age_w c)%Q -> (0 <= p_age_coef c)%Q -> s <= w_submission j ->
  priority c nb now j k = Ok p -> priority c nb now (with_submission j s) k = Ok p' -> (p <= p')%Q.
Proof.
  intros c nb now j k s p p' Hw Hc Hs H H'.
  unfold priority in H, H'. cbn [w_submission with_submission w_queue w_work w_size w_qos w_nice] in H'.
  set (a := (p_age_w c * _)%Q) in H. set (a' := (p_age_w c * _)%Q) in H'.
  assert (Ha : (a <= a')%Q).
  { unfold a, a'. rewrite (Qmult_comm (p_age_w c)), (Qmult_comm (p_age_w c)). apply Qmult_le_compat_r; [|done].
    apply Q.max_le_compat_l. rewrite (Qmult_comm (p_age_coef c)), (Qmult_comm (p_age_coef c)).
    apply Qmult_le_compat_r; [|done]. rewrite <- Zle_Qle. lia. }
  clearbody a a'.
  set (b := if Qlt_bool 0 (p_queue_w c) then _ else a) in H.
  set (b' := if Qlt_bool 0 (p_queue_w c) then _ else a') in H'.
  assert (Hb : (b <= b')%Q).
  { unfold b, b'. destruct (Qlt_bool 0 (p_queue_w c)); [|done]. destruct (assoc _ _); [lra|done]. }
  clearbody b b'.
  apply rbind_Ok in H as (p2 & E2 & H). apply rbind_Ok in H' as (p2' & E2' & H').
  assert (H2 : (p2 <= p2')%Q).
  { destruct (Qlt_bool 0 (p_work_w c)); [|congruence].
    apply rbind_Ok in E2 as (w & W & E2). apply rbind_Ok in E2' as (w' & W' & E2'). rewrite W in W'. injection W' as <-.
    apply rbind_Ok in E2 as (i & I & E2). apply rbind_Ok in E2' as (i' & I' & E2'). rewrite I in I'. injection I' as <-.
    injection E2 as <-. injection E2' as <-. destruct (p_work_big c); lra. }
  apply rbind_Ok in H as (p3 & E3 & H). apply rbind_Ok in H' as (p3' & E3' & H').
  assert (H3 : (p3 <= p3')%Q).
  { destruct (Qlt_bool 0 (p_size_w c)); [|congruence].
    apply rbind_Ok in E3 as (w & W & E3). apply rbind_Ok in E3' as (w' & W' & E3'). rewrite W in W'. injection W' as <-.
    apply rbind_Ok in E3 as (n & N & E3). apply rbind_Ok in E3' as (n' & N' & E3'). rewrite N in N'. injection N' as <-.
    apply rbind_Ok in E3 as (i & I & E3). apply rbind_Ok in E3' as (i' & I' & E3'). rewrite I in I'. injection I' as <-.
    injection E3 as <-. injection E3' as <-. destruct (p_size_big c); lra. }
  apply rbind_Ok in H as (kk & Ek & H). apply rbind_Ok in H' as (kk' & Ek' & H'). rewrite Ek in Ek'. injection Ek' as <-.
  apply rbind_Ok in H as (p5 & E5 & H). apply rbind_Ok in H' as (p5' & E5' & H').
  assert (H5 : (p5 <= p5')%Q).
  { destruct (Qlt_bool 0 (p_qos_w c)); [|injection E5 as <-; injection E5' as <-; lra].
    apply rbind_Ok in E5 as (w & W & E5). apply rbind_Ok in E5' as (w' & W' & E5'). rewrite W in W'. injection W' as <-.
    injection E5 as <-. injection E5' as <-. lra. }
  destruct (Qlt_bool 0 (p_nice_w c)); [|injection H as <-; injection H' as <-; lra].
  apply rbind_Ok in H as (w & W & H). apply rbind_Ok in H' as (w' & W' & H'). rewrite W in W'. injection W' as <-.
  injection H as <-. injection H' as <-. lra.
Qed.

(** ** C92: the other factors of the multifactor priority *)
Definition with_work (j : wj) (w : Q) : wj :=
  mkWj (w_id j) (w_user j) (w_project j) (w_queue j) (w_state j) (w_resv j) (w_submission j)
       (Some w) (w_size j) (w_qos j) (w_nice j).
(** The amount of work (resources times walltime) has no effect once it reaches one: small and big jobs
    rank the same, in both modes, whatever the weight. *)
Theorem C92_work_refuted : forall c nb now j k w w',
  (1 <= w)%Q -> (1 <= w')%Q -> priority c nb now (with_work j w) k = priority c nb now (with_work j w') k.
Proof.
  intros c nb now j k w w' H H'. unfold priority.
  cbn [w_submission with_work w_queue w_work w_size w_qos w_nice attr rbind].
  assert (A : forall x, (1 <= x)%Q -> Qmin 1 x = 1%Q).
  { intros x Hx. unfold Qmin, GenericMinMax.gmin. destruct (1 ?= x)%Q eqn:E; [done|done|].
    apply Qgt_alt in E. lra. }
  rewrite (A w H), (A w' H'). done.
Qed.
(** The jobs read from the database have no work, size, quality of service or niceness: a positive
    weight for one of them makes every round fail that has a waiting job. *)
Theorem C92_missing_refuted : forall c nb kc limit queues now t jobs j,
  j ∈ jobs -> w_state j = "Waiting"%string -> w_queue j ∈ queues -> w_resv j = "None"%string ->
  w_work j = None -> w_size j = None -> w_qos j = None -> w_nice j = None ->
  (0 < p_work_w c)%Q \/ (0 < p_size_w c)%Q \/ (0 < p_qos_w c)%Q \/ (0 < p_nice_w c)%Q ->
  exists e, round_jobs (Multifactor c nb) kc limit queues now t jobs = Err e.
Proof.
  intros c nb kc limit queues now t jobs j Hj W1 W2 W3 N1 N2 N3 N4 Hpos.
  destruct (round_jobs (Multifactor c nb) kc limit queues now t jobs) as [o|e] eqn:E; [|eauto]. exfalso.
  destruct (C46_round_order _ _ _ _ _ _ _ _ E) as (inp & full & Hi & _ & _ & Hr & _).
  assert (Hin : j ∈ inp) by (rewrite Hi; apply elem_of_list_filter; done).
  rewrite Forall_forall in Hr. specialize (Hr _ Hin). cbn [rank_of] in Hr.
  apply rbind_Ok in Hr as (q & _ & Hr). unfold priority in Hr. rewrite N1, N2, N3, N4 in Hr. cbn [attr rbind] in Hr.
  apply rbind_Ok in Hr as (p2 & E2 & Hr). apply rbind_Ok in Hr as (p3 & E3 & Hr).
  apply rbind_Ok in Hr as (kk & _ & Hr). apply rbind_Ok in Hr as (p5 & E5 & Hr).
  destruct Hpos as [H|[H|[H|H]]]; apply Qlt_bool_true in H; rewrite H in *; discriminate.
Qed.
(** The priority in closed form, as documented at the head of multifactor_priority.py, for a job that has
    all the attributes: a weighted sum of the factors. *)
Theorem C92_formula : forall c nb now j k p work size qos nice,
  (0 <= p_queue_w c)%Q -> (0 <= p_work_w c)%Q -> (0 <= p_size_w c)%Q -> (0 <= p_qos_w c)%Q -> (0 <= p_nice_w c)%Q ->
  w_work j = Some work -> w_size j = Some size -> w_qos j = Some qos -> w_nice j = Some nice ->
  priority c (Some nb) now j k = Ok p ->
  (p == p_age_w c * Qmax 1 (p_age_coef c * inject_Z (now - w_submission j))
      + p_queue_w c * default 0 (assoc (w_queue j) (p_queue_coefs c))
      + p_work_w c * (if p_work_big c then 1 - 1 / Qmin 1 work else 1 / Qmin 1 work)
      + p_size_w c * (if p_size_big c then size / nb else 1 - size / nb)
      + p_karma_w c * (1 / (1 + k)) + p_qos_w c * qos + p_nice_w c * Qmax 1 nice)%Q.
Proof.
  intros c nb now j k p work size qos nice Q1 Q2 Q3 Q4 Q5 A1 A2 A3 A4 H.
  unfold priority in H. rewrite A1, A2, A3, A4 in H. cbn [attr rbind] in H.
  set (age := (p_age_w c * _)%Q) in *.
  assert (Z : forall w, (0 <= w)%Q -> Qlt_bool 0 w = false -> (w == 0)%Q) by (intros w Hw Hf; apply Qlt_bool_false in Hf; lra).
  set (b := if Qlt_bool 0 (p_queue_w c) then _ else age) in H.
  assert (Hb : (b == age + p_queue_w c * default 0 (assoc (w_queue j) (p_queue_coefs c)))%Q).
  { unfold b. destruct (Qlt_bool 0 (p_queue_w c)) eqn:E; [destruct (assoc _ _); cbn [default id]; lra|].
    rewrite (Z _ Q1 E). lra. }
  clearbody b.
  apply rbind_Ok in H as (p2 & E2 & H). apply rbind_Ok in H as (p3 & E3 & H).
  apply rbind_Ok in H as (kk & Ek & H). apply rbind_Ok in H as (p5 & E5 & H).
  assert (H2 : (p2 == b + p_work_w c * (if p_work_big c then 1 - 1 / Qmin 1 work else 1 / Qmin 1 work))%Q).
  { destruct (Qlt_bool 0 (p_work_w c)) eqn:E.
    - apply rbind_Ok in E2 as (i & I & E2). apply qdiv_Ok in I as [-> _]. injection E2 as <-. destruct (p_work_big c); lra.
    - injection E2 as <-. rewrite (Z _ Q2 E). lra. }
  assert (H3 : (p3 == p2 + p_size_w c * (if p_size_big c then size / nb else 1 - size / nb))%Q).
  { destruct (Qlt_bool 0 (p_size_w c)) eqn:E.
    - apply rbind_Ok in E3 as (i & I & E3). apply qdiv_Ok in I as [-> _]. injection E3 as <-. destruct (p_size_big c); lra.
    - injection E3 as <-. rewrite (Z _ Q3 E). lra. }
  apply qdiv_Ok in Ek as [-> _].
  assert (H5 : (p5 == p3 + p_karma_w c * (1 / (1 + k)) + p_qos_w c * qos)%Q).
  { destruct (Qlt_bool 0 (p_qos_w c)) eqn:E; injection E5 as <-; [lra|]. rewrite (Z _ Q4 E). lra. }
  assert (H6 : (p == p5 + p_nice_w c * Qmax 1 nice)%Q).
  { destruct (Qlt_bool 0 (p_nice_w c)) eqn:E; injection H as <-; [lra|]. rewrite (Z _ Q5 E). lra. }
  rewrite H6, H5, H3, H2, Hb. lra.
Qed.
(** With only the age, queue and karma weights set, every waiting job gets a priority unless its karma is -1. *)
Theorem C92_plain_partial : forall c nb now j k,
  ~ (0 < p_work_w c)%Q -> ~ (0 < p_size_w c)%Q -> ~ (0 < p_qos_w c)%Q -> ~ (0 < p_nice_w c)%Q ->
  ~ (1 + k == 0)%Q -> exists p, priority c nb now j k = Ok p.
Proof.
  intros c nb now j k H1 H2 H3 H4 Hk. unfold priority.
  assert (A : forall w, ~ (0 < w)%Q -> Qlt_bool 0 w = false) by (intros w Hw; apply Qlt_bool_false; lra).
  rewrite (A _ H1), (A _ H2), (A _ H3), (A _ H4). cbn [rbind]. unfold qdiv.
  destruct (Qeq_bool (1 + k) 0) eqn:E; [apply Qeq_bool_iff in E; done|]. cbn [rbind]. eauto.
Qed.

(** The hypotheses above are met: a round by id cut after two jobs, one that fails because of the target of
    the user "default", a multifactor round with the age, queue and karma weights. *)
Definition ex_pc : pconf := mkPconf 1000 age_coef_default 10 [("default"%string, 1%Q)] 0 false 0 false 5 0 0.
Example C46_examples :
  let run pol l := match round_jobs pol ex_kc (Some 2) ["default"%string] 1000000 ex_acc l with
                   | Ok o => map w_id o | Err _ => [] end in
  run ById [ex_j 1 "alice"; ex_j 2 "bob"; ex_j 3 "carol"] = [1; 2] /\
  run Fairshare [ex_j 1 "alice"; ex_j 2 "bob"; ex_j 3 "carol"] = [3; 2] /\
  run (Multifactor ex_pc None) [ex_j 1 "alice"; ex_j 2 "bob"; ex_j 3 "carol"] = [3; 2] /\
  round_jobs Fairshare ex_kc (Some 2) ["default"%string] 1000000 ex_acc [ex_j 1 "alice"; ex_j 2 "default"] = Err EType /\
  round_jobs (Multifactor (mkPconf 0 0 0 [] 1 false 0 false 0 0 0) None) ex_kc None ["default"%string] 1000000 ex_acc [ex_j 1 "alice"] = Err EAttr.
Proof. vm_compute. split; [reflexivity|]. split; [reflexivity|]. split; [reflexivity|]. split; reflexivity. Qed.
Print Assumptions C46_round_order.
Print Assumptions C46_once.
Print Assumptions C93_behind_limit.
Print Assumptions C93_within_limit.
Print Assumptions C47_groups.
Print Assumptions C47_active.
Print Assumptions C88_karma_value.
Print Assumptions C88_less_consumed_first.
Print Assumptions C89_share_refuted.
Print Assumptions C89_share_partial.
Print Assumptions C90_user_target_refuted.
Print Assumptions C90_no_target_partial.
Print Assumptions C91_age_refuted.
Print Assumptions C91_age_monotone_partial.
Print Assumptions C92_work_refuted.
Print Assumptions C92_missing_refuted.
Print Assumptions C92_formula.
Print Assumptions C92_plain_partial.
