(** Sequences of operations on slot sets; splits seen from outside. *)
From Verif Require Import Base SlotModel SlotSpec SlotProofs SlotJobs SlotLookup.

Lemma rassert_Ok {A} b (k : res A) a : rassert b k = Ok a -> b = true /\ k = Ok a.
Proof. destruct b; cbn; [auto|discriminate]. Qed.

Lemma dget_Ok {A} k (m : gmap Z A) a : dget k m = Ok a -> m !! k = Some a.
Proof. unfold dget. destruct (m !! k); congruence. Qed.

(** What a split of a slot at [date] into slots [i] and [j] must do. *)
Definition split_facts (ss ss' : slotset) (i j date : Z) : Prop :=
  WF ss' /\ begin_ ss' = begin_ ss /\ end_ ss' = end_ ss /\
  (forall t c, content_at ss' t c <-> content_at ss t c) /\
  (exists a b, slots ss' !! i = Some a /\ slots ss' !! j = Some b /\
     ((i = j /\ sb a = se a /\ sb a = date) \/
      (sb b = se a + 1 /\ next a = j /\ prev b = i /\ (sb b = date \/ (sb a = date /\ se a = date))))).

Lemma cut_cases s date : sb s <= date <= se s -> sb s < se s -> 
  sb s < cut s date <= se s /\ (cut s date = date \/ (sb s = date /\ cut s date - 1 = date)).
Proof. intros. unfold cut. destruct (sb s =? date) eqn:E; lia. Qed.

Lemma cat_cut (l1 l1' : list slot) s l2 l2' a b date t c :
  (forall t c, cat l1' t c <-> cat l1 t c) -> (forall t c, cat l2' t c <-> cat l2 t c) ->
  sb s < date <= se s -> sb a = sb s -> se a = date - 1 -> sb b = date -> se b = se s ->
  cont a = cont s -> cont b = cont s ->
  cat (l1' ++ a :: b :: l2') t c <-> cat (l1 ++ s :: l2) t c.
Proof.
  intros H1 H2 Hd Ha1 Ha2 Hb1 Hb2 Ha3 Hb3. rewrite !cat_app, !cat_cons, H1, H2.
  rewrite Ha1, Ha2, Hb1, Hb2, Ha3, Hb3. split.
  - intros [?|[[? ?]|[[? ?]|?]]]; auto; right; left; (split; [lia|done]).
  - intros [?|[[? ?]|?]]; auto. destruct (Z.le_gt_cases date t); right; [right; left|left]; (split; [lia|done]).
Qed.

Lemma sa_before ss k date ss' i j : WF ss -> split_at_before ss k date = Ok (ss', (i, j)) ->
  split_facts ss ss' i j date.
Proof.
  intros [l H] E. assert (E0 := E). unfold split_at_before in E.
  apply rassert_Ok in E as [Hk E]. apply rbind_Ok in E as (s & Es & E).
  apply dget_Ok in Es. apply (repr_elem _ _ _ _ H) in Es as [Hs <-].
  apply rassert_Ok in E as [Hd E]. pose proof (repr_bounds _ _ _ H Hs) as Hb.
  destruct (sb s =? se s) eqn:Eb.
  - injection E as <- <- <-. split; [eexists; eauto|]. split; [done|]. split; [done|]. split; [done|].
    exists s, s. pose proof (repr_lookup _ _ _ H Hs). split; [done|]. split; [done|]. left. lia.
  - clear E. apply elem_of_list_split in Hs as (l1 & l2 & ->).
    destruct (split_at_before_repr ss l1 s l2 date H) as (m' & E1 & HR); [lia|lia|].
    cbn zeta in *. rewrite E1 in E0. injection E0 as <- <- <-.
    destruct (cut_cases s date) as [Hc1 Hc2]; [lia|lia|].
    split; [eexists; exact HR|]. split; [done|]. split; [done|]. split.
    { intros t c. rewrite (content_at_cat _ _ _ _ HR), (content_at_cat _ _ _ _ H).
      eapply cat_cut; try done; [intros; apply cat_setlast|lia..]. }
    set (a := mkSlot (last_id ss + 1) _ _ _ _ _) in *. set (b := mkSlot (sid s) _ _ _ _ _) in *.
    exists a, b. 
    split; [apply (repr_lookup _ _ a HR); mem|]. split; [apply (repr_lookup _ _ b HR); mem|].
    right. cbn. split; [lia|]. split; [done|]. split; [done|]. lia.
Qed.

Lemma sa_after ss k date ss' i j : WF ss -> split_at_after ss k date = Ok (ss', (i, j)) ->
  split_facts ss ss' i j date.
Proof.
  intros [l H] E. assert (E0 := E). unfold split_at_after in E.
  apply rassert_Ok in E as [Hk E]. apply rbind_Ok in E as (s & Es & E).
  apply dget_Ok in Es. apply (repr_elem _ _ _ _ H) in Es as [Hs <-].
  apply rassert_Ok in E as [Hd E]. pose proof (repr_bounds _ _ _ H Hs) as Hb.
  destruct (sb s =? se s) eqn:Eb.
  - injection E as <- <- <-. split; [eexists; eauto|]. split; [done|]. split; [done|]. split; [done|].
    exists s, s. pose proof (repr_lookup _ _ _ H Hs). split; [done|]. split; [done|]. left. lia.
  - clear E. apply elem_of_list_split in Hs as (l1 & l2 & ->).
    destruct (split_at_after_repr ss l1 s l2 date H) as (m' & E1 & HR); [lia|lia|].
    cbn zeta in *. rewrite E1 in E0. injection E0 as <- <- <-.
    destruct (cut_cases s date) as [Hc1 Hc2]; [lia|lia|].
    split; [eexists; exact HR|]. split; [done|]. split; [done|]. split.
    { intros t c. rewrite (content_at_cat _ _ _ _ HR), (content_at_cat _ _ _ _ H).
      eapply cat_cut; try done; [intros; apply cat_sethead|lia..]. }
    set (a := mkSlot (sid s) _ _ _ _ _) in *. set (b := mkSlot (last_id ss + 1) _ _ _ _ _) in *.
    exists a, b. 
    split; [apply (repr_lookup _ _ a HR); mem|]. split; [apply (repr_lookup _ _ b HR); mem|].
    right. cbn. split; [lia|]. split; [done|]. split; [done|]. lia.
Qed.

Lemma sa_before_accepts ss k s date : WF ss -> slots ss !! k = Some s -> sb s <= date <= se s ->
  exists ss' i j, split_at_before ss k date = Ok (ss', (i, j)).
Proof.
  intros [l H] Hk Hd. apply (repr_elem _ _ _ _ H) in Hk as [Hs <-].
  pose proof (repr_bounds _ _ _ H Hs) as Hb. pose proof (repr_nz _ _ _ H Hs) as Hnz.
  destruct (Z.eq_dec (sb s) (se s)) as [E|E].
  - exists ss, (sid s), (sid s). unfold split_at_before.
    replace (sid s =? 0) with false by lia. cbn [negb rassert]. rewrite (repr_dget _ _ _ H Hs). cbn [rbind].
    replace ((sb s <=? date) && (date <=? se s)) with true by lia. cbn [rassert].
    replace (sb s =? se s) with true by lia. done.
  - apply elem_of_list_split in Hs as (l1 & l2 & ->).
    destruct (split_at_before_repr ss l1 s l2 date H) as (m' & E1 & HR); [lia|lia|]. eauto.
Qed.

Lemma sa_after_accepts ss k s date : WF ss -> slots ss !! k = Some s -> sb s <= date <= se s ->
  exists ss' i j, split_at_after ss k date = Ok (ss', (i, j)).
Proof.
  intros [l H] Hk Hd. apply (repr_elem _ _ _ _ H) in Hk as [Hs <-].
  pose proof (repr_bounds _ _ _ H Hs) as Hb. pose proof (repr_nz _ _ _ H Hs) as Hnz.
  destruct (Z.eq_dec (sb s) (se s)) as [E|E].
  - exists ss, (sid s), (sid s). unfold split_at_after.
    replace (sid s =? 0) with false by lia. cbn [negb rassert]. rewrite (repr_dget _ _ _ H Hs). cbn [rbind].
    replace ((sb s <=? date) && (date <=? se s)) with true by lia. cbn [rassert].
    replace (sb s =? se s) with true by lia. done.
  - apply elem_of_list_split in Hs as (l1 & l2 & ->).
    destruct (split_at_after_repr ss l1 s l2 date H) as (m' & E1 & HR); [lia|lia|]. eauto.
Qed.

(** ** Any accepted update keeps the chain *)
Lemma linked_set_cont p l1 s l2 n c : linked p (l1 ++ s :: l2) n -> linked p (l1 ++ set_cont c s :: l2) n.
Proof. rewrite !linked_app. cbn [linked headid]. tauto. Qed.
Lemma contig_set_cont t l1 s l2 e c : contig t (l1 ++ s :: l2) e -> contig t (l1 ++ set_cont c s :: l2) e.
Proof. rewrite !contig_app. done. Qed.

Lemma repr_set_cont ss l1 s l2 c : Repr ss (l1 ++ s :: l2) ->
  Repr (mkSS (<[ sid s := set_cont c s ]> (slots ss)) (begin_ ss) (end_ ss) (last_id ss)) (l1 ++ set_cont c s :: l2).
Proof.
  intros H. split; cbn [slots begin_ end_ last_id].
  - destruct l1; done.
  - apply linked_set_cont. exact (repr_linked _ _ H).
  - apply contig_set_cont. exact (repr_contig _ _ H).
  - pose proof (repr_nodup _ _ H) as Hn. rewrite fmap_app, fmap_cons in *. done.
  - pose proof (repr_ids _ _ H) as Hn. apply Forall_app in Hn as [Hn1 Hn2]. apply Forall_cons in Hn2 as [Hn2 Hn3].
    apply Forall_app. split; [done|]. constructor; done.
  - apply holds_upd; [exact (repr_map _ _ H)|exact (repr_nodup _ _ H)|done].
Qed.

Definition same_frame (ss ss' : slotset) : Prop :=
  WF ss' /\ begin_ ss' = begin_ ss /\ end_ ss' = end_ ss.

Lemma upd_slots_wf env sub j ids : forall m m' b e i,
  WF (mkSS m b e i) -> upd_slots env sub j ids m = Ok m' -> WF (mkSS m' b e i).
Proof.
  induction ids as [|s ids IH]; intros m m' b e i HW E; cbn [upd_slots] in E.
  - injection E as <-. done.
  - apply rbind_Ok in E as (s' & Es & E). apply rbind_Ok in E as (c & Ec & E).
    apply dget_Ok in Es. eapply IH; [|exact E].
    destruct HW as [l H]. apply (repr_elem _ _ _ _ H) in Es as [Hs Ei]. rewrite <- Ei.
    apply elem_of_list_split in Hs as (l1 & l2 & ->). eexists.
    apply (repr_set_cont _ _ _ _ c H).
Qed.

Lemma split_slots_wf env ss l r j sub ss' : WF ss -> split_slots env ss l r j sub = Ok ss' -> same_frame ss ss'.
Proof.
  intros HW E. unfold split_slots in E. apply rbind_Ok in E as (sl & Esl & E).
  apply rbind_Ok in E as ([ss1 l1] & E1 & E).
  assert (HW1 : same_frame ss ss1).
  { destruct (sb sl <? start_time j); [|injection E1 as <- <-; split; [done|auto]].
    apply rbind_Ok in E1 as ([ss1' [a b]] & E1 & E1'). injection E1' as -> ->.
    apply sa_before in E1 as (? & ? & ? & _); [|done]. split; auto. }
  apply rbind_Ok in E as (sr & Esr & E). apply rbind_Ok in E as ([ss2 r1] & E2 & E).
  assert (HW2 : same_frame ss ss2).
  { destruct HW1 as (HW1 & Hb1 & He1).
    destruct (_ <? se sr); [|injection E2 as <- <-; split; [done|auto]].
    apply rbind_Ok in E2 as ([ss2' [a b]] & E2 & E2'). injection E2' as -> ->.
    apply sa_after in E2 as (? & ? & ? & _); [|done]. split; [done|]. split; congruence. }
  apply rbind_Ok in E as (ids & Eids & E). apply rbind_Ok in E as (m & Em & E). injection E as <-.
  destruct HW2 as (HW2 & Hb2 & He2). split; [|done].
  eapply upd_slots_wf; [|exact Em]. destruct ss2; exact HW2.
Qed.

Lemma split_slots_jobs_loop_wf env sub jobs : forall ss i ss',
  WF ss -> split_slots_jobs_loop env jobs sub ss i = Ok ss' -> same_frame ss ss'.
Proof.
  induction jobs as [|j jobs IH]; intros ss i ss' HW E; cbn [split_slots_jobs_loop] in E.
  - injection E as <-. split; auto.
  - destruct (_ && _); [|eauto]. apply rbind_Ok in E as ([l r] & EG & E).
    apply rbind_Ok in E as (ss1 & E1 & E). apply split_slots_wf in E1 as (HW1 & Hb & He); [|done].
    apply IH in E as (? & ? & ?); [|done]. split; [done|]. split; congruence.
Qed.

(** Operations of the API *)
Inductive slot_op :=
| OpSplitBefore (slot_id date : Z)
| OpSplitAfter (slot_id date : Z)
| OpFindAndSplit (date : Z)
| OpSplitSlots (left_ right_ : Z) (j : job) (sub : bool)
| OpSplitSlotsJobs (jobs : list job) (sub : bool).

Definition slot_step (env : qenv) (ss : slotset) (o : slot_op) : res slotset :=
  match o with
  | OpSplitBefore i d => '(ss', _) <-- split_at_before ss i d ;; Ok ss'
  | OpSplitAfter i d => '(ss', _) <-- split_at_after ss i d ;; Ok ss'
  | OpFindAndSplit d => '(ss', _) <-- find_and_split_at ss d ;; Ok ss'
  | OpSplitSlots l r j sub => split_slots env ss l r j sub
  | OpSplitSlotsJobs jobs sub => split_slots_jobs env ss jobs sub
  end.

(** Runs a list of operations; a refused operation (exception) leaves the caller with
    the error. *)
Fixpoint run_slot_ops (env : qenv) (ss : slotset) (ops : list slot_op) : res slotset :=
  match ops with
  | [] => Ok ss
  | o :: ops' => ss' <-- slot_step env ss o ;; run_slot_ops env ss' ops'
  end.

Lemma slot_step_wf env ss o ss' : WF ss -> slot_step env ss o = Ok ss' -> same_frame ss ss'.
Proof.
  intros HW E. destruct o; cbn [slot_step] in E.
  - apply rbind_Ok in E as ([ss1 [a b]] & E & E'). injection E' as ->.
    apply sa_before in E as (? & ? & ? & _); [|done]. split; auto.
  - apply rbind_Ok in E as ([ss1 [a b]] & E & E'). injection E' as ->.
    apply sa_after in E as (? & ? & ? & _); [|done]. split; auto.
  - apply rbind_Ok in E as ([ss1 [a b]] & E & E'). injection E' as ->.
    unfold find_and_split_at in E. apply rbind_Ok in E as (i & Ei & E).
    apply sa_after in E as (? & ? & ? & _); [|done]. split; auto.
  - eapply split_slots_wf; eauto.
  - unfold split_slots_jobs in E. apply rbind_Ok in E as (s & _ & E).
    eapply split_slots_jobs_loop_wf; eauto.
Qed.

Lemma run_slot_ops_wf env ops : forall ss ss', WF ss -> run_slot_ops env ss ops = Ok ss' -> same_frame ss ss'.
Proof.
  induction ops as [|o ops IH]; intros ss ss' HW E; cbn [run_slot_ops] in E.
  - injection E as <-. split; auto.
  - apply rbind_Ok in E as (ss1 & E1 & E). apply slot_step_wf in E1 as (HW1 & Hb & He); [|done].
    apply IH in E as (? & ? & ?); [|done]. split; [done|]. split; congruence.
Qed.

Lemma ss_of_slot_wf b e c : b <= e -> WF (ss_of_slot (mkSlot 1 0 0 b e c)).
Proof.
  intros H. exists [mkSlot 1 0 0 b e c]. split; cbn.
  - done.
  - done.
  - done.
  - apply NoDup_singleton.
  - apply Forall_singleton. cbn. lia.
  - intros i s. cbn. rewrite elem_of_list_singleton. rewrite lookup_singleton_Some.
    split; [intros [<- <-]; done|intros [-> <-]; done].
Qed.

Lemma ss_of_pair_wf q x b : b <= MAX_TIME -> WF (ss_of_pair q x b).
Proof. intros H. exact (ss_of_slot_wf b MAX_TIME (fresh_content q x) H). Qed.

(** Inserting jobs one call at a time, in any order. *)
Fixpoint insert_each (env : qenv) (ss : slotset) (jobs : list job) : res slotset :=
  match jobs with
  | [] => Ok ss
  | j :: js => ss' <-- split_slots_jobs env ss [j] true ;; insert_each env ss' js
  end.

Lemma insert_each_free env jobs : forall ss,
  WF ss -> Forall job_ok jobs -> Forall (fun j => 0 <= walltime j) jobs ->
  exists ss', insert_each env ss jobs = Ok ss' /\ WF ss' /\
    (forall t r, free_at ss' t r ->
       free_at ss t r /\
       forall j, j ∈ jobs -> start_time j <= t < start_time j + walltime j -> r ∉ res_set j) /\
    (forall t r, free_at ss t r ->
       (forall j, j ∈ jobs -> start_time j <= t <= start_time j + walltime j -> r ∉ res_set j) ->
       free_at ss' t r).
Proof.
  induction jobs as [|j jobs IH]; intros ss HW Hok Hw.
  - exists ss. split; [done|]. split; [done|]. split; [|auto].
    intros t r Hf. split; [done|]. intros j Hj. apply elem_of_nil in Hj. done.
  - apply Forall_cons in Hok as [Hok1 Hok]. apply Forall_cons in Hw as [Hw1 Hw].
    destruct (insert_jobs_free env [j] ss HW) as (ss1 & E1 & HW1 & _ & _ & H1 & H2).
    { by apply Forall_singleton. } { by apply Forall_singleton. } { repeat constructor. }
    destruct (IH ss1 HW1 Hok Hw) as (ss' & E2 & HW2 & H3 & H4).
    exists ss'. cbn [insert_each]. rewrite E1. cbn [rbind]. split; [done|]. split; [done|]. split.
    + intros t r Hf. apply H3 in Hf as [Hf Hf2]. apply H1 in Hf as [Hf Hf1]. split; [done|].
      intros k Hk. apply elem_of_cons in Hk as [->|Hk]; [|auto]. apply Hf1. by apply elem_of_list_singleton.
    + intros t r Hf Hall. apply H4.
      * apply H2; [done|]. intros k Hk. apply Hall. apply elem_of_list_singleton in Hk as ->. apply elem_of_cons; auto.
      * intros k Hk. apply Hall. apply elem_of_cons; auto.
Qed.
