(** C136-C143: the end of a round of the meta-scheduler. *)
From Coq Require Import Ascii.
From Verif Require Import Base JobModel JobProofs RoundModel RoundSpec RoundProofs.

(** ** More on sequences of steps *)
Lemma each_acc {A B} (S : world -> list B) (T : A -> list B) (f : A -> world -> step) l w :
  (forall a w, snd (f a w) = None -> S (fst (f a w)) = S w ++ T a) ->
  snd (each f l w) = None -> S (fst (each f l w)) = S w ++ (l ≫= T).
Proof.
  intros Hf. revert w. induction l as [|a l IH]; intros w; cbn [each]; [intros _; cbn; by rewrite app_nil_r|].
  intros [Ha Hl]%andthen_none. rewrite andthen_fst by done. rewrite (IH _ Hl), (Hf a w Ha), <- app_assoc. done.
Qed.
Lemma each_mem {A B} (S : world -> list B) (Q : A -> B -> Prop) (J : world -> Prop) (f : A -> world -> step) l w x :
  (forall a w, J w -> J (fst (f a w))) ->
  (forall a w, a ∈ l -> J w -> snd (f a w) = None -> (x ∈ S (fst (f a w)) <-> x ∈ S w \/ Q a x)) ->
  J w -> snd (each f l w) = None -> x ∈ S (fst (each f l w)) <-> x ∈ S w \/ exists a, a ∈ l /\ Q a x.
Proof.
  intros HJ. revert w. induction l as [|a l IH]; intros w Hf Hw; cbn [each].
  - intros _. cbn. split; [by left|]. intros [H|(a & Ha & _)]; [done|by apply elem_of_nil in Ha].
  - intros [Ha Hl]%andthen_none. rewrite andthen_fst by done. rewrite (IH _); [| |by apply HJ|done].
    + rewrite (Hf a w); [|apply elem_of_cons; by left|done|done]. split.
      * intros [[H|H]|(b & Hb & H)]; [by left|right; exists a; split; [apply elem_of_cons; by left|done]|right; exists b; split; [apply elem_of_cons; by right|done]].
      * intros [H|(b & [->|Hb]%elem_of_cons & H)]; [by left; left|by left; right|right; eauto].
    + intros b w' Hb. apply Hf. apply elem_of_cons. by right.
Qed.
(** The five phases. *)
Section phases.
Variables (sql : Z -> string) (e : env) (preds asg : list (Z * Z)) (w : world).
Let by_state st := in_state st (base w).
Let w1 := fst (each (resume e asg) (by_state "Resuming"%string) w).
Let w2 := fst (each (tell_prediction sql e) (waiting_interactive preds (base w)) w1).
Let w3 := fst (each (to_error e) (by_state "toError"%string) w2).
Let w4 := fst (each (to_ack e) (by_state "toAckReservation"%string) w3).
Let w5 := fst (each (to_launch e) (j_id <$> by_state "toLaunch"%string) w4).
Lemma same1 : same_jobs w w1.
Proof. apply (each_inv (same_jobs w)); [|done]. intros j v. apply resume_same. Qed.
Lemma same2 : same_jobs w w2.
Proof. apply (each_inv (same_jobs w)); [|apply same1]. intros j v. apply predict_same. Qed.
Lemma notifications_none : uniq (base w) -> snd (notifications sql e preds asg w) = None <->
  snd (energy_step e w) = None /\ snd (each (resume e asg) (by_state "Resuming"%string) w) = None /\
  snd (each (tell_prediction sql e) (waiting_interactive preds (base w)) w1) = None /\
  snd (each (to_error e) (by_state "toError"%string) w2) = None /\ snd (each (to_ack e) (by_state "toAckReservation"%string) w3) = None.
Proof.
  intros _. unfold notifications. rewrite andthen_none.
  assert (Ew : fst (energy_step e w) = w) by (unfold energy_step; destruct (energy e) as [m|]; [destruct (bool_decide _)|]; done).
  rewrite Ew, !andthen_none. fold (by_state "Resuming"%string) (by_state "toError"%string) (by_state "toAckReservation"%string) (by_state "toLaunch"%string). fold w1.
  rewrite (waiting_same preds (base w) (base w1)) by apply same1. fold w2 w3 w4.
  assert (H5 : snd (each (to_launch e) (j_id <$> by_state "toLaunch"%string) w4) = None).
  { by rewrite (each_ok (fun _ => True) (to_launch e) (order_w e)); [|intros; apply to_launch_ok|apply Forall_true]. }
  rewrite H5. tauto.
Qed.
Lemma notifications_fst : snd (notifications sql e preds asg w) = None -> fst (notifications sql e preds asg w) = w5.
Proof.
  unfold notifications. intros H. apply andthen_none in H as [He H].
  assert (Ew : fst (energy_step e w) = w) by (unfold energy_step; destruct (energy e) as [m|]; [destruct (bool_decide _)|]; done).
  rewrite (andthen_fst _ _ He). rewrite Ew in *. apply andthen_none in H as [H1 H].
  rewrite (andthen_fst _ _ H1). fold (by_state "Resuming"%string) in *. fold w1 in H |- *.
  rewrite (waiting_same preds (base w) (base w1)) in * by apply same1.
  apply andthen_none in H as [H2 H]. rewrite (andthen_fst _ _ H2). fold w2 in H |- *.
  apply andthen_none in H as [H3 H]. rewrite (andthen_fst _ _ H3). fold (by_state "toError"%string) w3 in H |- *.
  apply andthen_none in H as [H4 H]. rewrite (andthen_fst _ _ H4). done.
Qed.
Definition resume_ok (d : db) (j : job) : Prop := contended asg d j \/ ("noop"%string ∉ j_types j /\ script e <> None).
Lemma resume_none d j v : uniq d -> j ∈ jobs d -> jobs (base v) = jobs d -> snd (resume e asg j v) = None <-> resume_ok d j.
Proof.
  intros HU Hj Hd. unfold resume, resume_ok. rewrite (others_same asg d (base v)) by done.
  pose proof (others_nil asg d j HU Hj) as HO.
  destruct (others asg d (j_id j)) as [|x l].
  - assert (HN : ~ contended asg d j) by (intros Hc; by apply HO in Hc).
    case_bool_decide as HT; [cbn; split; [discriminate|intros [?|[? ?]]; done]|].
    destruct (script e) as [run|]; cbn [snd]; [|split; [discriminate|intros [?|[_ ?]]; done]].
    split; [|done]. intros _. right. done.
  - cbn [snd]. split; [|done]. intros _. left. by apply HO.
Qed.
Lemma phases_none : uniq (base w) -> snd (notifications sql e preds asg w) = None <-> smooth e preds asg (base w).
Proof.
  intros HU. rewrite notifications_none by done.
  assert (E0 : snd (energy_step e w) = None <-> forall m, energy e = Some m -> m = ""%string \/ m = "metascheduler_decision_making"%string \/ m = "batsim_scheduler_proxy_decision_making"%string).
  { unfold energy_step. destruct (energy e) as [m|]; [|split; [intros _ m [=]|done]].
    case_bool_decide as Hm.
    - split; [|done]. intros _ m' [= <-]. rewrite !elem_of_cons, elem_of_nil in Hm. tauto.
    - split; [discriminate|]. intros H. exfalso. apply Hm. rewrite !elem_of_cons, elem_of_nil. specialize (H m eq_refl). tauto. }
  assert (E1 : snd (each (resume e asg) (by_state "Resuming"%string) w) = None <-> Forall (resume_ok (base w)) (by_state "Resuming"%string)).
  { assert (HF : forall l v, (forall j, j ∈ l -> j ∈ jobs (base w)) -> same_jobs w v -> snd (each (resume e asg) l v) = None <-> Forall (resume_ok (base w)) l).
    { induction l as [|j l IH]; intros v Hl Hv; cbn [each]; [by split; [constructor|]|].
      rewrite andthen_none, Forall_cons, (resume_none (base w)); [|done|apply Hl, elem_of_cons; by left|apply Hv].
      rewrite IH; [done| |by apply resume_same]. intros i Hi. apply Hl, elem_of_cons. by right. }
    apply HF; [|done]. intros j Hj. by apply in_state_in in Hj as [_ Hj]. }
  rewrite E0, E1.
  rewrite (each_none (fun _ => True) (fun x : job * Z => has_client e (j_id x.1))); [|done|intros; apply predict_none|done].
  rewrite (each_none (fun _ => True) (error_ok e)); [|done|intros; apply to_error_none|done].
  rewrite (each_none (fun _ => True) (ack_ok e)); [|done|intros; apply to_ack_none|done].
  rewrite !Forall_forall. split.
  - intros (H0 & H1 & H2 & H3 & H4). split; [done| | | |].
    + intros j Hj Hs. apply H1. by apply in_state_in.
    + intros j t Hp. apply waiting_in in Hp. apply (H2 (j, t) Hp).
    + intros j Hj Hs. apply H3. by apply in_state_in.
    + intros j Hj Hs. apply H4. by apply in_state_in.
  - intros [H0 H1 H2 H3 H4]. split; [done|]. split; [|split; [|split]].
    + intros j Hj. apply in_state_in in Hj as [? ?]. by apply H1.
    + intros [j t] Hp. apply waiting_in in Hp. by apply (H2 j t).
    + intros j Hj. apply in_state_in in Hj as [? ?]. by apply H3.
    + intros j Hj. apply in_state_in in Hj as [? ?]. by apply H4.
Qed.
End phases.

(** ** What each phase adds *)
Definition told_row := (Z * string * string * string)%type.
Lemma lost_told e id ty w : told (lost e id ty w) = told w. Proof. done. Qed.
Lemma resume_frame e asg j w : told (fst (resume e asg j w)) = told w /\ ordered (fst (resume e asg j w)) = ordered w /\
  treated (fst (resume e asg j w)) = treated w /\ code (fst (resume e asg j w)) = code w.
Proof.
  unfold resume. destruct (others _ _ _); [|done]. destruct (bool_decide _); [done|]. destruct (script e) as [run|]; [|done].
  destruct (run (j_id j)); cbn [fst]; destruct (bool_decide _); done.
Qed.
Lemma predict_frame sql e x w : ordered (fst (tell_prediction sql e x w)) = ordered w /\
  treated (fst (tell_prediction sql e x w)) = treated w /\ code (fst (tell_prediction sql e x w)) = code w.
Proof.
  destruct x as [j t]. unfold tell_prediction. destruct (addr_port _) as [[a p]|]; [|done]. unfold notify_tcp.
  destruct (is_port p); [|done]. destruct (reach _ _ _); done.
Qed.
Lemma predict_told sql e x w : snd (tell_prediction sql e x w) = None ->
  told (fst (tell_prediction sql e x w)) = told w ++ delivered e (j_id x.1) (prediction_text sql e x.1 x.2).
Proof.
  intros H%predict_none. rewrite predict_ok by done. destruct x as [j t]. cbn [fst snd predict_w].
  destruct (reach _ _ _); done.
Qed.
Definition error_texts (e : env) (j : job) : list told_row :=
  if notifies_error j then delivered e (j_id j) (message e (j_id j) +:+ newline) ++ delivered e (j_id j) ("BAD JOB" +:+ newline) else [].
Lemma error_frame e j w : snd (to_error e j w) = None ->
  told (fst (to_error e j w)) = told w ++ error_texts e j /\ ordered (fst (to_error e j w)) = ordered w /\
  treated (fst (to_error e j w)) = treated w /\ code (fst (to_error e j w)) = code w /\
  base (fst (to_error e j w)) = set_job_state (now e) (j_id j) "Error" (base w) /\ asked (fst (to_error e j w)) = asked w.
Proof.
  intros H%to_error_none. rewrite to_error_ok by done. cbn [fst]. unfold error_w, error_texts.
  destruct (notifies_error j); cbn [told ordered treated code base asked with_base say].
  - rewrite app_assoc. done.
  - rewrite app_nil_r. done.
Qed.
Lemma ack_frame e j w : snd (to_ack e j w) = None ->
  told (fst (to_ack e j w)) = told w ++ delivered e (j_id j) ("GOOD RESERVATION" +:+ newline) /\
  ordered (fst (to_ack e j w)) = ordered w /\ treated (fst (to_ack e j w)) = treated w /\
  base (fst (to_ack e j w)) = set_job_state (now e) (j_id j) "Waiting" (base w) /\ asked (fst (to_ack e j w)) = asked w.
Proof.
  intros H%to_ack_none. rewrite to_ack_ok by done. cbn [fst]. unfold ack_w. cbn [code with_base say].
  destruct (_ && _); done.
Qed.
Lemma each_keep {A B} (S : world -> B) (f : A -> world -> step) l w :
  (forall a w, snd (f a w) = None -> S (fst (f a w)) = S w) -> snd (each f l w) = None -> S (fst (each f l w)) = S w.
Proof.
  intros Hf. revert w. induction l as [|a l IH]; intros w; cbn [each]; [done|].
  intros [Ha Hl]%andthen_none. rewrite andthen_fst by done. rewrite (IH _ Hl). by apply Hf.
Qed.
Lemma launch_frame e id w : told (fst (to_launch e id w)) = told w /\ code (fst (to_launch e id w)) = code w /\
  base (fst (to_launch e id w)) = base w /\ asked (fst (to_launch e id w)) = asked w.
Proof. unfold to_launch. cbn [fst]. destruct (bool_decide _); [done|]. by destruct (commander e id). Qed.
Lemma each_launch_none e l w : snd (each (to_launch e) l w) = None.
Proof. by rewrite (each_ok (fun _ => True) (to_launch e) (order_w e)); [|intros; apply to_launch_ok|apply Forall_true]. Qed.
Lemma filter_iff_in {A} (P Q : A -> Prop) {Pd : forall x, Decision (P x)} {Qd : forall x, Decision (Q x)} (l : list A) :
  (forall x, x ∈ l -> (P x <-> Q x)) -> filter P l = filter Q l.
Proof.
  induction l as [|a l IH]; intros H; [done|]. rewrite !filter_cons, (IH (fun x Hx => H x (proj2 (elem_of_cons _ _ _) (or_intror Hx)))).
  assert (Ha : P a <-> Q a) by (apply H, elem_of_cons; by left). destruct (decide (P a)), (decide (Q a)); tauto.
Qed.
Lemma each_launch e l w : NoDup l -> ordered (fst (each (to_launch e) l w)) = ordered w ++ filter (fun id => id ∉ treated w /\ commander e id = true) l /\
  treated (fst (each (to_launch e) l w)) = treated w ++ filter (fun id => id ∉ treated w /\ commander e id = true) l.
Proof.
  revert w. induction l as [|id l IH]; intros w HN; cbn [each].
  - cbn. by rewrite !app_nil_r.
  - apply NoDup_cons in HN as [Hid HN]. rewrite andthen_fst by done.
    destruct (IH (fst (to_launch e id w)) HN) as [IH1 IH2]. rewrite IH1, IH2. clear IH IH1 IH2.
    rewrite to_launch_ok. cbn [fst]. unfold order_w.
    case_bool_decide as Ht.
    + rewrite (filter_cons_False (fun id => id ∉ treated w /\ commander e id = true)); [done|]. tauto.
    + destruct (commander e id) eqn:Ec.
      * rewrite (filter_cons_True (fun id => id ∉ treated w /\ commander e id = true)) by done. cbn [ordered treated with_order].
        assert (EF : filter (fun i => i ∉ treated w ++ [id] /\ commander e i = true) l = filter (fun i => i ∉ treated w /\ commander e i = true) l).
        { apply filter_iff_in. intros i Hi. rewrite elem_of_app, elem_of_list_singleton. split; [tauto|]. intros [H1 H2]. split; [|done].
          intros [?| ->]; done. }
        rewrite EF. rewrite <- !app_assoc. done.
      * rewrite (filter_cons_False (fun id => id ∉ treated w /\ commander e id = true)); [done|]. rewrite Ec. intros [_ ?]. done.
Qed.

(** The jobs after a list of state changes. *)
Lemma sets_jobs date st ids d : uniq d -> uniq (fold_left (fun d id => set_job_state date id st d) ids d) /\
  jobs (fold_left (fun d id => set_job_state date id st d) ids d) =
  (fun j => if decide (j_id j ∈ ids /\ j_state j ∈ live_states /\ j_state j <> st) then final_stop st (with_state st j) else j) <$> jobs d.
Proof.
  revert d. induction ids as [|id ids IH]; intros d HU; cbn [fold_left].
  - split; [done|]. rewrite <- (list_fmap_id (jobs d)) at 1. apply list_fmap_ext. intros i j _. rewrite decide_False; [done|].
    intros [H _]. by apply elem_of_nil in H.
  - destruct (IH (set_job_state date id st d)) as [IH1 IH2]; [by apply set_state_uniq|]. split; [done|].
    rewrite IH2, set_state_jobs by done. rewrite <- list_fmap_compose. apply list_fmap_ext. intros i j _. unfold compose.
    destruct (decide (accepts id st j)) as [[Hid [Hl Hn]]|Ha].
    + rewrite decide_False.
      * rewrite decide_True; [done|]. split; [|done]. apply elem_of_cons. by left.
      * rewrite final_stop_state. cbn [j_state with_state]. tauto.
    + destruct (decide (j_id j ∈ ids /\ j_state j ∈ live_states /\ j_state j <> st)) as [[H1 H2]|H].
      * rewrite decide_True; [done|]. split; [|done]. apply elem_of_cons. by right.
      * rewrite decide_False; [done|]. intros [[H1|H1]%elem_of_cons [H2 H3]]; [|by apply H].
        apply Ha. split; done.
Qed.
Lemma each_base (g : Z -> db -> db) (f : job -> world -> step) l w :
  (forall j w, snd (f j w) = None -> base (fst (f j w)) = g (j_id j) (base w)) -> snd (each f l w) = None ->
  base (fst (each f l w)) = fold_left (fun d id => g id d) (j_id <$> l) (base w).
Proof.
  intros Hf. revert w. induction l as [|a l IH]; intros w; cbn [each]; [done|].
  intros [Ha Hl]%andthen_none. rewrite andthen_fst by done. rewrite (IH _ Hl). rewrite fmap_cons. cbn [fold_left]. by rewrite (Hf a w Ha).
Qed.

Section smooth_round.
Variables (sql : Z -> string) (e : env) (preds asg : list (Z * Z)) (w : world).
Hypothesis HU : uniq (base w).
Hypothesis HS : smooth e preds asg (base w).
Let by_state st := in_state st (base w).
Let w1 := fst (each (resume e asg) (by_state "Resuming"%string) w).
Let w2 := fst (each (tell_prediction sql e) (waiting_interactive preds (base w)) w1).
Let w3 := fst (each (to_error e) (by_state "toError"%string) w2).
Let w4 := fst (each (to_ack e) (by_state "toAckReservation"%string) w3).
Let w5 := fst (each (to_launch e) (j_id <$> by_state "toLaunch"%string) w4).
Lemma ends : notifications sql e preds asg w = (w5, None).
Proof.
  assert (HN : snd (notifications sql e preds asg w) = None) by (by apply phases_none).
  rewrite (surjective_pairing (notifications sql e preds asg w)), HN. f_equal. by apply notifications_fst.
Qed.
Lemma all_none : snd (each (resume e asg) (by_state "Resuming"%string) w) = None /\
  snd (each (tell_prediction sql e) (waiting_interactive preds (base w)) w1) = None /\
  snd (each (to_error e) (by_state "toError"%string) w2) = None /\ snd (each (to_ack e) (by_state "toAckReservation"%string) w3) = None.
Proof.
  assert (HN : snd (notifications sql e preds asg w) = None) by (by apply phases_none).
  apply notifications_none in HN; [|done]. tauto.
Qed.
Lemma told5 : told w5 = told w ++ (x ← waiting_interactive preds (base w); delivered e (j_id x.1) (prediction_text sql e x.1 x.2))
  ++ (by_state "toError"%string ≫= error_texts e) ++ (j ← by_state "toAckReservation"%string; delivered e (j_id j) ("GOOD RESERVATION" +:+ newline)).
Proof.
  destruct all_none as (N1 & N2 & N3 & N4). unfold w5.
  rewrite (each_keep told (to_launch e)); [|intros; apply launch_frame|apply each_launch_none].
  unfold w4. rewrite (each_acc told (fun j => delivered e (j_id j) ("GOOD RESERVATION" +:+ newline))); [|intros j v Hv; by apply ack_frame|done].
  unfold w3. rewrite (each_acc told (error_texts e)); [|intros j v Hv; by apply error_frame|done].
  unfold w2. rewrite (each_acc told (fun x : job * Z => delivered e (j_id x.1) (prediction_text sql e x.1 x.2))); [|intros x v Hv; by apply predict_told|done].
  unfold w1. rewrite (each_keep told); [|intros; apply resume_frame|done].
  rewrite <- !app_assoc. done.
Qed.
Lemma jobs5 : jobs (base w5) = answered <$> jobs (base w).
Proof.
  destruct all_none as (N1 & N2 & N3 & N4). unfold w5.
  rewrite (each_keep base (to_launch e)); [|intros; apply launch_frame|apply each_launch_none].
  unfold w4. rewrite (each_base (fun id => set_job_state (now e) id "Waiting")); [|intros j v Hv; by apply ack_frame|done].
  unfold w3. rewrite (each_base (fun id => set_job_state (now e) id "Error")); [|intros j v Hv; by apply error_frame|done].
  destruct (same2 sql e preds asg w) as [Hj _]. fold (by_state "Resuming"%string) in Hj. fold w1 in Hj. fold w2 in Hj.
  assert (HU2 : uniq (base w2)) by (unfold uniq; by rewrite Hj).
  destruct (sets_jobs (now e) "Error" (j_id <$> by_state "toError"%string) (base w2) HU2) as [HU3 HJ3].
  destruct (sets_jobs (now e) "Waiting" (j_id <$> by_state "toAckReservation"%string) _ HU3) as [HU4 HJ4].
  rewrite HJ4, HJ3, Hj. rewrite <- list_fmap_compose. apply list_fmap_ext. intros i j Hi. apply elem_of_list_lookup_2 in Hi.
  assert (Hids : forall st, j_id j ∈ j_id <$> by_state st <-> j_state j = st).
  { intros st. rewrite elem_of_list_fmap. split.
    - intros (j' & E & Hj'). unfold by_state in Hj'. apply in_state_in in Hj' as [Hst Hj'].
      by rewrite (uniq_eq (base w) j j' HU Hi Hj' E).
    - intros Hst. exists j. split; [done|]. by apply in_state_in. }
  unfold compose, answered.
  destruct (decide (j_state j = "toError"%string)) as [E1|E1].
  - rewrite (bool_decide_eq_true_2 _ E1). rewrite (decide_True (P := j_id j ∈ _ /\ j_state j ∈ live_states /\ j_state j <> "Error"%string)).
    + rewrite decide_False.
      * unfold final_stop. destruct j as [a b c d1 f g h k l m n]. cbn [with_state j_stop j_start with_stop].
        change (is_final "Error") with true. cbn [j_id j_user j_type j_queue j_start j_stop j_suspended j_mld j_reservation j_types with_stop with_state].
        destruct (h <? g) eqn:Eh; [rewrite Z.max_r by lia|rewrite Z.max_l by lia]; done.
      * rewrite final_stop_id, final_stop_state. cbn [j_id j_state with_state]. rewrite Hids, E1. intros [? _]. done.
    + rewrite Hids, E1. split; [done|]. split; [by_dec|done].
  - rewrite (bool_decide_eq_false_2 _ E1). rewrite (decide_False (P := j_id j ∈ _ /\ j_state j ∈ live_states /\ j_state j <> "Error"%string)) by (rewrite Hids; tauto).
    destruct (decide (j_state j = "toAckReservation"%string)) as [E2|E2].
    + rewrite (bool_decide_eq_true_2 _ E2). rewrite decide_True by (rewrite Hids, E2; split; [done|split; [by_dec|done]]). done.
    + rewrite (bool_decide_eq_false_2 _ E2). rewrite decide_False by (rewrite Hids; tauto). done.
Qed.
Lemma orders5 : ordered w5 = ordered w ++ filter (fun id => id ∉ treated w /\ commander e id = true) (j_id <$> by_state "toLaunch"%string).
Proof.
  destruct all_none as (N1 & N2 & N3 & N4).
  assert (HN : NoDup (j_id <$> by_state "toLaunch"%string)).
  { unfold by_state, in_state. apply NoDup_fmap_2_strong.
    - intros x y Hx Hy E. apply elem_of_list_filter in Hx as [_ Hx]. apply elem_of_list_filter in Hy as [_ Hy]. by apply (uniq_eq (base w)).
    - apply NoDup_filter. by apply (NoDup_fmap_1 j_id). }
  unfold w5. destruct (each_launch e _ w4 HN) as [H5 _]. rewrite H5.
  assert (HK : ordered w4 = ordered w /\ treated w4 = treated w).
  { split; unfold w4, w3, w2, w1.
    - rewrite (each_keep ordered (to_ack e)); [|intros j v Hv; by apply ack_frame|done].
      rewrite (each_keep ordered (to_error e)); [|intros j v Hv; by apply error_frame|done].
      rewrite (each_keep ordered (tell_prediction sql e)); [|intros; apply predict_frame|done].
      rewrite (each_keep ordered (resume e asg)); [|intros; apply resume_frame|done]. done.
    - rewrite (each_keep treated (to_ack e)); [|intros j v Hv; by apply ack_frame|done].
      rewrite (each_keep treated (to_error e)); [|intros j v Hv; by apply error_frame|done].
      rewrite (each_keep treated (tell_prediction sql e)); [|intros; apply predict_frame|done].
      rewrite (each_keep treated (resume e asg)); [|intros; apply resume_frame|done]. done. }
  destruct HK as [-> ->]. done.
Qed.
Lemma ack_codes l v : snd (each (to_ack e) l v) = None ->
  code (fst (each (to_ack e) l v)) = if (code v =? 0) && existsb (fun j => j_start j - 1 <=? now e) l then 1 else code v.
Proof.
  revert v. induction l as [|j l IH]; intros v; cbn [each existsb].
  - intros _. rewrite andb_false_r. done.
  - intros [Hj Hl]%andthen_none. rewrite andthen_fst by done. rewrite (IH _ Hl). clear IH Hl.
    apply to_ack_none in Hj. rewrite to_ack_ok by done. cbn [fst]. unfold ack_w. cbn [code with_base say].
    destruct (j_start j - 1 <=? now e); cbn [andb orb].
    + destruct (code v =? 0) eqn:E; cbn [code with_code with_base say andb]; [done|]. rewrite E. done.
    + cbn [code with_base say]. done.
Qed.
Lemma code5 : code w5 = if (code w =? 0) && existsb (fun j => j_start j - 1 <=? now e) (by_state "toAckReservation"%string) then 1 else code w.
Proof.
  destruct all_none as (N1 & N2 & N3 & N4). unfold w5.
  rewrite (each_keep code (to_launch e)); [|intros; apply launch_frame|apply each_launch_none].
  unfold w4. rewrite ack_codes by done. unfold w3, w2, w1.
  rewrite (each_keep code (to_error e)); [|intros j v Hv; by apply error_frame|done].
  rewrite (each_keep code (tell_prediction sql e)); [|intros; apply predict_frame|done].
  rewrite (each_keep code (resume e asg)); [|intros; apply resume_frame|done]. done.
Qed.
End smooth_round.

(** * The theorems *)
Theorem C136_address e id a p : addr_port (info e id) = Some (a, p) <-> at_address e id a p.
Proof. apply addr_port_some. Qed.
Lemma refusal_texts e j : error_texts e j = refusal e j.
Proof.
  unfold error_texts, refusal. destruct (notifies_error j) eqn:E.
  - rewrite decide_True by (by apply notifies_spec). done.
  - rewrite decide_False; [done|]. intros H%notifies_spec. congruence.
Qed.
Theorem C136_predicted preds d j t : (j, t) ∈ waiting_interactive preds d <-> predicted preds d j t.
Proof. apply waiting_in. Qed.
Theorem C136_verdicts sql e preds asg w : NoDup (j_id <$> jobs (base w)) -> smooth e preds asg (base w) -> exists w',
  notifications sql e preds asg w = (w', None) /\ jobs (base w') = answered <$> jobs (base w) /\
  told w' = told w ++ (x ← waiting_interactive preds (base w); delivered e (j_id x.1) (announce sql e x.1 x.2))
    ++ (of_state "toError" (base w) ≫= refusal e) ++ (of_state "toAckReservation" (base w) ≫= acceptance e).
Proof.
  intros HU HS. eexists. split; [by apply ends|]. split; [by apply (jobs5 sql e preds asg w HU HS)|].
  rewrite (told5 sql e preds asg w HU HS). f_equal. f_equal. f_equal. apply list_bind_ext; [|done]. intros j. apply refusal_texts.
Qed.
Theorem C137_ends sql e preds asg w : NoDup (j_id <$> jobs (base w)) ->
  snd (notifications sql e preds asg w) = None <-> smooth e preds asg (base w).
Proof. intros HU. by apply phases_none. Qed.

(** ** What a round never touches, even when it is stopped *)
Lemma in_state_set st date id s d : (forall j, j ∈ jobs d -> j_id j = id -> j_state j <> st) -> s <> st -> uniq d ->
  in_state st (set_job_state date id s d) = in_state st d.
Proof.
  intros Hid Hs HU. unfold in_state. rewrite set_state_jobs by done. clear HU. induction (jobs d) as [|j l IH]; [done|].
  rewrite fmap_cons, !filter_cons, IH by (intros x Hx; apply Hid, elem_of_cons; by right).
  destruct (decide (accepts id s j)) as [Ha|Ha]; [|done].
  rewrite decide_False by (by rewrite final_stop_state). rewrite decide_False; [done|].
  apply Hid; [apply elem_of_cons; by left|apply Ha].
Qed.
Definition keeps (w0 : world) (st : string) (v : world) : Prop := uniq (base v) /\ in_state st (base v) = in_state st (base w0).
Lemma keeps_set w0 st v date j s : uniq (base w0) -> j ∈ jobs (base w0) -> j_state j <> st -> s <> st -> keeps w0 st v ->
  uniq (set_job_state date (j_id j) s (base v)) /\ in_state st (set_job_state date (j_id j) s (base v)) = in_state st (base w0).
Proof.
  intros HU0 Hj Hst Hs [HU Hk]. split; [by apply set_state_uniq|]. rewrite in_state_set; [done| |done|done].
  intros x Hx Hid Hxs. assert (Hx0 : x ∈ in_state st (base w0)) by (rewrite <- Hk; by apply in_state_in).
  apply in_state_in in Hx0 as [_ Hx0]. assert (x = j) by (by apply (uniq_eq (base w0))). congruence.
Qed.
Lemma keeps_error e w0 st v j : uniq (base w0) -> j ∈ jobs (base w0) -> j_state j <> st -> "Error"%string <> st -> keeps w0 st v -> keeps w0 st (fst (to_error e j v)).
Proof.
  intros HU0 Hj Hst Hs HK. unfold to_error, notify_tcp. destruct (addr_port _) as [[a p]|]; [|done].
  destruct (notifies_error j); [destruct (is_port p); [|done]; destruct (reach _ _ _), (reach _ _ _)|]; by apply keeps_set.
Qed.
Lemma keeps_ack e w0 st v j : uniq (base w0) -> j ∈ jobs (base w0) -> j_state j <> st -> "Waiting"%string <> st -> keeps w0 st v -> keeps w0 st (fst (to_ack e j v)).
Proof.
  intros HU0 Hj Hst Hs HK. unfold to_ack, notify_tcp. destruct (addr_port _) as [[a p]|]; [|done].
  destruct (is_port p); [|done]. destruct (reach _ _ _); [|done]. cbn [fst]. destruct (_ && _); by apply keeps_set.
Qed.
Lemma each_inv_in {A} (J : world -> Prop) (f : A -> world -> step) l w :
  (forall a w, a ∈ l -> J w -> J (fst (f a w))) -> J w -> J (fst (each f l w)).
Proof.
  revert w. induction l as [|a l IH]; intros w Hf HJ; cbn [each]; [done|].
  pose proof (Hf a w ltac:(apply elem_of_cons; by left) HJ) as Ha. destruct (f a w) as [w' [e|]]; cbn [andthen fst] in *; [done|].
  apply IH; [|done]. intros b v Hb. apply Hf, elem_of_cons. by right.
Qed.
Lemma andthen_inv (J : world -> Prop) r k : J (fst r) -> (forall v, J v -> J (fst (k v))) -> J (fst (andthen r k)).
Proof. destruct r as [v [e|]]; cbn; auto. Qed.
Lemma same_keeps w0 st v : uniq (base w0) -> same_jobs w0 v -> keeps w0 st v.
Proof. intros HU [H _]. unfold keeps, uniq, in_state. by rewrite H. Qed.
Lemma energy_fst e w : fst (energy_step e w) = w.
Proof. unfold energy_step. destruct (energy e) as [m|]; [destruct (bool_decide _)|]; done. Qed.
Lemma notifications_energy sql e preds asg w : snd (energy_step e w) <> None -> fst (notifications sql e preds asg w) = w.
Proof. unfold notifications. intros H. rewrite <- (energy_fst e w) at 2. destruct (energy_step e w) as [v [x|]]; done. Qed.
(** A resuming job never becomes running: the row of every job in a state other than "toError" and
    "toAckReservation" is left as it is, whatever happens. *)
Lemma kept_by_round sql e preds asg w st : uniq (base w) -> st ∉ ["toError"; "toAckReservation"; "Error"; "Waiting"]%string ->
  keeps w st (fst (notifications sql e preds asg w)).
Proof.
  intros HU Hst. rewrite !not_elem_of_cons in Hst. destruct Hst as (S1 & S2 & S3 & S4 & _). unfold notifications.
  destruct (energy_step e w) as [w0 [x|]] eqn:Ee; cbn [andthen]; pose proof (energy_fst e w) as Ef; rewrite Ee in Ef; cbn in Ef; subst w0; [done|].
  pose proof (same1 e asg w) as HK1. destruct (each (resume e asg) _ w) as [w1 [x|]]; cbn [andthen fst] in *; [by apply same_keeps|].
  assert (HK2 : same_jobs w (fst (each (tell_prediction sql e) (waiting_interactive preds (base w1)) w1))).
  { apply (each_inv (same_jobs w)); [|done]. intros y v. apply predict_same. }
  destruct (each (tell_prediction sql e) _ w1) as [w2 [x|]]; cbn [andthen fst] in *; [by apply same_keeps|].
  assert (HK3 : keeps w st (fst (each (to_error e) (in_state "toError" (base w)) w2))).
  { apply each_inv_in; [|by apply same_keeps]. intros j v Hj. apply in_state_in in Hj as [E Hj]. apply keeps_error; try done; congruence. }
  destruct (each (to_error e) _ w2) as [w3 [x|]]; cbn [andthen fst] in *; [done|].
  assert (HK4 : keeps w st (fst (each (to_ack e) (in_state "toAckReservation" (base w)) w3))).
  { apply each_inv_in; [|done]. intros j v Hj. apply in_state_in in Hj as [E Hj]. apply keeps_ack; try done; congruence. }
  destruct (each (to_ack e) _ w3) as [w4 [x|]]; cbn [andthen fst] in *; [done|].
  apply each_inv; [|done]. intros id v Hv. unfold keeps. by destruct (launch_frame e id v) as (_ & _ & -> & _).
Qed.
Theorem C143_never_refuted sql e preds asg w j : NoDup (j_id <$> jobs (base w)) -> j ∈ jobs (base w) -> j_state j = "Resuming"%string ->
  j ∈ jobs (base (fst (notifications sql e preds asg w))).
Proof.
  intros HU Hj Hs. destruct (kept_by_round sql e preds asg w "Resuming" HU) as [_ HK]; [by_dec|].
  assert (Hi : j ∈ in_state "Resuming" (base (fst (notifications sql e preds asg w)))) by (rewrite HK; by apply in_state_in).
  by apply in_state_in in Hi as [_ Hi].
Qed.
(** When the first reservation to be announced has lost its client, nothing is announced and nothing is ordered. *)
Lemma blocked_round sql e preds asg w j0 rest : uniq (base w) -> in_state "toAckReservation" (base w) = j0 :: rest ->
  ~ ack_ok e j0 ->
  let w' := fst (notifications sql e preds asg w) in
  snd (notifications sql e preds asg w) <> None /\ keeps w "toAckReservation" w' /\ ordered w' = ordered w.
Proof.
  intros HU Hin Hno. unfold notifications.
  destruct (energy_step e w) as [w0 [x|]] eqn:Ee; cbn [andthen]; pose proof (energy_fst e w) as Ef; rewrite Ee in Ef; cbn in Ef; subst w0; [done|].
  set (J := fun v => keeps w "toAckReservation" v /\ ordered v = ordered w).
  assert (HK1 : same_jobs w (fst (each (resume e asg) (in_state "Resuming" (base w)) w)) /\ ordered (fst (each (resume e asg) (in_state "Resuming" (base w)) w)) = ordered w).
  { apply (each_inv (fun v => same_jobs w v /\ ordered v = ordered w)); [|done]. intros j v [H1 H2]. split; [by apply resume_same|].
    by destruct (resume_frame e asg j v) as (_ & -> & _). }
  destruct (each (resume e asg) _ w) as [w1 [x|]]; cbn [andthen fst] in *; [split; [done|]; destruct HK1; split; [by apply same_keeps|done]|].
  assert (HK2 : same_jobs w (fst (each (tell_prediction sql e) (waiting_interactive preds (base w1)) w1)) /\ ordered (fst (each (tell_prediction sql e) (waiting_interactive preds (base w1)) w1)) = ordered w).
  { apply (each_inv (fun v => same_jobs w v /\ ordered v = ordered w)); [|done]. intros y v [H1 H2]. split; [by apply predict_same|].
    by destruct (predict_frame sql e y v) as (-> & _). }
  destruct (each (tell_prediction sql e) _ w1) as [w2 [x|]]; cbn [andthen fst] in *; [split; [done|]; destruct HK2; split; [by apply same_keeps|done]|].
  assert (HK3 : J (fst (each (to_error e) (in_state "toError" (base w)) w2))).
  { apply each_inv_in; [|destruct HK2; split; [by apply same_keeps|done]]. intros j v Hj [H1 H2]. apply in_state_in in Hj as [E Hj]. split.
    - apply keeps_error; try done; congruence.
    - unfold to_error, notify_tcp. destruct (addr_port _) as [[a p]|]; [|done].
      destruct (notifies_error j); [destruct (is_port p); [|done]; destruct (reach _ _ _), (reach _ _ _)|]; done. }
  destruct (each (to_error e) _ w2) as [w3 [x|]]; cbn [andthen fst] in *; [done|].
  rewrite Hin. cbn [each]. assert (Hx : exists x, to_ack e j0 w3 = (w3, Some x)).
  { pose proof (to_ack_none e j0 w3) as Hn. unfold to_ack, notify_tcp in *. destruct (addr_port _) as [[a p]|]; [|eauto].
    destruct (is_port p); [|eauto]. destruct (reach _ _ _); [|eauto]. exfalso. apply Hno, Hn. done. }
  destruct Hx as (x & ->). cbn. done.
Qed.
Theorem C137_blocked_refuted sql es preds asg w j0 rest : NoDup (j_id <$> jobs (base w)) ->
  of_state "toAckReservation" (base w) = j0 :: rest ->
  Forall (fun e => reach e (j_id j0) ("GOOD RESERVATION" +:+ newline) = false \/ ~ has_client e (j_id j0)) es ->
  of_state "toAckReservation" (base (rounds sql es preds asg w)) = j0 :: rest /\ ordered (rounds sql es preds asg w) = ordered w.
Proof.
  intros HU Hin HF. revert w HU Hin. induction HF as [|e es He HF IH]; intros w HU Hin; cbn [rounds]; [done|].
  destruct (blocked_round sql e preds asg w j0 rest HU Hin) as (_ & [HU' HK] & HO).
  { intros [Hc Hr]. destruct He as [He|He]; [congruence|done]. }
  set (w' := fst (notifications sql e preds asg w)) in *. clearbody w'.
  destruct (IH (mkW (base w') (told w') (ordered w') [] (asked w') 0)) as [I1 I2]; [done| |].
  - cbn [base]. change (of_state "toAckReservation" (base w')) with (in_state "toAckReservation" (base w')). by rewrite HK.
  - split; [done|]. rewrite I2. done.
Qed.
Theorem C138_orders sql e preds asg w : NoDup (j_id <$> jobs (base w)) -> smooth e preds asg (base w) ->
  ordered (fst (notifications sql e preds asg w)) =
    ordered w ++ filter (fun id => id ∉ treated w /\ commander e id = true) (j_id <$> of_state "toLaunch" (base w)).
Proof. intros HU HS. rewrite (ends sql e preds asg w HU HS). cbn [fst]. by apply orders5. Qed.
Theorem C138_once sql e preds asg w : NoDup (j_id <$> jobs (base w)) -> smooth e preds asg (base w) ->
  treated w = ordered w -> NoDup (ordered w) -> NoDup (ordered (fst (notifications sql e preds asg w))).
Proof.
  intros HU HS Ht HN. rewrite C138_orders by done. apply NoDup_app. split; [done|]. split.
  - intros x Hx Hf. apply elem_of_list_filter in Hf as [[Hf _] _]. apply Hf. by rewrite Ht.
  - apply NoDup_filter. apply NoDup_fmap_2_strong.
    + intros x y Hx Hy E. apply in_state_in in Hx as [_ Hx]. apply in_state_in in Hy as [_ Hy]. by apply (uniq_eq (base w)).
    + apply NoDup_filter. by apply (NoDup_fmap_1 j_id).
Qed.
(** A new process forgets the orders of the previous ones: the order is repeated. *)
Theorem C138_again sql e preds asg w j : NoDup (j_id <$> jobs (base w)) -> smooth e preds asg (base w) ->
  j ∈ jobs (base w) -> j_state j = "toLaunch"%string -> commander e (j_id j) = true -> treated w = [] ->
  exists l, ordered (fst (notifications sql e preds asg w)) = ordered w ++ l /\ j_id j ∈ l.
Proof.
  intros HU HS Hj Hst Hc Ht. eexists. split; [by apply C138_orders|]. apply elem_of_list_filter. split; [rewrite Ht; split; [by apply not_elem_of_nil|done]|].
  apply elem_of_list_fmap. exists j. split; [done|]. by apply in_state_in.
Qed.
Theorem C139_shown h : (shown_pred (plan_run h) = [] /\ shown_res (plan_run h) = []) \/
  exists h1 h2, h = h1 ++ h2 /\ shown_pred (plan_run h) = plan_pred (plan_run h1) /\ shown_res (plan_run h) = plan_res (plan_run h1).
Proof.
  induction h as [|s h IH] using rev_ind; [by left|]. unfold plan_run in *. rewrite fold_left_app. cbn [fold_left].
  set (g := fold_left plan_one h (mkGantt [] [] [] [])) in *.
  assert (HK : forall g', shown_pred g' = shown_pred g -> shown_res g' = shown_res g ->
    (shown_pred g' = [] /\ shown_res g' = []) \/ exists h1 h2, h ++ [s] = h1 ++ h2 /\
      shown_pred g' = plan_pred (fold_left plan_one h1 (mkGantt [] [] [] [])) /\ shown_res g' = plan_res (fold_left plan_one h1 (mkGantt [] [] [] []))).
  { intros g' -> ->. destruct IH as [IH|(h1 & h2 & E & H1 & H2)]; [by left|]. right. exists h1, (h2 ++ [s]). split; [by rewrite E, app_assoc|done]. }
  destruct s as [p r|[|[|n]]]; cbn [plan_one update_shown].
  - by apply HK.
  - by apply HK.
  - left. done.
  - right. exists h, [Show (S (S n))]. done.
Qed.
Theorem C139_fresh h n : (2 <= n)%nat -> shown_pred (plan_run (h ++ [Show n])) = plan_pred (plan_run h) /\
  shown_res (plan_run (h ++ [Show n])) = plan_res (plan_run h).
Proof. intros Hn. unfold plan_run. rewrite fold_left_app. destruct n as [|[|n]]; [lia|lia|]. done. Qed.
Theorem C139_cut_refuted h : shown_pred (plan_run (h ++ [Show 1])) = [] /\ shown_res (plan_run (h ++ [Show 1])) = [].
Proof. unfold plan_run. by rewrite fold_left_app. Qed.
Theorem C139_example : let h := [Plan [(5, 100)] [(5, 1)]; Show 2; Plan [(6, 200)] [(6, 2)]; Show 1; Show 0; Plan [(7, 300)] [(7, 3)]] in
  (shown_pred (plan_run h), shown_pred (plan_run (h ++ [Show 2])), shown_pred (plan_run (take 3 h))) = ([], [(7, 300)], [(5, 100)]).
Proof. reflexivity. Qed.
Theorem C141_code sql e preds asg w : NoDup (j_id <$> jobs (base w)) -> smooth e preds asg (base w) -> code w = 0 \/ code w = 2 ->
  let c := code (fst (notifications sql e preds asg w)) in
  (c = 2 <-> code w = 2) /\
  (c = 1 <-> code w = 0 /\ exists j, j ∈ jobs (base w) /\ j_state j = "toAckReservation"%string /\ j_start j <= now e + 1).
Proof.
  intros HU HS Hc. cbn zeta. rewrite (ends sql e preds asg w HU HS). cbn [fst]. rewrite (code5 sql e preds asg w HU HS).
  assert (HE : existsb (fun j => j_start j - 1 <=? now e) (in_state "toAckReservation" (base w)) = true <->
    exists j, j ∈ jobs (base w) /\ j_state j = "toAckReservation"%string /\ j_start j <= now e + 1).
  { rewrite existsb_exists. split.
    - intros (j & Hj & H). apply elem_of_list_In, in_state_in in Hj as [? ?]. exists j. split; [done|]. split; [done|lia].
    - intros (j & H1 & H2 & H3). exists j. split; [by apply elem_of_list_In, in_state_in|lia]. }
  destruct Hc as [-> | ->].
  - change (0 =? 0) with true. cbn [andb]. destruct (existsb _ _); [|].
    + split; [split; discriminate|]. split; [|done]. intros _. split; [done|]. by apply HE.
    + split; [split; discriminate|]. split; [discriminate|]. intros [_ H]. by apply HE in H.
  - change (2 =? 0) with false. cbn [andb]. split; [done|]. split; [discriminate|]. intros [? _]. discriminate.
Qed.

(** ** Sessions lost, scripts that fail *)
Lemma frag_rows date u id d : uniq d -> id ∈ j_id <$> jobs d -> admin u = true ->
  forall x, x ∈ f_job <$> frags (snd (frag_job date u id d)) <-> x ∈ f_job <$> frags d \/ x = id.
Proof.
  intros HU (j & -> & Hj)%elem_of_list_fmap Ha x. unfold frag_job. rewrite (get_job_of d j HU Hj), Ha, orb_true_r.
  destruct (filter _ (frags d)) as [|f l] eqn:Ef; cbn [snd].
  - cbn [frags add_event with_events with_frags]. rewrite fmap_app, elem_of_app. cbn [fmap list_fmap f_job]. rewrite elem_of_list_singleton. done.
  - split; [by left|]. intros [H| ->]; [done|].
    assert (Hf : f ∈ f :: l) by (apply elem_of_cons; by left). rewrite <- Ef in Hf. apply elem_of_list_filter in Hf as [E Hf].
    apply elem_of_list_fmap. exists f. done.
Qed.
Lemma frag_events date u id d ty : ty <> "FRAG_JOB_REQUEST"%string -> forall x,
  mkEv ty x "YES" ∈ events (snd (frag_job date u id d)) <-> mkEv ty x "YES" ∈ events d.
Proof.
  intros Hty x. unfold frag_job. destruct (get_job d id); [|done]. destruct (_ || _); [|done]. destruct (filter _ (frags d)); [|done].
  cbn [snd events add_event with_events with_frags]. rewrite elem_of_app, elem_of_list_singleton. split; [|by left].
  intros [H|[= H _]]; done.
Qed.
Lemma lost_rows e id ty w x : uniq (base w) -> id ∈ j_id <$> jobs (base w) -> admin (user e) = true ->
  (x ∈ f_job <$> frags (base (lost e id ty w)) <-> x ∈ f_job <$> frags (base w) \/ x = id).
Proof. intros HU Hid Ha. unfold lost. cbn [base with_asked with_base]. by rewrite frag_rows. Qed.
Lemma lost_events e id ty ty' w x : ty' <> "FRAG_JOB_REQUEST"%string ->
  mkEv ty' x "YES" ∈ events (base (lost e id ty w)) <-> mkEv ty' x "YES" ∈ events (base w) \/ (ty' = ty /\ x = id).
Proof.
  intros H. unfold lost. cbn [base with_asked with_base]. rewrite frag_events by done. cbn [events add_event with_events].
  rewrite elem_of_app, elem_of_list_singleton. split; (intros [?|E]; [by left|right]); [by injection E|destruct E; congruence].
Qed.
Section losses.
Variables (sql : Z -> string) (e : env) (preds asg : list (Z * Z)) (w : world).
Hypothesis HU : uniq (base w).
Hypothesis HS : smooth e preds asg (base w).
Hypothesis HA : admin (user e) = true.
Let by_state st := in_state st (base w).
Let w1 := fst (each (resume e asg) (by_state "Resuming"%string) w).
Let w2 := fst (each (tell_prediction sql e) (waiting_interactive preds (base w)) w1).
Lemma uniq_same v : same_jobs w v -> uniq (base v).
Proof. intros [H _]. unfold uniq. by rewrite H. Qed.
Definition resume_fails (j : job) : Prop := ~ contended asg (base w) j /\ exists run, script e = Some run /\ run (j_id j) <> Some 0.
Lemma resume_rows j v x : j ∈ jobs (base w) -> same_jobs w v -> snd (resume e asg j v) = None ->
  (x ∈ f_job <$> frags (base (fst (resume e asg j v))) <-> x ∈ f_job <$> frags (base v) \/ (resume_fails j /\ x = j_id j)) /\
  (forall ty, ty <> "FRAG_JOB_REQUEST"%string -> mkEv ty x "YES" ∈ events (base (fst (resume e asg j v))) <-> mkEv ty x "YES" ∈ events (base v) \/ (resume_fails j /\ ty = "RESUME_SCRIPT_ERROR"%string /\ x = j_id j)).
Proof.
  intros Hj Hv HN. assert (HO := others_nil asg (base w) j HU Hj). unfold resume in *.
  rewrite (others_same asg (base w) (base v)) in * by apply Hv.
  destruct (others asg (base w) (j_id j)) as [|y l].
  2:{ assert (Hc : contended asg (base w) j) by (by apply HO). cbn [fst]. split; [|intros ty _]; (split; [by left|]; intros [?|[[? _] _]]; done). }
  assert (Hc : ~ contended asg (base w) j) by (intros Hc; by apply HO in Hc).
  destruct (bool_decide ("noop"%string ∈ j_types j)); [done|]. destruct (script e) as [run|] eqn:Es; [|done]. cbn [fst]. clear HN.
  assert (Hid : j_id j ∈ j_id <$> jobs (base v)) by (apply elem_of_list_fmap; exists j; split; [done|]; by rewrite (proj1 Hv)).
  destruct (run (j_id j)) as [c|] eqn:Er.
  - case_bool_decide as Hb.
    + assert (HNf : ~ resume_fails j) by (intros (_ & run' & Hr & Hn); rewrite Es in Hr; injection Hr as <-; apply Hn; by rewrite Er).
      split; [|intros ty _]; tauto.
    + assert (Hf : resume_fails j) by (split; [done|]; exists run; split; [done|]; by rewrite Er).
      change (with_asked "Qdel" (with_base _ v)) with (lost e (j_id j) "RESUME_SCRIPT_ERROR" v). split.
      * rewrite lost_rows; [tauto|by apply uniq_same|done|done].
      * intros ty Hty. rewrite lost_events by done. tauto.
  - rewrite bool_decide_eq_false_2 by done.
    assert (Hf : resume_fails j) by (split; [done|]; exists run; split; [done|]; by rewrite Er).
    change (with_asked "Qdel" (with_base _ (with_base (add_event "RESUME_SCRIPT_ERROR" (j_id j)) v))) with (lost e (j_id j) "RESUME_SCRIPT_ERROR" (with_base (add_event "RESUME_SCRIPT_ERROR" (j_id j)) v)). split.
    + rewrite lost_rows; [cbn [base with_base frags add_event with_events]; tauto|by apply (uniq_same v)|done|done].
    + intros ty Hty. rewrite lost_events by done. cbn [base with_base events add_event with_events]. rewrite elem_of_app, elem_of_list_singleton.
      split; [intros [[H|H]|[? ?]]; [by left|injection H as -> ->; by right|by right]|intros [H|(_ & ? & ?)]; [by left; left|by right]].
Qed.
Lemma predict_rows y v x : y.1 ∈ jobs (base w) -> same_jobs w v -> snd (tell_prediction sql e y v) = None ->
  let no := reach e (j_id y.1) (prediction_text sql e y.1 y.2) = false in
  (x ∈ f_job <$> frags (base (fst (tell_prediction sql e y v))) <-> x ∈ f_job <$> frags (base v) \/ (no /\ x = j_id y.1)) /\
  (forall ty, ty <> "FRAG_JOB_REQUEST"%string -> mkEv ty x "YES" ∈ events (base (fst (tell_prediction sql e y v))) <-> mkEv ty x "YES" ∈ events (base v) \/ (no /\ ty = "LOST_SESSION"%string /\ x = j_id y.1)).
Proof.
  intros Hj Hv HN%predict_none. cbn zeta. rewrite predict_ok by done. destruct y as [j t]. cbn [fst snd predict_w] in *.
  destruct (reach e (j_id j) (prediction_text sql e j t)).
  - split; [|intros ty _]; (split; [by left|intros [?|[? _]]; done]).
  - split.
    + rewrite lost_rows; [cbn [base say frags]; tauto|by apply (uniq_same v)| |done].
      apply elem_of_list_fmap. exists j. split; [done|]. cbn [base say]. by rewrite (proj1 Hv).
    + intros ty Hty. rewrite lost_events by done. cbn [base say]. tauto.
Qed.
Lemma rows2 x : (x ∈ f_job <$> frags (base w2) <-> x ∈ f_job <$> frags (base w) \/ script_fails e asg (base w) x \/ session_lost sql e preds (base w) x) /\
  (forall ty, ty <> "FRAG_JOB_REQUEST"%string -> mkEv ty x "YES" ∈ events (base w2) <-> mkEv ty x "YES" ∈ events (base w) \/
     (ty = "RESUME_SCRIPT_ERROR"%string /\ script_fails e asg (base w) x) \/ (ty = "LOST_SESSION"%string /\ session_lost sql e preds (base w) x)).
Proof.
  destruct (all_none sql e preds asg w HU HS) as (N1 & N2 & _). fold (by_state "Resuming"%string) in N1, N2. fold w1 in N2.
  assert (R1 : forall j, j ∈ by_state "Resuming"%string -> j ∈ jobs (base w)) by (intros j Hj; by apply in_state_in in Hj as [_ Hj]).
  assert (R2 : forall y, y ∈ waiting_interactive preds (base w) -> y.1 ∈ jobs (base w)) by (intros [j t] Hy; apply waiting_in in Hy; apply Hy).
  assert (HQ1 : forall P : Prop, (exists j, j ∈ by_state "Resuming"%string /\ resume_fails j /\ P /\ x = j_id j) <-> P /\ script_fails e asg (base w) x).
  { intros P. split.
    - intros (j & Hj & [Hc (run & Hr & Hn)] & HP & ->). split; [done|]. apply in_state_in in Hj as [Hst Hj]. exists j, run. done.
    - intros [HP (j & run & Hj & Hst & <- & Hc & Hr & Hn)]. exists j. split; [by apply in_state_in|]. split; [|done]. split; [done|]. eauto. }
  assert (HQ2 : forall P : Prop, (exists y, y ∈ waiting_interactive preds (base w) /\ reach e (j_id y.1) (prediction_text sql e y.1 y.2) = false /\ P /\ x = j_id y.1) <-> P /\ session_lost sql e preds (base w) x).
  { intros P. split.
    - intros ([j t] & Hy & Hr & HP & ->). split; [done|]. apply waiting_in in Hy. exists j, t. done.
    - intros [HP (j & t & Hp & <- & Hr)]. exists (j, t). split; [by apply waiting_in|]. done. }
  split.
  - unfold w2. rewrite (each_mem (fun v => f_job <$> frags (base v)) (fun (y : job * Z) z => reach e (j_id y.1) (prediction_text sql e y.1 y.2) = false /\ z = j_id y.1) (same_jobs w));
      [|intros; by apply predict_same|intros y v Hy Hv Hn; by apply predict_rows; [apply R2| |]|apply same1|done].
    unfold w1. rewrite (each_mem (fun v => f_job <$> frags (base v)) (fun j z => resume_fails j /\ z = j_id j) (same_jobs w));
      [|intros; by apply resume_same|intros j v Hj Hv Hn; by apply resume_rows; [apply R1| |]|done|done].
    specialize (HQ1 True). specialize (HQ2 True).
    assert (HQ1' : (exists j, j ∈ by_state "Resuming"%string /\ resume_fails j /\ x = j_id j) <-> script_fails e asg (base w) x).
    { split; [intros (j & ? & ? & ?); apply HQ1; eauto 6|intros H; destruct (proj2 HQ1 (conj I H)) as (j & ? & ? & _ & ?); eauto]. }
    assert (HQ2' : (exists y, y ∈ waiting_interactive preds (base w) /\ reach e (j_id y.1) (prediction_text sql e y.1 y.2) = false /\ x = j_id y.1) <-> session_lost sql e preds (base w) x).
    { split; [intros (y & ? & ? & ?); apply HQ2; eauto 6|intros H; destruct (proj2 HQ2 (conj I H)) as (y & ? & ? & _ & ?); eauto]. }
    rewrite HQ1', HQ2'. tauto.
  - intros ty Hty. unfold w2.
    rewrite (each_mem (fun v => events (base v)) (fun (y : job * Z) z => reach e (j_id y.1) (prediction_text sql e y.1 y.2) = false /\ ty = "LOST_SESSION"%string /\ x = j_id y.1 /\ z = mkEv ty x "YES") (same_jobs w));
      [|intros; by apply predict_same|intros y v Hy Hv Hn; rewrite (proj2 (predict_rows y v x (R2 y Hy) Hv Hn) ty Hty); tauto|apply same1|done].
    unfold w1. rewrite (each_mem (fun v => events (base v)) (fun j z => resume_fails j /\ ty = "RESUME_SCRIPT_ERROR"%string /\ x = j_id j /\ z = mkEv ty x "YES") (same_jobs w));
      [|intros; by apply resume_same|intros j v Hj Hv Hn; rewrite (proj2 (resume_rows j v x (R1 j Hj) Hv Hn) ty Hty); tauto|done|done].
    specialize (HQ1 (ty = "RESUME_SCRIPT_ERROR"%string)). specialize (HQ2 (ty = "LOST_SESSION"%string)). rewrite <- HQ1, <- HQ2.
    split.
    + intros [[H|(j & ? & ? & ? & ? & _)]|(y & ? & ? & ? & ? & _)]; [by left|right; left; exists j; done|right; right; exists y; done].
    + intros [H|[(j & ? & ? & ? & ?)|(y & ? & ? & ? & ?)]]; [by left; left|left; right; exists j; done|right; exists y; done].
Qed.
Lemma rows5 : let w' := fst (notifications sql e preds asg w) in frags (base w') = frags (base w2) /\ events (base w') = events (base w2).
Proof.
  cbn zeta. rewrite (ends sql e preds asg w HU HS). cbn [fst]. destruct (all_none sql e preds asg w HU HS) as (N1 & N2 & N3 & N4).
  rewrite !(each_keep base (to_launch e)); [|intros; apply launch_frame|apply each_launch_none].
  split.
  - rewrite (each_keep (fun v => frags (base v)) (to_ack e)); [|intros j v Hv; destruct (ack_frame e j v Hv) as (_ & _ & _ & -> & _); apply set_state_frags|done].
    rewrite (each_keep (fun v => frags (base v)) (to_error e)); [done|intros j v Hv; destruct (error_frame e j v Hv) as (_ & _ & _ & _ & -> & _); apply set_state_frags|done].
  - rewrite (each_keep (fun v => events (base v)) (to_ack e)); [|intros j v Hv; destruct (ack_frame e j v Hv) as (_ & _ & _ & -> & _); apply set_state_events|done].
    rewrite (each_keep (fun v => events (base v)) (to_error e)); [done|intros j v Hv; destruct (error_frame e j v Hv) as (_ & _ & _ & _ & -> & _); apply set_state_events|done].
Qed.
End losses.
Theorem C140_deleted sql e preds asg w id : NoDup (j_id <$> jobs (base w)) -> smooth e preds asg (base w) -> admin (user e) = true ->
  let w' := fst (notifications sql e preds asg w) in
  id ∈ f_job <$> frags (base w') <->
  id ∈ f_job <$> frags (base w) \/ script_fails e asg (base w) id \/ session_lost sql e preds (base w) id.
Proof.
  intros HU HS HA. cbn zeta. destruct (rows5 sql e preds asg w HU HS) as [-> _]. by apply rows2.
Qed.
Theorem C140_recorded sql e preds asg w id : NoDup (j_id <$> jobs (base w)) -> smooth e preds asg (base w) -> admin (user e) = true ->
  let w' := fst (notifications sql e preds asg w) in
  mkEv "LOST_SESSION" id "YES" ∈ events (base w') <-> mkEv "LOST_SESSION" id "YES" ∈ events (base w) \/ session_lost sql e preds (base w) id.
Proof.
  intros HU HS HA. cbn zeta. destruct (rows5 sql e preds asg w HU HS) as [_ ->].
  rewrite (proj2 (rows2 sql e preds asg w HU HS HA id) "LOST_SESSION"%string) by done.
  split; [intros [?|[[? _]|[_ ?]]]; [by left|done|by right]|intros [?|?]; [by left|by right; right]].
Qed.
Theorem C143_failed sql e preds asg w id : NoDup (j_id <$> jobs (base w)) -> smooth e preds asg (base w) -> admin (user e) = true ->
  let w' := fst (notifications sql e preds asg w) in
  (mkEv "RESUME_SCRIPT_ERROR" id "YES" ∈ events (base w') <-> mkEv "RESUME_SCRIPT_ERROR" id "YES" ∈ events (base w) \/ script_fails e asg (base w) id) /\
  (script_fails e asg (base w) id -> id ∈ f_job <$> frags (base w')).
Proof.
  intros HU HS HA. cbn zeta. destruct (rows5 sql e preds asg w HU HS) as [-> ->]. split.
  - rewrite (proj2 (rows2 sql e preds asg w HU HS HA id) "RESUME_SCRIPT_ERROR"%string) by done.
    split; [intros [?|[[_ ?]|[? _]]]; [by left|by right|done]|intros [?|?]; [by left|by right; left]].
  - intros H. apply rows2; try done. by right; left.
Qed.

(** ** External schedulers *)
Lemma no_bits rc : Z.shiftr rc 8 = 0 -> Z.land rc 127 = 0 -> Z.land rc 128 = 0 -> rc = 0.
Proof.
  intros H8 H7 H1. apply Z.bits_inj'. intros n Hn. rewrite Z.bits_0.
  destruct (Z.le_gt_cases 8 n) as [Hge|Hlt].
  - assert (E : Z.testbit (Z.shiftr rc 8) (n - 8) = false) by (rewrite H8; apply Z.bits_0).
    rewrite Z.shiftr_spec in E by lia. by replace (n - 8 + 8) with n in E by lia.
  - assert (E7 : Z.testbit (Z.land rc 127) n = false) by (rewrite H7; apply Z.bits_0).
    assert (E1 : Z.testbit (Z.land rc 128) n = false) by (rewrite H1; apply Z.bits_0).
    rewrite Z.land_spec in E7, E1.
    assert (Hc : n = 0 \/ n = 1 \/ n = 2 \/ n = 3 \/ n = 4 \/ n = 5 \/ n = 6 \/ n = 7) by lia.
    destruct Hc as [->|[->|[->|[->|[->|[->|[->| ->]]]]]]]; first [match type of E7 with _ && ?b = _ => change b with true in E7 end; by rewrite andb_true_r in E7|match type of E1 with _ && ?b = _ => change b with true in E1 end; by rewrite andb_true_r in E1].
Qed.
Theorem C142_stopped name rc qs q : q ∈ after_external name rc qs <->
  exists q0, q0 ∈ qs /\ q = (q0.1, if decide (q0.1 = name /\ rc <> Some 0) then "notActive"%string else q0.2).
Proof.
  assert (HE : (sched_end rc).1.1.1 = true <-> rc <> Some 0).
  { unfold sched_end. cbn [fst]. destruct rc as [rc|]; cbn [default from_option id negb orb]; [|done].
    split.
    - intros H [= ->]. vm_compute in H. discriminate.
    - intros H. destruct (Z.shiftr rc 8 =? 0) eqn:E8; [|by rewrite !orb_true_r]. destruct (Z.land rc 127 =? 0) eqn:E7; [|done].
      destruct (Z.land rc 128 =? 0) eqn:E1; [|done]. exfalso. apply H. f_equal. apply no_bits; lia. }
  unfold after_external. destruct (sched_end rc).1.1.1.
  - assert (Hr : rc <> Some 0) by (by apply HE). unfold stop_queue. rewrite elem_of_list_fmap.
    assert (Eq : forall q0, (if bool_decide (q0.1 = name) then (q0.1, "notActive"%string) else q0) = (q0.1, if decide (q0.1 = name /\ rc <> Some 0) then "notActive"%string else q0.2)).
    { intros q0. case_bool_decide; [rewrite decide_True by done; done|rewrite decide_False by tauto; by destruct q0]. }
    split; [intros (q0 & E & H)|intros (q0 & H & E)]; exists q0; rewrite E; (split; [|]); try done; rewrite Eq; done.
  - assert (Hr : ~ rc <> Some 0) by (intros Hr; by apply HE in Hr).
    split.
    + intros H. exists q. split; [done|]. rewrite decide_False by tauto. by destruct q.
    + intros (q0 & H & ->). rewrite decide_False by tauto. by destruct q0.
Qed.
(** The exit code written in the log is never the one of the scheduler: 1 is reported as "signal 1", a scheduler
    killed by the signal 9 as "exit code -1" and "signal 119". *)
Theorem C142_log_refuted : (sched_end (Some 1)).1 = (true, 0, 1) /\ (sched_end (Some (-9))).1 = (true, -1, 119).
Proof. by vm_compute. Qed.
Theorem C142_example : after_external "default" (Some 1) [("default", "Active"); ("admin", "Active")]%string = [("default", "notActive"); ("admin", "Active")]%string /\
  after_external "default" (Some 0) [("default", "Active")]%string = [("default", "Active")]%string.
Proof. by vm_compute. Qed.

(** ** An example *)
Definition mkj (id : Z) (st ty resv : string) (start : Z) : job := mkJob id "alice" st ty "default" start 0 "NO" (100 + id) resv [].
Definition ex_db : db := mkDb
  [mkj 1 "toError" "PASSIVE" "Scheduled" 500; mkj 2 "toAckReservation" "PASSIVE" "Scheduled" 1001; mkj 3 "toAckReservation" "INTERACTIVE" "Scheduled" 5000;
   mkj 4 "Waiting" "INTERACTIVE" "None" 0; mkj 5 "Waiting" "INTERACTIVE" "None" 0; mkj 6 "toLaunch" "PASSIVE" "None" 1000; mkj 7 "Resuming" "PASSIVE" "None" 10;
   mkj 8 "toLaunch" "PASSIVE" "None" 1000]
  [] [] [] [mkMld 104 4 3600; mkMld 105 5 3600] [].
Definition ex_env : env := mkEnv 1000 "oar" (fun _ => "front:6668"%string) (fun _ => "a message"%string) (fun id _ => negb (id =? 5)) (fun _ => true) (Some (fun _ => Some 3)) None.
Definition ex_w : world := mkW ex_db [] [8] [8] [] 0.
Definition ex_sql (t : Z) : string := "a date".
(** Nothing is assigned to job 7, so nobody is on its resources. *)
Theorem C137_example : NoDup (j_id <$> jobs (base ex_w)) /\ smooth ex_env [(104, 2000); (105, 3000)] [] (base ex_w).
Proof.
  split; [by_dec|]. apply (C137_ends ex_sql ex_env [(104, 2000); (105, 3000)] [] ex_w); [by_dec|]. by vm_compute.
Qed.
Theorem C136_example : let w' := fst (notifications ex_sql ex_env [(104, 2000); (105, 3000)] [] ex_w) in
  (j_state <$> jobs (base w')) = ["Error"; "Waiting"; "Waiting"; "Waiting"; "Waiting"; "toLaunch"; "Resuming"; "toLaunch"]%string /\
  (fun x => x.1.1.1) <$> told w' = [4; 1; 1; 2; 3] /\ ordered w' = [8; 6] /\ code w' = 1 /\ f_job <$> frags (base w') = [7; 5].
Proof. by vm_compute. Qed.
(** An accepted reservation submitted through the API has no port: "front:". *)
Theorem C137_api_refuted : let e := mkEnv 1000 "oar" (fun id => if id =? 2 then "front:"%string else "front:6668"%string) (fun _ => ""%string) (fun _ _ => true) (fun _ => true) None None in
  let r := notifications ex_sql e [] [(107, 1)] ex_w in
  snd r = Some EValue /\ ordered (fst r) = [8] /\ (j_state <$> jobs (base (fst r))) = ["Error"; "toAckReservation"; "toAckReservation"; "Waiting"; "Waiting"; "toLaunch"; "Resuming"; "toLaunch"]%string.
Proof. by vm_compute. Qed.
(** With the default configuration (no JUST_BEFORE_RESUME_EXEC_FILE), the first job to resume stops the rounds. *)
Theorem C137_resume_refuted sql e preds asg w j : NoDup (j_id <$> jobs (base w)) -> j ∈ jobs (base w) -> j_state j = "Resuming"%string -> ~ contended asg (base w) j ->
  script e = None \/ "noop"%string ∈ j_types j -> snd (notifications sql e preds asg w) <> None.
Proof. intros HU Hj Hs Hc Hn H%phases_none; [|done]. destruct (sm_resume _ _ _ _ H j Hj Hs) as [?|[? ?]]; [done|]. by destruct Hn. Qed.
Print Assumptions C136_address.
Print Assumptions C136_verdicts.
Print Assumptions C137_ends.
Print Assumptions C143_never_refuted.
Print Assumptions C137_blocked_refuted.
Print Assumptions C138_orders.
Print Assumptions C138_once.
Print Assumptions C138_again.
Print Assumptions C139_shown.
Print Assumptions C139_fresh.
Print Assumptions C139_cut_refuted.
Print Assumptions C139_example.
Print Assumptions C141_code.
Print Assumptions C140_deleted.
Print Assumptions C140_recorded.
Print Assumptions C143_failed.
Print Assumptions C142_stopped.
Print Assumptions C142_log_refuted.
Print Assumptions C142_example.
Print Assumptions C137_example.
Print Assumptions C136_example.
Print Assumptions C137_api_refuted.
Print Assumptions C137_resume_refuted.
Print Assumptions C136_predicted.
