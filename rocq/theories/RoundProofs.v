(** Lemmas on the end of a round. *)
From Coq Require Import Ascii.
From Verif Require Import Base JobModel JobProofs RoundModel RoundSpec.
From Verif Require Import ReqSpec.
From Verif Require ReqModel ReqProps.

(** ** Addresses *)
Lemma split_on_ne c s : exists w ws, ReqModel.split_on c s = w :: ws.
Proof. destruct s as [|a s]; cbn; [eauto|]. destruct (bool_decide (a = c)); [eauto|]. destruct (ReqModel.split_on c s); eauto. Qed.
Lemma split_on_one c s w : ReqModel.split_on c s = [w] -> w = s /\ lacks [c] s.
Proof.
  revert w. induction s as [|a s IH]; intros w; cbn [ReqModel.split_on lacks].
  - intros [= <-]. done.
  - case_bool_decide as E.
    + destruct (split_on_ne c s) as (x & xs & Hx). rewrite Hx. intros [=].
    + destruct (split_on_ne c s) as (x & xs & Hx). rewrite Hx. intros [= <- ->].
      destruct (IH x Hx) as [-> HL]. split; [done|]. split; [|done]. intros [->|H]%elem_of_cons; [done|by apply elem_of_nil in H].
Qed.
Lemma split_on_two c s a p : ReqModel.split_on c s = [a; p] -> s = a +:+ String c p /\ lacks [c] a /\ lacks [c] p.
Proof.
  revert a. induction s as [|x s IH]; intros a; cbn [ReqModel.split_on]; [intros [=]|].
  case_bool_decide as E.
  - intros [= <- H]. apply split_on_one in H as [-> HL]. subst x. done.
  - destruct (split_on_ne c s) as (y & ys & Hy). rewrite Hy. intros [= <- ->].
    destruct (IH y Hy) as (-> & H1 & H2). split; [done|]. split; [|done]. split; [|done].
    intros [->|H]%elem_of_cons; [done|by apply elem_of_nil in H].
Qed.
Lemma addr_port_some e id a p : addr_port (info e id) = Some (a, p) <-> at_address e id a p.
Proof.
  unfold addr_port, at_address. split.
  - intros H. apply split_on_two. destruct (ReqModel.split_on ":" (info e id)) as [|x [|y [|z l]]]; try discriminate. congruence.
  - intros (-> & H1 & H2). rewrite (ReqProps.split_on_sep _ _ _ H1), (ReqProps.split_on_lacks _ _ H2). done.
Qed.
Lemma all_digits_spec s : all_digits s = true <-> digits s.
Proof.
  induction s as [|c s IH]; cbn [all_digits digits]; [done|]. rewrite andb_true_iff, IH.
  unfold is_digit. generalize (nat_of_ascii c) as n. intros n.
  split; intros [H ?]; (split; [lia|done]).
Qed.
Lemma is_port_spec p : is_port p = true <-> number p.
Proof. unfold is_port, number. rewrite andb_true_iff, negb_true_iff, bool_decide_eq_false, all_digits_spec. done. Qed.
Lemma has_client_spec e id : has_client e id <-> exists a p, addr_port (info e id) = Some (a, p) /\ is_port p = true.
Proof.
  unfold has_client. split; intros (a & p & H1 & H2); exists a, p.
  - rewrite addr_port_some, is_port_spec. done.
  - rewrite <- addr_port_some, <- is_port_spec. done.
Qed.
Lemma notifies_spec j : notifies_error j = true <-> waits_for_verdict j.
Proof. unfold notifies_error, waits_for_verdict. rewrite orb_true_iff, andb_true_iff, !bool_decide_eq_true. done. Qed.

(** ** Sequences of steps *)
Lemma andthen_none r k : snd (andthen r k) = None <-> snd r = None /\ snd (k (fst r)) = None.
Proof. destruct r as [w [e|]]; cbn; [|tauto]. split; [discriminate|by intros []]. Qed.
Lemma andthen_fst r k : snd r = None -> andthen r k = k (fst r).
Proof. destruct r as [w [e|]]; cbn; [discriminate|done]. Qed.
Lemma each_inv {A} (J : world -> Prop) (f : A -> world -> step) l w :
  (forall a w, J w -> J (fst (f a w))) -> J w -> J (fst (each f l w)).
Proof.
  intros Hf. revert w. induction l as [|a l IH]; intros w HJ; cbn [each]; [done|].
  pose proof (Hf a w HJ) as Ha. destruct (f a w) as [w' [e|]]; cbn [andthen fst] in *; [done|]. by apply IH.
Qed.
Lemma each_none {A} (J : world -> Prop) (ok : A -> Prop) (f : A -> world -> step) l w :
  (forall a w, J w -> J (fst (f a w))) -> (forall a w, J w -> (snd (f a w) = None <-> ok a)) -> J w ->
  snd (each f l w) = None <-> Forall ok l.
Proof.
  intros Hf Hok. revert w. induction l as [|a l IH]; intros w HJ; cbn [each]; [by split; [constructor|]|].
  rewrite andthen_none, (Hok a w HJ), (IH _ (Hf a w HJ)), Forall_cons. done.
Qed.
Lemma each_ok {A} (ok : A -> Prop) (f : A -> world -> step) (g : A -> world -> world) l w :
  (forall a w, ok a -> f a w = (g a w, None)) -> Forall ok l -> each f l w = (fold_left (fun w a => g a w) l w, None).
Proof.
  intros Hf HF. revert w. induction HF as [|a l Ha HF IH]; intros w; cbn [each fold_left]; [done|].
  rewrite (Hf a w Ha). cbn [andthen]. apply IH.
Qed.

(** ** The steps, when they go through *)
Definition say (e : env) (id : Z) (text : string) (w : world) : world :=
  mkW (base w) (told w ++ delivered e id text) (ordered w) (treated w) (asked w) (code w).
Lemma notify_ok e id a p text w k : addr_port (info e id) = Some (a, p) -> is_port p = true ->
  notify_tcp e id a p text w k = k (reach e id text) (say e id text w).
Proof.
  intros Ha Hp. unfold notify_tcp, say, delivered. rewrite Hp, Ha. destruct (reach e id text); [done|].
  rewrite app_nil_r. by destruct w.
Qed.
Definition error_w (e : env) (j : job) (w : world) : world :=
  with_base (set_job_state (now e) (j_id j) "Error")
    (if notifies_error j then say e (j_id j) ("BAD JOB" +:+ newline) (say e (j_id j) (message e (j_id j) +:+ newline) w) else w).
Definition error_ok (e : env) (j : job) : Prop :=
  (exists a p, at_address e (j_id j) a p) /\ (waits_for_verdict j -> has_client e (j_id j)).
Lemma to_error_ok e j w : error_ok e j -> to_error e j w = (error_w e j w, None).
Proof.
  intros [(a & p & Ha) Hc]. apply addr_port_some in Ha. unfold to_error, error_w. rewrite Ha.
  destruct (notifies_error j) eqn:E; [|done]. apply notifies_spec in E. apply Hc, has_client_spec in E as (a' & p' & Ha' & Hp).
  rewrite Ha in Ha'. injection Ha' as <- <-. rewrite !(notify_ok e (j_id j) a p) by done. done.
Qed.
Lemma to_error_none e j w : snd (to_error e j w) = None <-> error_ok e j.
Proof.
  split; [|intros H; by rewrite to_error_ok].
  unfold to_error, error_ok. destruct (addr_port (info e (j_id j))) as [[a p]|] eqn:Ha; [|discriminate].
  intros H. split; [exists a, p; by apply addr_port_some|]. intros Hv%notifies_spec. rewrite Hv in H.
  apply has_client_spec. exists a, p. split; [done|]. unfold notify_tcp in H. by destruct (is_port p).
Qed.
Definition ack_w (e : env) (j : job) (w : world) : world :=
  let w := with_base (set_job_state (now e) (j_id j) "Waiting") (say e (j_id j) ("GOOD RESERVATION" +:+ newline) w) in
  if (j_start j - 1 <=? now e) && (code w =? 0) then with_code 1 w else w.
Definition ack_ok (e : env) (j : job) : Prop := has_client e (j_id j) /\ reach e (j_id j) ("GOOD RESERVATION" +:+ newline) = true.
Lemma to_ack_ok e j w : ack_ok e j -> to_ack e j w = (ack_w e j w, None).
Proof.
  intros [(a & p & Ha & Hp)%has_client_spec Hr]. unfold to_ack, ack_w. rewrite Ha, (notify_ok e (j_id j) a p), Hr by done. done.
Qed.
Lemma to_ack_none e j w : snd (to_ack e j w) = None <-> ack_ok e j.
Proof.
  split; [|intros H; by rewrite to_ack_ok].
  unfold to_ack, ack_ok. destruct (addr_port (info e (j_id j))) as [[a p]|] eqn:Ha; [|discriminate].
  unfold notify_tcp. destruct (is_port p) eqn:Hp; [|discriminate].
  destruct (reach e (j_id j) ("GOOD RESERVATION" +:+ newline)) eqn:Hr; [|discriminate].
  intros _. split; [|done]. apply has_client_spec. eauto.
Qed.
Definition order_w (e : env) (id : Z) (w : world) : world :=
  if bool_decide (id ∈ treated w) then w else if commander e id then with_order id w else w.
Lemma to_launch_ok e id w : to_launch e id w = (order_w e id w, None).
Proof. done. Qed.
Definition lost (e : env) (id : Z) (ty : string) (w : world) : world :=
  with_asked "Qdel" (with_base (fun d => snd (frag_job (now e) (user e) id (add_event ty id d))) w).
Definition predict_w (sql : Z -> string) (e : env) (x : job * Z) (w : world) : world :=
  let '(j, t) := x in
  let text := prediction_text sql e j t in
  let w := say e (j_id j) text w in
  if reach e (j_id j) text then w else lost e (j_id j) "LOST_SESSION" w.
Lemma predict_ok sql e x w : has_client e (j_id x.1) -> tell_prediction sql e x w = (predict_w sql e x w, None).
Proof.
  destruct x as [j t]. cbn [fst]. intros (a & p & Ha & Hp)%has_client_spec. unfold tell_prediction, predict_w, lost.
  rewrite Ha, (notify_ok e (j_id j) a p) by done. by destruct (reach _ _ _).
Qed.
Lemma predict_none sql e x w : snd (tell_prediction sql e x w) = None <-> has_client e (j_id x.1).
Proof.
  split; [|intros H; by rewrite predict_ok].
  destruct x as [j t]. cbn [fst]. unfold tell_prediction. destruct (addr_port (info e (j_id j))) as [[a p]|] eqn:Ha; [|discriminate].
  unfold notify_tcp. destruct (is_port p) eqn:Hp; [|discriminate]. intros _. apply has_client_spec. eauto.
Qed.
Definition resume_w (e : env) (run : Z -> option Z) (asg : list (Z * Z)) (j : job) (w : world) : world :=
  match others asg (base w) (j_id j) with
  | _ :: _ => w
  | [] => let w := match run (j_id j) with None => with_base (add_event "RESUME_SCRIPT_ERROR" (j_id j)) w | Some _ => w end in
          if bool_decide (run (j_id j) = Some 0) then w else lost e (j_id j) "RESUME_SCRIPT_ERROR" w
  end.

(** What a step keeps *)
Definition same_jobs (w0 : world) (w : world) : Prop := jobs (base w) = jobs (base w0) /\ mlds (base w) = mlds (base w0).
Lemma frag_job_jobs date u id d : jobs (snd (frag_job date u id d)) = jobs d /\ mlds (snd (frag_job date u id d)) = mlds d /\ logs (snd (frag_job date u id d)) = logs d.
Proof.
  unfold frag_job. destruct (get_job d id); [|done]. destruct (_ || _); [|done]. destruct (filter _ (frags d)); done.
Qed.
Lemma lost_same e id ty w0 w : same_jobs w0 w -> same_jobs w0 (lost e id ty w).
Proof.
  unfold same_jobs, lost. cbn [base with_asked with_base]. destruct (frag_job_jobs (now e) (user e) id (add_event ty id (base w))) as (-> & -> & _). done.
Qed.
Lemma resume_same e asg w0 j w : same_jobs w0 w -> same_jobs w0 (fst (resume e asg j w)).
Proof.
  intros H. unfold resume. destruct (others _ _ _); [|done]. destruct (bool_decide _); [done|]. destruct (script e) as [run|]; [|done].
  destruct (run (j_id j)) as [c|] eqn:Er.
  - destruct (bool_decide (Some c = Some 0)); cbn [fst]; [done|]. by apply (lost_same e).
  - cbn [fst]. rewrite bool_decide_eq_false_2 by done. apply (lost_same e _ _ w0 (with_base _ w)). done.
Qed.
Lemma predict_same sql e w0 x w : same_jobs w0 w -> same_jobs w0 (fst (tell_prediction sql e x w)).
Proof.
  intros H. destruct x as [j t]. unfold tell_prediction. destruct (addr_port _) as [[a p]|]; [|done].
  unfold notify_tcp. destruct (is_port p); [|done]. destruct (reach _ _ _); cbn [fst]; [done|]. by apply (lost_same e).
Qed.

(** ** Who is read *)
Lemma in_state_in st d j : j ∈ in_state st d <-> j_state j = st /\ j ∈ jobs d.
Proof. unfold in_state. rewrite elem_of_list_filter. done. Qed.
Lemma waiting_in preds d j t : (j, t) ∈ waiting_interactive preds d <-> predicted preds d j t.
Proof.
  unfold waiting_interactive, predicted. rewrite elem_of_list_bind. split.
  - intros (j' & H & Hj'). apply elem_of_list_bind in H as (m & H & Hm). apply elem_of_list_bind in H as (p & H & Hp).
    apply elem_of_list_singleton in H. injection H as -> ->. apply elem_of_list_filter in Hj' as [(? & ? & ?) ?].
    apply elem_of_list_filter in Hm as [? ?]. apply elem_of_list_filter in Hp as [Hp1 Hp2].
    split; [done|]. split; [done|]. split; [done|]. split; [done|]. exists m. split; [done|]. split; [done|].
    destruct p as [p1 p2]. cbn in *. by subst p1.
  - intros (H1 & H2 & H3 & H4 & m & H5 & H6 & H7). exists j. split; [|by apply elem_of_list_filter].
    apply elem_of_list_bind. exists m. split; [|by apply elem_of_list_filter].
    apply elem_of_list_bind. exists (m_id m, t). split; [by apply elem_of_list_singleton|by apply elem_of_list_filter].
Qed.
Lemma others_nil asg d j : uniq d -> j ∈ jobs d -> others asg d (j_id j) <> [] <-> contended asg d j.
Proof.
  intros HU Hj. unfold others, contended. split.
  - intros H. destruct (mbind _ _) as [|x l] eqn:E; [done|]. assert (Hx : x ∈ x :: l) by (apply elem_of_cons; by left). rewrite <- E in Hx. clear E H.
    apply elem_of_list_bind in Hx as (j1 & H & Hj1). apply elem_of_list_bind in H as (j2 & H & Hj2).
    apply elem_of_list_bind in H as (a1 & H & Ha1).
    apply elem_of_list_filter in Hj1 as [E1 Hj1]. assert (j1 = j) as -> by (by apply (uniq_eq d)).
    apply elem_of_list_filter in Hj2 as [[N2 S2] Hj2]. apply elem_of_list_filter in Ha1 as [E2 Ha1].
    split; [exists a1.2; rewrite <- E2; by destruct a1|]. exists j2. split; [done|]. split; [congruence|done].
  - intros [(r & Hr) (j2 & Hj2 & N2 & S2)] E.
    assert (Hx : j_id j2 ∈ ([] : list Z)); [|by apply elem_of_nil in Hx]. rewrite <- E.
    apply elem_of_list_bind. exists j. split; [|by apply elem_of_list_filter].
    apply elem_of_list_bind. exists j2. split; [|apply elem_of_list_filter; split; [split; [congruence|done]|done]].
    apply elem_of_list_bind. exists (j_mld j, r). split; [|by apply elem_of_list_filter].
    apply elem_of_list_bind. exists (j_mld j, r). split; [by apply elem_of_list_singleton|by apply elem_of_list_filter].
Qed.
Lemma others_same asg d d' id : jobs d' = jobs d -> others asg d' id = others asg d id.
Proof. intros H. unfold others. by rewrite H. Qed.
Lemma waiting_same preds d d' : jobs d' = jobs d -> mlds d' = mlds d -> waiting_interactive preds d' = waiting_interactive preds d.
Proof. intros H1 H2. unfold waiting_interactive. by rewrite H1, H2. Qed.
