(** Launch of a job (LaunchModel): what is proved.  C126-C135. *)
From Coq Require Import Ascii.
From Verif Require Import Base LaunchModel LaunchSpec.
From Verif Require JobModel JobKill.

(** * Traces *)
Global Instance act_eq : EqDecision act.
Proof. solve_decision. Defined.
Lemma trace_tell l r : trace (tell l r) = l ++ trace r.
Proof. done. Qed.
Lemma heads_app l l' : heads (l ++ l') = heads l ++ heads l'.
Proof. apply bind_app. Qed.
Lemma state_after_app st l l' : state_after st (l ++ l') = state_after (state_after st l) l'.
Proof. apply fold_left_app. Qed.
Lemma record_acts evs : Forall (fun a => exists ty hs, a = AEvent ty hs) (record evs).1.
Proof.
  induction evs as [|[ty|ty [hs|]] r IH]; cbn; [done| | |done]; destruct (record r) as [l e]; cbn in *;
    (constructor; [eauto|done]).
Qed.
(** The actions that neither start the job nor change its state. *)
Definition quiet (a : act) : Prop := match a with AExec _ | ASet _ => False | _ => True end.
Lemma quiet_heads l : Forall quiet l -> heads l = [].
Proof. induction 1 as [|a l Ha _ IH]; [done|]. destruct a; cbn in *; done || exact IH. Qed.
Lemma quiet_state l st : Forall quiet l -> state_after st l = st.
Proof. induction 1 as [|a l Ha _ IH] in st |- *; [done|]. destruct a; cbn in *; done || apply IH. Qed.
Lemma epilogue_quiet o : Forall quiet (epilogue_events o).1.
Proof. destruct o as [[]|]; cbn; repeat constructor. Qed.
Lemma clean_quiet f ts : Forall quiet (clean_events f ts).1.
Proof. unfold clean_events. case_bool_decide; [constructor|]. destruct (f_cnodes f) as [[|h hs]|]; cbn; repeat constructor. Qed.
Lemma ping_quiet f ts hs : Forall quiet (ping_events f ts hs).1.
Proof. unfold ping_events. destruct (f_ping f); [|constructor]. case_bool_decide; cbn; repeat constructor. Qed.
Lemma finishing_quiet f ts hs evs : Forall quiet (finishing f ts hs evs).1.
Proof.
  unfold finishing. pose proof (epilogue_quiet (f_epilogue f)). pose proof (clean_quiet f ts).
  pose proof (ping_quiet f ts hs). destruct (epilogue_events _) as [a1 e1], (clean_events _ _) as [a2 e2], (ping_events _ _ _) as [a3 e3].
  pose proof (record_acts (evs ++ e1 ++ e2 ++ e3)) as Hr. destruct (record _) as [l e]; cbn in *.
  repeat (apply Forall_app; split); try done.
  - eapply Forall_impl; [exact Hr|]. intros a (ty & h & ->). done.
  - destruct e, (evs ++ e1 ++ e2 ++ e3); repeat constructor.
Qed.
Lemma prologue_quiet j o c : Forall quiet (call_prologue j o c).1.
Proof. destruct o as [[]|]; cbn; try destruct (interactive j); repeat constructor. Qed.


Lemma sublist_filter0 {A} (P : A -> Prop) {HP : forall x, Decision (P x)} (l : list A) : sublist (base.filter P l) l.
Proof.
  induction l as [|x l IH]; [constructor|]. rewrite filter_cons. destruct (decide (P x)); by constructor.
Qed.

Lemma filter_none0 {A} (P : A -> Prop) {HP : forall x, Decision (P x)} (l : list A) : (forall x, x ∈ l -> ~ P x) -> base.filter P l = [].
Proof.
  induction l as [|x l IH]; intros H; [done|]. rewrite filter_cons_False; [|apply H; apply elem_of_cons; by left].
  apply IH. intros y Hy. apply H. apply elem_of_cons. by right.
Qed.

(** * The forms of a run *)
Lemma tell_app l l' r : tell l (tell l' r) = tell (l ++ l') r.
Proof. unfold tell; cbn. by rewrite app_assoc. Qed.
Lemma tell_nil r : tell [] r = r.
Proof. by destruct r. Qed.
Lemma interactive_resv j : interactive j = true -> l_resv j = "None"%string.
Proof. unfold interactive. intros H%bool_decide_eq_true. tauto. Qed.

(** The end of a job: "Finishing", then quiet actions. *)
Lemma check_end_form f st ts hs e c : exists l x, check_end f st ts hs e c = tell l (mkRun [] c x) /\
  ((st ∉ end_states /\ Forall quiet l /\ x = None) \/
   (st ∈ end_states /\ exists l', l = ASet "Finishing" :: l' /\ Forall quiet l' /\
      ((x = Some EIndex /\ hs = [] /\ (JobModel.end_events e).2 = true) \/
       (((JobModel.end_events e).2 = false \/ hs <> []) /\
        exists l'', l' = (finishing f ts hs (Pair <$> (JobModel.end_events e).1)).1 ++ l'' /\ 
         x = (finishing f ts hs (Pair <$> (JobModel.end_events e).1)).2)))).
Proof.
  unfold check_end. destruct (decide (st ∈ end_states)) as [Hst|Hst].
  2:{ rewrite bool_decide_eq_false_2 by done. eexists _, None. split; [reflexivity|]. left.
      split; [done|]. split; [repeat constructor|done]. }
  rewrite bool_decide_eq_true_2 by done.
  destruct ((JobModel.end_events e).2 && bool_decide (hs = [])) eqn:Hb.
  - apply andb_true_iff in Hb as [Hb Hh%bool_decide_eq_true].
    exists [ASet "Finishing"], (Some EIndex). split; [reflexivity|]. right. split; [done|].
    exists []. split; [done|]. split; [constructor|]. left. done.
  - assert ((JobModel.end_events e).2 = false \/ hs <> []) as Hor.
    { destruct ((JobModel.end_events e).2); [|tauto]. cbn in Hb. apply bool_decide_eq_false in Hb. tauto. }
    pose proof (finishing_quiet f ts hs (Pair <$> (JobModel.end_events e).1)) as Hq.
    destruct (finishing f ts hs (Pair <$> (JobModel.end_events e).1)) as [l x]. cbn [fst snd] in *.
    destruct x as [x|]; rewrite tell_app; eexists _, _; (split; [reflexivity|]); right; (split; [done|]); eexists;
      (split; [reflexivity|]).
    + split; [done|]. right. split; [done|]. exists []. by rewrite app_nil_r.
    + split.
      { rewrite Forall_app. split; [done|]. destruct (notify_term e); repeat constructor. }
      right. split; [done|]. eexists. split; reflexivity.
Qed.

(** The start: the prologues, then the command or "Running". *)
Definition prologues (j : ljob) (w : world) : list act * Z :=
  let '(a1, c1) := call_prologue j (fst <$> prologue w) 0 in
  let '(a2, c2) := call_prologue j (snd <$> prologue w) c1 in (a1 ++ a2, c2).
Lemma prologues_quiet j w : Forall quiet (prologues j w).1.
Proof.
  unfold prologues. pose proof (prologue_quiet j (fst <$> prologue w) 0) as H1.
  destruct (call_prologue j (fst <$> prologue w) 0) as [a1 c1].
  pose proof (prologue_quiet j (snd <$> prologue w) c1) as H2.
  destruct (call_prologue j (snd <$> prologue w) c1) as [a2 c2]. cbn [fst] in *. by apply Forall_app.
Qed.
Lemma start_form' f j w hs : let pre := (prologues j w).1 in let c := (prologues j w).2 in
  ((has_type "noop" j = true /\ start f j w hs = tell (pre ++ [ASet "Running"]) (stop c)) \/
   (has_type "noop" j = false /\ exec_ok w = true /\ exists post, Forall quiet post /\
      (interactive j = true -> client w = false -> post = [ANotify "GOOD JOB"; AAlmighty "Qdel"]%string) /\
      start f j w hs = tell (pre ++ [AExec (head_node j w hs); ASet "Running"] ++ post) (stop c)) \/
   (has_type "noop" j = false /\ exec_ok w = false /\ exists post, Forall quiet post /\
      (interactive j = true -> ANotify "ERROR: an error occured on the first job node" ∈ post) /\
      start f j w hs = tell (pre ++ AExec (head_node j w hs) :: post) (check_end f "Launching" (l_types j) hs 50 c))).
Proof.
  cbv zeta. unfold start, prologues.
  destruct (call_prologue j (fst <$> prologue w) 0) as [a1 c1].
  destruct (call_prologue j (snd <$> prologue w) c1) as [a2 c2]. cbn [fst snd].
  destruct (has_type "noop" j).
  - left. split; [done|]. by rewrite tell_app.
  - right. destruct (exec_ok w).
    + left. split; [done|]. split; [done|].
      destruct (interactive j).
      * destruct (client w).
        -- exists [ANotify "GOOD JOB"]. split; [repeat constructor|]. split; [done|]. by rewrite !tell_app, <- ?app_assoc.
        -- exists [ANotify "GOOD JOB"; AAlmighty "Qdel"]. split; [repeat constructor|].
           split; [done|]. by rewrite !tell_app, <- ?app_assoc.
      * exists []. split; [constructor|]. split; [done|]. by rewrite !tell_app, <- ?app_assoc.
    + right. split; [done|]. split; [done|].
      exists (if interactive j then [ANotify "ERROR: an error occured on the first job node"] else []).
      split; [destruct (interactive j); repeat constructor|].
      split; [intros ->; apply elem_of_cons; by left|]. by rewrite !tell_app, <- ?app_assoc.
Qed.
Lemma start_form f j w hs : exists pre c, Forall quiet pre /\
  ((has_type "noop" j = true /\ start f j w hs = tell (pre ++ [ASet "Running"]) (stop c)) \/
   (has_type "noop" j = false /\ exec_ok w = true /\ exists post, Forall quiet post /\
      start f j w hs = tell (pre ++ [AExec (head_node j w hs); ASet "Running"] ++ post) (stop c)) \/
   (has_type "noop" j = false /\ exec_ok w = false /\ exists post, Forall quiet post /\
      start f j w hs = tell (pre ++ AExec (head_node j w hs) :: post) (check_end f "Launching" (l_types j) hs 50 c))).
Proof.
  exists (prologues j w).1, (prologues j w).2. split; [apply prologues_quiet|].
  destruct (start_form' f j w hs) as [H|[(H1 & H2 & post & H3 & _ & H4)|(H1 & H2 & post & H3 & _ & H4)]].
  - left. exact H.
  - right; left. split; [exact H1|]. split; [exact H2|]. exists post. split; [exact H3|exact H4].
  - right; right. split; [exact H1|]. split; [exact H2|]. exists post. split; [exact H3|exact H4].
Qed.

(** A run that goes on with the start on [hs], stops with an event, or dies. *)
Definition goes (f : finworld) (j : ljob) (w : world) (r : run) (hs : list string) : Prop :=
  exists pre, Forall quiet pre /\ r = tell pre (start f j w hs).
Definition ends (j : ljob) (r : run) : Prop :=
  exists pre, Forall quiet pre /\ ((exists ty h, AEvent ty h ∈ pre) /\
    (interactive j = true -> ANotify "ERROR: some resources did not respond" ∈ pre)) /\ r = tell pre (stop 2).
Definition dies (r : run) : Prop := exists pre, Forall quiet pre /\ r = tell pre (crash 0 EType).
Lemma goes_tell f j w l r hs : Forall quiet l -> goes f j w r hs -> goes f j w (tell l r) hs.
Proof. intros Hl (pre & Hp & ->). exists (l ++ pre). rewrite tell_app. split; [by apply Forall_app|done]. Qed.
Lemma ends_tell j l r : Forall quiet l -> ends j r -> ends j (tell l r).
Proof.
  intros Hl (pre & Hp & ((ty & h & Hin) & Hi) & ->). exists (l ++ pre). rewrite tell_app. split; [by apply Forall_app|].
  split; [|done]. split.
  - exists ty, h. apply elem_of_app. by right.
  - intros H. apply elem_of_app. right. by apply Hi.
Qed.
Lemma dies_tell l r : Forall quiet l -> dies r -> dies (tell l r).
Proof. intros Hl (pre & Hp & ->). exists (l ++ pre). rewrite tell_app. split; [by apply Forall_app|done]. Qed.

Lemma suspects_form f j w ty hs bad hs' : 
  (l_resv j = "None"%string /\ ends j (suspects j ty hs bad (start f j w hs'))) \/
  (l_resv j <> "None"%string /\ (forall h, h ∈ hs -> h ∈ bad) /\ dies (suspects j ty hs bad (start f j w hs'))) \/
  (l_resv j <> "None"%string /\ (exists h, h ∈ hs /\ h ∉ bad) /\ goes f j w (suspects j ty hs bad (start f j w hs')) hs').
Proof.
  unfold suspects. destruct (interactive j) eqn:Hi.
  - left. split; [by apply interactive_resv|]. eexists. split; [|split; [|reflexivity]]; [repeat constructor|].
    split; [eexists _, _; apply elem_of_cons; right; apply elem_of_cons; by left|]. intros _. apply elem_of_cons. by left.
  - destruct (decide (l_resv j = "None"%string)) as [Hr|Hr].
    + rewrite (bool_decide_eq_true_2 _ Hr). left. split; [done|]. eexists. split; [|split; [|reflexivity]]; [repeat constructor|].
      split; [eexists _, _; apply elem_of_cons; by left|]. congruence.
    + rewrite (bool_decide_eq_false_2 _ Hr). right. destruct (base.filter (fun h => h ∉ bad) hs) as [|h r] eqn:Hf.
      * left. split; [done|]. split.
        { intros h Hh. destruct (decide (h ∈ bad)) as [|Hn]; [done|].
          assert (h ∈ base.filter (fun h => h ∉ bad) hs) as Hx by (apply elem_of_list_filter; done).
          rewrite Hf in Hx. by apply elem_of_nil in Hx. }
        rewrite bool_decide_eq_true_2 by done. exists []. split; [constructor|]. by rewrite tell_nil.
      * right. split; [done|]. split.
        { exists h. assert (h ∈ base.filter (fun h => h ∉ bad) hs) as Hx by (rewrite Hf; apply elem_of_cons; by left).
          apply elem_of_list_filter in Hx. tauto. }
        rewrite bool_decide_eq_false_2 by done. eexists. split; [|reflexivity]. repeat constructor.
Qed.

(** The hosts on which the launch goes on after the checks: [bad] is what the checks found, for the remaining hosts
    [hs]. *)
Lemma check_nodes_form f j w hs bad :
  (l_resv j = "None"%string /\ ends j (check_nodes f j w hs bad)) \/
  (l_resv j <> "None"%string /\ dies (check_nodes f j w hs bad)) \/
  (goes f j w (check_nodes f j w hs bad) hs /\
   ((bad = [] /\ (ping w hs = Some [] \/ (ping w hs = None /\ hs = []))) \/ l_resv j <> "None"%string)).
Proof.
  unfold check_nodes. destruct bad as [|b bad].
  - destruct (ping w hs) as [[|p ps]|] eqn:Hp.
    + right; right. split; [|left; auto]. apply goes_tell; [repeat constructor|].
      exists []. split; [constructor|]. by rewrite tell_nil.
    + destruct (suspects_form f j w "PING_CHECKER_NODE_SUSPECTED" hs (p :: ps) hs) as [[? ?]|[(? & _ & ?)|(? & _ & ?)]].
      * left. split; [done|]. apply ends_tell; [repeat constructor|done].
      * right; left. split; [done|]. apply dies_tell; [repeat constructor|done].
      * right; right. split; [|by right]. apply goes_tell; [repeat constructor|done].
    + destruct hs as [|h hs].
      * right; right. split; [|left; auto]. apply goes_tell; [repeat constructor|].
        exists []. split; [constructor|]. by rewrite tell_nil.
      * destruct (suspects_form f j w "PING_CHECKER_NODE_SUSPECTED" (h :: hs) (h :: hs) (h :: hs)) as [[? ?]|[(? & _ & ?)|(? & _ & ?)]].
        -- left. split; [done|]. apply ends_tell; [repeat constructor|done].
        -- right; left. split; [done|]. apply dies_tell; [repeat constructor|done].
        -- right; right. split; [|by right]. apply goes_tell; [repeat constructor|done].
  - destruct (suspects_form f j w "CPUSET_ERROR" hs (b :: bad) hs) as [[? ?]|[(? & _ & ?)|(? & _ & ?)]]; tauto.
Qed.

(** The forms of a launch of a job in state toLaunch. *)
Lemma launch_form f j w : l_state j = "toLaunch"%string -> exists r, launch f j w = tell [ASet "Launching"] r /\
  ((l_resv j = "None"%string /\ ends j r) \/ (l_resv j <> "None"%string /\ dies r) \/
   (exists hs, goes f j w r hs /\ (l_resv j = "None"%string -> hs = l_hosts j) /\ sublist hs (l_hosts j))).
Proof.
  intros Hs. unfold launch. rewrite (bool_decide_eq_true_2 _ Hs).
  match goal with |- context [tell _ ?k] => set (r := k) end.
  assert ((l_resv j = "None"%string /\ ends j r) \/ (l_resv j <> "None"%string /\ dies r) \/
   (exists hs, goes f j w r hs /\ (l_resv j = "None"%string -> hs = l_hosts j) /\ sublist hs (l_hosts j))) as H.
  - subst r. destruct (_ && _).
    + assert (forall q hs bad, Forall quiet q -> (l_resv j = "None"%string -> hs = l_hosts j) -> sublist hs (l_hosts j) ->
        let r := tell q (check_nodes f j w hs bad) in
        (l_resv j = "None"%string /\ ends j r) \/ (l_resv j <> "None"%string /\ dies r) \/
        (exists hs, goes f j w r hs /\ (l_resv j = "None"%string -> hs = l_hosts j) /\ sublist hs (l_hosts j))) as Hc.
      { intros q hs bad Hq He Hsub. cbv zeta. destruct (check_nodes_form f j w hs bad) as [[? ?]|[[? ?]|[Hg ?]]].
        - left. split; [done|]. by apply ends_tell.
        - right; left. split; [done|]. by apply dies_tell.
        - right; right. exists hs. split; [by apply goes_tell|done]. }
      unfold cpuset_part. destruct (cnodes w) as [[|n ns]|].
      1,3: rewrite <- (tell_nil (check_nodes _ _ _ _ _)); by apply Hc.
      destruct (init w) as [bad|].
      * destruct (bool_decide (bad <> [] /\ _)).
        -- destruct (decide (l_resv j = "None"%string)) as [Hr|Hr].
           ++ rewrite (bool_decide_eq_true_2 _ Hr), tell_app. apply Hc; [repeat constructor|done|done].
           ++ rewrite (bool_decide_eq_false_2 _ Hr), tell_app. apply Hc; [repeat constructor|done|apply sublist_filter0].
        -- apply Hc; [repeat constructor|done|done].
      * rewrite tell_app. apply Hc; [repeat constructor|done|done].
    + right; right. exists (l_hosts j). split; [|done]. exists []. split; [constructor|]. by rewrite tell_nil.
  - clearbody r. exists (tell (if interactive j then [ANotify "Starting..."] else []) r). split.
    { by rewrite tell_app. }
    assert (Forall quiet (if interactive j then [ANotify "Starting..."] else [])) as Hq
      by (destruct (interactive j); repeat constructor).
    destruct H as [[? ?]|[[? ?]|(hs & ? & ?)]].
    + left. split; [done|]. by apply ends_tell.
    + right; left. split; [done|]. by apply dies_tell.
    + right; right. exists hs. split; [by apply goes_tell|done].
Qed.

(** * C126: at most one start *)
Lemma quiet_app l l' : Forall quiet l -> Forall quiet l' -> Forall quiet (l ++ l').
Proof. intros. by apply Forall_app. Qed.
Lemma check_end_heads f st ts hs e c : heads (trace (check_end f st ts hs e c)) = [].
Proof.
  destruct (check_end_form f st ts hs e c) as (l & x & -> & [(_ & Hq & _)|(_ & l' & -> & Hq & _)]); cbn; rewrite app_nil_r;
    by apply quiet_heads.
Qed.
Lemma check_end_state f st ts hs e c st0 : st0 <> "toLaunch"%string -> state_after st0 (trace (check_end f st ts hs e c)) <> "toLaunch"%string.
Proof.
  intros H0. destruct (check_end_form f st ts hs e c) as (l & x & -> & [(_ & Hq & _)|(_ & l' & -> & Hq & _)]);
    cbn [trace tell]; rewrite app_nil_r.
  - by rewrite (quiet_state l).
  - change (state_after "Finishing" l' <> "toLaunch"%string). rewrite (quiet_state l') by done. done.
Qed.
Lemma start_heads f j w hs : heads (trace (start f j w hs)) = if has_type "noop" j then [] else [head_node j w hs].
Proof.
  destruct (start_form f j w hs) as (pre & c & Hp & [(-> & ->)|[(-> & _ & post & Hq & ->)|(-> & _ & post & Hq & ->)]]);
    rewrite trace_tell, ?heads_app.
  - by rewrite (quiet_heads pre).
  - rewrite (quiet_heads pre), (quiet_heads post) by done. done.
  - rewrite check_end_heads, (quiet_heads pre) by done. change (AExec ?h :: post) with ([AExec h] ++ post).
    rewrite heads_app, (quiet_heads post) by done. done.
Qed.
Lemma start_state f j w hs st : st <> "toLaunch"%string -> state_after st (trace (start f j w hs)) <> "toLaunch"%string.
Proof.
  intros H0.
  destruct (start_form f j w hs) as (pre & c & Hp & [(_ & ->)|[(_ & _ & post & Hq & ->)|(_ & _ & post & Hq & ->)]]);
    rewrite trace_tell, ?state_after_app, (quiet_state pre) by done.
  - cbn. done.
  - rewrite (quiet_state post) by done. done.
  - change (AExec ?h :: post) with ([AExec h] ++ post). rewrite state_after_app, (quiet_state post) by done. by apply check_end_state.
Qed.
Lemma launch_heads f j w : heads (trace (launch f j w)) = [] \/
  (l_state j = "toLaunch"%string /\ has_type "noop" j = false /\ exists hs, sublist hs (l_hosts j) /\
     (l_resv j = "None"%string -> hs = l_hosts j) /\ heads (trace (launch f j w)) = [head_node j w hs]).
Proof.
  destruct (decide (l_state j = "toLaunch"%string)) as [Hs|Hs].
  2:{ left. unfold launch. by rewrite (bool_decide_eq_false_2 _ Hs). }
  destruct (launch_form f j w Hs) as (r & -> & [(_ & pre & Hq & _ & ->)|[(_ & pre & Hq & ->)|(hs & (pre & Hq & ->) & He & Hsub)]]);
    rewrite trace_tell, heads_app, trace_tell, heads_app, (quiet_heads pre) by done.
  - by left.
  - by left.
  - rewrite start_heads. destruct (has_type "noop" j) eqn:Hn; [by left|]. right. split; [done|]. split; [done|]. eauto.
Qed.
Lemma launch_state f j w : l_state j = "toLaunch"%string -> state_after "toLaunch" (trace (launch f j w)) <> "toLaunch"%string.
Proof.
  intros Hs. destruct (launch_form f j w Hs) as (r & -> & [(_ & pre & Hq & _ & ->)|[(_ & pre & Hq & ->)|(hs & (pre & Hq & ->) & _)]]);
    rewrite trace_tell, state_after_app, trace_tell, state_after_app, (quiet_state pre) by done; cbn; try done.
  by apply start_state.
Qed.
Lemma bipbip_not_to_launch int f j w args : l_state j <> "toLaunch"%string ->
  heads (trace (bipbip int f j w args)) = [] /\ state_after (l_state j) (trace (bipbip int f j w args)) <> "toLaunch"%string.
Proof.
  intros Hs. assert (launch f j w = stop 1) as Hl by (unfold launch; by rewrite (bool_decide_eq_false_2 _ Hs)).
  unfold bipbip. destruct args as [|v r]; [by rewrite Hl|].
  destruct (_ && _); [|by rewrite Hl].
  destruct r as [|s r]; [done|]. destruct (int v) as [e|]; [|done]. destruct r as [|c r]; [done|].
  destruct (bool_decide (c = _)); [|done]. split; [apply check_end_heads|by apply check_end_state].
Qed.
Lemma bipbip_to_launch int f j w args : l_state j = "toLaunch"%string -> bipbip int f j w args = launch f j w.
Proof.
  intros Hs. unfold bipbip. destruct args as [|v r]; [done|].
  rewrite (bool_decide_eq_false_2 (l_state j ∈ end_states)); [by rewrite andb_false_r|].
  rewrite Hs. by_dec.
Qed.
Lemma history_dead int hist st : st <> "toLaunch"%string -> (forall s, Other s ∈ hist -> s <> "toLaunch"%string) ->
  heads (history int st hist) = [].
Proof.
  induction hist as [|x hist IH] in st |- *; intros Hst Ho; [done|]. cbn [history]. rewrite heads_app.
  assert (forall s, Other s ∈ hist -> s <> "toLaunch"%string) as Ho'.
  { intros s Hs. apply Ho. apply elem_of_cons. by right. }
  destruct x as [f j w args|s]; cbn [acts].
  - destruct (bipbip_not_to_launch int f (in_state st j) w args) as [-> Hn]; [done|]. cbn in Hn.
    rewrite IH; done.
  - cbn. rewrite IH; [done| |done]. apply Ho. apply elem_of_cons. by left.
Qed.
Theorem C126_once : forall int hist st, (forall s, Other s ∈ hist -> s <> "toLaunch"%string) ->
  (length (heads (history int st hist)) <= 1)%nat /\ (st <> "toLaunch"%string -> heads (history int st hist) = []).
Proof.
  intros int hist st Ho. split; [|intros; by apply history_dead].
  induction hist as [|x hist IH] in st, Ho |- *; cbn [history]; [cbn; lia|].
  assert (forall s, Other s ∈ hist -> s <> "toLaunch"%string) as Ho'.
  { intros s Hs. apply Ho. apply elem_of_cons. by right. }
  rewrite heads_app, app_length.
  destruct (decide (st = "toLaunch"%string)) as [->|Hst].
  2:{ rewrite history_dead; [| |done].
      - destruct x as [f j w args|s]; cbn [acts]; [|cbn; lia].
        destruct (bipbip_not_to_launch int f (in_state st j) w args) as [-> _]; [done|]. cbn. lia.
      - destruct x as [f j w args|s]; cbn [acts]; [|apply Ho; apply elem_of_cons; by left].
        by destruct (bipbip_not_to_launch int f (in_state st j) w args). }
  destruct x as [f j w args|s]; cbn [acts]; [|cbn; by apply IH].
  rewrite bipbip_to_launch by done. rewrite (history_dead int hist); [| |done].
  - destruct (launch_heads f (in_state "toLaunch" j) w) as [->|(_ & _ & hs & _ & _ & ->)]; cbn; lia.
  - by apply (launch_state f (in_state "toLaunch" j) w).
Qed.
(** A job that is not waiting for its launch is left alone, and the launch is recorded before anything is done. *)
Theorem C126_recorded_first : forall f j w,
  (l_state j <> "toLaunch"%string -> launch f j w = stop 1) /\
  (l_state j = "toLaunch"%string -> exists l, trace (launch f j w) = ASet "Launching" :: l).
Proof.
  intros f j w. split; intros Hs.
  - unfold launch. by rewrite (bool_decide_eq_false_2 _ Hs).
  - destruct (launch_form f j w Hs) as (r & -> & _). eexists. rewrite trace_tell. reflexivity.
Qed.
(** A job on two nodes, with cpusets; everything answers. *)
Definition nop_fin : finworld := mkFin None None None None.
Definition job1 : ljob := mkLjob "toLaunch" "PASSIVE" "None" [] ["node1"; "node2"]%string "ch".
Definition fine : world :=
  mkWorld (Some ["node1"; "node2"]%string) (Some []) (Some []) (fun _ => Some []) None true true "cosys" "deploy".
Definition with_prologue (p : option (script * script)) (w : world) : world :=
  mkWorld (cnodes w) (init w) (clean w) (ping w) p (exec_ok w) (client w) (cosystem_host w) (deploy_host w).
Theorem C126_example : heads (history (fun _ => None) "toLaunch" [Request nop_fin job1 fine []; Request nop_fin job1 fine [];
  Other "Terminated"; Request nop_fin job1 fine []]%string) = ["node1"]%string.
Proof. reflexivity. Qed.

(** * C127: the server prologue *)
Lemma suspects_heads j ty hs bad k k' : heads (trace k) = heads (trace k') ->
  heads (trace (suspects j ty hs bad k)) = heads (trace (suspects j ty hs bad k')).
Proof.
  intros H. unfold suspects. destruct (interactive j); [done|]. case_bool_decide; [done|]. case_bool_decide; [done|].
  rewrite !trace_tell, !heads_app, H. done.
Qed.
Lemma check_nodes_heads f j w p hs bad :
  heads (trace (check_nodes f j w hs bad)) = heads (trace (check_nodes f j (with_prologue p w) hs bad)).
Proof.
  assert (heads (trace (start f j w hs)) = heads (trace (start f j (with_prologue p w) hs))) as Hst.
  { rewrite !start_heads. done. }
  unfold check_nodes. destruct bad as [|b bad]; [|by apply suspects_heads].
  rewrite !trace_tell, !heads_app. f_equal. change (ping (with_prologue p w)) with (ping w).
  destruct (ping w hs) as [[|b bs]|]; [done| |]; [by apply suspects_heads|].
  destruct hs as [|h hs]; [done|]. by apply suspects_heads.
Qed.
(** The result of the server prologue has no influence on the start of the command: refutation of "the command is
    started only if the prologue succeeds", for every job and every state of the nodes. *)
Theorem C127_ignored_refuted : forall f j w p, heads (trace (launch f j (with_prologue p w))) = heads (trace (launch f j w)).
Proof.
  intros f j w p. unfold launch. destruct (bool_decide _); [|done]. rewrite !trace_tell, !heads_app. f_equal.
  destruct (_ && _); [|by rewrite !start_heads].
  unfold cpuset_part. change (cnodes (with_prologue p w)) with (cnodes w). change (init (with_prologue p w)) with (init w).
  change (clean (with_prologue p w)) with (clean w).
  destruct (cnodes w) as [[|n ns]|]; try (symmetry; apply check_nodes_heads).
  rewrite !trace_tell, !heads_app. f_equal. destruct (init w) as [bad|].
  - destruct (bool_decide (bad <> [] /\ _)); [|symmetry; apply check_nodes_heads].
    destruct (bool_decide _); rewrite !trace_tell, !heads_app; f_equal; symmetry; apply check_nodes_heads.
  - rewrite !trace_tell, !heads_app. f_equal. symmetry; apply check_nodes_heads.
Qed.
Theorem C127_runs_anyway :
  launch nop_fin job1 (with_prologue (Some (SBad, SBad)) fine) =
  mkRun [ASet "Launching"; ACpuset "init" ["node1"; "node2"]; APing ["node1"; "node2"];
         APrologue; AEvent "SERVER_PROLOGUE_EXIT_CODE_ERROR" None; AAlmighty "ChState";
         APrologue; AEvent "SERVER_PROLOGUE_EXIT_CODE_ERROR" None; AAlmighty "ChState";
         AExec "node1"; ASet "Running"]%string 2 None.
Proof. reflexivity. Qed.

(** What holds: the prologue, when it can be run, is run before the command, and each failure is recorded. *)
Definition failure_event (s : script) : option string :=
  match s with SBad => Some "SERVER_PROLOGUE_EXIT_CODE_ERROR"%string | STimeout => Some "SERVER_PROLOGUE_TIMEOUT"%string | _ => None end.
Lemma prologue_event j s c ty : failure_event s = Some ty ->
  APrologue ∈ (call_prologue j (Some s) c).1 /\ AEvent ty None ∈ (call_prologue j (Some s) c).1.
Proof.
  destruct s; cbn; intros [= <-]; split; repeat (apply elem_of_cons; first [by left | right]).
Qed.
Lemma prologues_run j w p1 p2 : prologue w = Some (p1, p2) -> (p1 <> SOs \/ p2 <> SOs) -> APrologue ∈ (prologues j w).1.
Proof.
  intros Hp H. unfold prologues. rewrite Hp. cbn [fmap option_fmap option_map fst snd].
  destruct (call_prologue j (Some p1) 0) as [a1 c1] eqn:E1. destruct (call_prologue j (Some p2) c1) as [a2 c2] eqn:E2.
  cbn [fst]. apply elem_of_app. destruct H as [H|H].
  - left. destruct p1; [| | |done]; cbn in E1; injection E1 as <- _; apply elem_of_cons; by left.
  - right. destruct p2; [| | |done]; cbn in E2; injection E2 as <- _; apply elem_of_cons; by left.
Qed.
Lemma prologues_events j w p1 p2 ty : prologue w = Some (p1, p2) -> failure_event p1 = Some ty \/ failure_event p2 = Some ty ->
  AEvent ty None ∈ (prologues j w).1 /\ (prologues j w).2 = 2.
Proof.
  intros Hp H. unfold prologues. rewrite Hp. cbn [fmap option_fmap option_map fst snd].
  destruct (call_prologue j (Some p1) 0) as [a1 c1] eqn:E1. destruct (call_prologue j (Some p2) c1) as [a2 c2] eqn:E2.
  cbn [fst snd]. destruct H as [H|H].
  - pose proof (prologue_event j _ 0 _ H) as [_ Hi]. rewrite E1 in Hi. split; [apply elem_of_app; by left|].
    assert (c1 = 2) as -> by (destruct p1; cbn in E1, H; congruence). destruct p2; cbn in E2; congruence.
  - pose proof (prologue_event j _ c1 _ H) as [_ Hi]. rewrite E2 in Hi. split; [apply elem_of_app; by right|].
    destruct p2; cbn in E2, H; congruence.
Qed.
Lemma not_exec_app (l1 l2 l : list act) h r : Forall quiet l1 -> l1 ++ l2 = l ++ AExec h :: r -> exists l', l = l1 ++ l'.
Proof.
  induction l1 as [|a l1 IH] in l |- *; intros Hq E; [by exists l|].
  apply Forall_cons in Hq as [Ha Hq]. destruct l as [|b l]; cbn in E.
  - injection E as -> _. done.
  - injection E as -> E. destruct (IH l Hq E) as (l' & ->). by exists l'.
Qed.
(** Whenever the command is started, the configured prologue was run before, unless it could not be executed, and each
    of its failures is recorded as an event before the command starts; the launcher then exits with code 2. *)
Theorem C127_recorded_partial : forall f j w p1 p2 l h r, prologue w = Some (p1, p2) ->
  trace (launch f j w) = l ++ AExec h :: r ->
  (p1 <> SOs \/ p2 <> SOs -> APrologue ∈ l) /\
  (forall ty, failure_event p1 = Some ty \/ failure_event p2 = Some ty -> AEvent ty None ∈ l /\ code (launch f j w) = 2).
Proof.
  intros f j w p1 p2 l h r Hp E.
  destruct (decide (l_state j = "toLaunch"%string)) as [Hs|Hs].
  2:{ unfold launch in E. rewrite (bool_decide_eq_false_2 _ Hs) in E. cbn in E. by destruct l. }
  assert (exists pre hs, Forall quiet pre /\ launch f j w = tell (ASet "Launching" :: pre) (start f j w hs)) as (pre & hs & Hq & Hl).
  { destruct (launch_form f j w Hs) as (x & Ex & [(_ & pre & Hq & _ & ->)|[(_ & pre & Hq & ->)|(hs & (pre & Hq & ->) & _)]]).
    1,2: exfalso; rewrite Ex in E; cbn in E; rewrite app_nil_r in E; destruct l as [|a l]; [discriminate|];
      injection E as _ E; pose proof (quiet_heads pre Hq) as Hh; rewrite E in Hh; rewrite heads_app in Hh; cbn in Hh;
      by apply app_nil in Hh as [_ ?].
    exists pre, hs. split; [done|]. by rewrite Ex, tell_app. }
  rewrite Hl, trace_tell in E. destruct l as [|a l]; [discriminate|]. cbn in E. injection E as <- E.
  destruct (not_exec_app _ _ _ _ _ Hq E) as (l1 & ->). rewrite <- app_assoc in E. apply app_inv_head in E.
  assert (exists l2, l1 = (prologues j w).1 ++ l2) as (l2 & ->).
  { destruct (start_form' f j w hs) as [(_ & Es)|[(_ & _ & post & _ & _ & Es)|(_ & _ & post & _ & _ & Es)]];
      rewrite Es, trace_tell in E; rewrite <- ?app_assoc in E; eapply not_exec_app; [apply prologues_quiet|exact E|
      apply prologues_quiet|exact E|apply prologues_quiet|exact E]. }
  split.
  - intros Ho. apply elem_of_cons. right. apply elem_of_app. right. apply elem_of_app. left. by eapply prologues_run.
  - intros ty Ht. destruct (prologues_events j w p1 p2 ty Hp Ht) as [He Hc]. split.
    + apply elem_of_cons. right. apply elem_of_app. right. apply elem_of_app. by left.
    + rewrite Hl. cbn. destruct (start_form' f j w hs) as [(_ & ->)|[(_ & _ & post & _ & _ & ->)|(_ & _ & post & _ & _ & ->)]]; cbn; try done.
      destruct (check_end_form f "Launching" (l_types j) hs 50 (prologues j w).2) as (? & ? & -> & _). done.
Qed.
Theorem C127_example : exists l r, trace (launch nop_fin job1 (with_prologue (Some (STimeout, SOk)) fine)) = l ++ AExec "node1" :: r
  /\ AEvent "SERVER_PROLOGUE_TIMEOUT" None ∈ l.
Proof. eexists (_ :: _ :: _ :: _ :: _ :: _ :: _ :: []), _. split; [reflexivity|]. by_dec. Qed.

(** * C128: a launch that fails is reported *)
Definition reports (a : act) : bool := match a with AEvent _ _ => true | _ => false end.
Lemma record_pairs ts rest t : t ∈ ts -> AEvent t None ∈ (record ((Pair <$> ts) ++ rest)).1.
Proof.
  induction ts as [|x ts IH]; [by intros H%elem_of_nil|]. cbn. destruct (record _) as [l e]; cbn in *.
  intros [->|H]%elem_of_cons; apply elem_of_cons; [by left|right; by apply IH].
Qed.
Lemma finishing_events f ts hs evs : (finishing f ts hs evs).2 =
    (record (evs ++ (epilogue_events (f_epilogue f)).2 ++ (clean_events f ts).2 ++ (ping_events f ts hs).2)).2 /\
  (forall a, a ∈ (record (evs ++ (epilogue_events (f_epilogue f)).2 ++ (clean_events f ts).2 ++ (ping_events f ts hs).2)).1 ->
    a ∈ (finishing f ts hs evs).1) /\
  (forall ty h, AEvent ty h ∈ (finishing f ts hs evs).1 ->
    AEvent ty h ∈ (record (evs ++ (epilogue_events (f_epilogue f)).2 ++ (clean_events f ts).2 ++ (ping_events f ts hs).2)).1).
Proof.
  assert (forall l, Forall (fun a => reports a = false) l -> forall ty h, AEvent ty h ∉ l) as Hno.
  { intros l Hl ty h Hin. rewrite Forall_forall in Hl. by apply Hl in Hin. }
  assert (forall ty h, AEvent ty h ∉ (epilogue_events (f_epilogue f)).1) as H1.
  { apply Hno. destruct (f_epilogue f) as [[]|]; repeat constructor. }
  assert (forall ty h, AEvent ty h ∉ (clean_events f ts).1) as H2.
  { apply Hno. unfold clean_events. destruct (bool_decide _); [constructor|]. destruct (f_cnodes f) as [[|]|]; repeat constructor. }
  assert (forall ty h, AEvent ty h ∉ (ping_events f ts hs).1) as H3.
  { apply Hno. unfold ping_events. destruct (f_ping f); [|constructor]. destruct (bool_decide _); repeat constructor. }
  unfold finishing. destruct (epilogue_events _) as [a1 e1], (clean_events _ _) as [a2 e2], (ping_events _ _ _) as [a3 e3].
  cbn [fst snd] in *. destruct (record (evs ++ e1 ++ e2 ++ e3)) as [l e] eqn:E. cbn [fst snd].
  split; [done|]. split.
  - intros a Ha. rewrite !elem_of_app. tauto.
  - intros ty h. rewrite !elem_of_app. intros [H|[H|[H|[H|H]]]]; [by apply H1 in H|by apply H2 in H|by apply H3 in H|done|].
    destruct e, (evs ++ e1 ++ e2 ++ e3); apply elem_of_list_In in H; cbn in H; intuition discriminate.
Qed.
(** The events of the exit code are recorded whatever happens next, if the job has a host. *)
Lemma check_end_events f st ts hs e c t : st ∈ end_states -> hs <> [] -> t ∈ (JobModel.end_events e).1 ->
  recorded t None (check_end f st ts hs e c).
Proof.
  intros Hst Hh Ht. unfold recorded.
  destruct (check_end_form f st ts hs e c) as (l & x & -> & [(? & _)|(_ & l' & -> & _ & [(_ & ? & _)|(_ & l'' & -> & _)])]); [done|done|].
  cbn [trace tell]. rewrite app_nil_r. apply elem_of_cons. right. apply elem_of_app. left.
  destruct (finishing_events f ts hs (Pair <$> (JobModel.end_events e).1)) as (_ & H & _). apply H. by apply record_pairs.
Qed.
(** The only launches that end silently: neither "Running", nor any event. *)
Theorem C128_silent : forall f j w, l_state j = "toLaunch"%string ->
  ~ became "Running" (launch f j w) -> ~ reported (launch f j w) ->
  (l_resv j <> "None"%string /\ raised (launch f j w) = Some EType) \/
  (exec_ok w = false /\ raised (launch f j w) = Some EIndex /\ (l_resv j = "None"%string -> l_hosts j = [])).
Proof.
  intros f j w Hs Hrun Hrep.
  destruct (launch_form f j w Hs) as (r & Er & [(_ & pre & Hq & ((ty & h & Hin) & _) & ->)|[(Hr & pre & Hq & ->)|(hs & (pre & Hq & ->) & He & Hsub)]]).
  - exfalso. apply Hrep. exists ty, h. rewrite Er. cbn. apply elem_of_cons. right. apply elem_of_app. by left.
  - left. split; [done|]. by rewrite Er.
  - rewrite tell_app in Er. 
    destruct (start_form f j w hs) as (p & c & Hp & [(_ & Es)|[(_ & _ & post & _ & Es)|(_ & Hx & post & _ & Es)]]).
    + exfalso. apply Hrun. unfold became. rewrite Er, Es, tell_app, trace_tell, !elem_of_app. left; right; right.
      apply elem_of_cons. by left.
    + exfalso. apply Hrun. unfold became. rewrite Er, Es, tell_app, trace_tell, !elem_of_app. left; right; right; left.
      apply elem_of_cons. right. apply elem_of_cons. by left.
    + destruct hs as [|h hs].
      * right. split; [done|]. rewrite Er, Es. cbn [raised tell].
        destruct (check_end_form f "Launching" (l_types j) [] 50 c) as (l & x & -> & [(Hn & _)|(_ & l' & _ & _ & [(-> & _ & _)|([|] & _)])]).
        -- exfalso. apply Hn. by_dec.
        -- split; [done|]. intros Hr. by rewrite He.
        -- done.
        -- done.
      * exfalso. apply Hrep. exists "LAUNCHING_OAREXEC_TIMEOUT"%string, None.
        rewrite Er, Es, tell_app, trace_tell. apply elem_of_app. right.
        apply (check_end_events f "Launching" (l_types j) (h :: hs) 50 c); [by_dec|done|by_dec].
Qed.
Lemma reported_dec r : {reported r} + {~ reported r}.
Proof.
  destruct (decide (Exists (fun a => reports a = true) (trace r))) as [H|H].
  - left. apply Exists_exists in H as (a & Ha & Hr). destruct a; try discriminate. by exists ty, hosts.
  - right. intros (ty & hs & Hi). apply H, Exists_exists. by exists (AEvent ty hs).
Qed.
Theorem C128_reported_partial : forall f j w, l_state j = "toLaunch"%string -> l_resv j = "None"%string -> l_hosts j <> [] ->
  became "Running" (launch f j w) \/ reported (launch f j w).
Proof.
  intros f j w Hs Hr Hh.
  destruct (decide (ASet "Running" ∈ trace (launch f j w))) as [H|H]; [by left|].
  destruct (reported_dec (launch f j w)) as [H'|H']; [by right|].
  destruct (C128_silent f j w Hs H H') as [[? _]|(_ & _ & Hx)]; [done|]. by apply Hx in Hr.
Qed.
(** A reservation none of whose nodes answers, and a deploy job without node whose executor cannot be started, are
    left in "Launching" and "Finishing" without any event. *)
Definition resv1 : ljob := mkLjob "toLaunch" "PASSIVE" "Scheduled" [] ["node1"; "node2"]%string "ch".
Definition dead : world := mkWorld (Some ["node1"; "node2"]%string) (Some []) (Some []) (fun hs => Some hs) None true true "cosys" "deploy".
Definition noexec : world := mkWorld None (Some []) (Some []) (fun _ => Some []) None false true "cosys" "deploy".
Theorem C128_silent_refuted :
  launch nop_fin resv1 dead =
    mkRun [ASet "Launching"; ACpuset "init" ["node1"; "node2"]; APing ["node1"; "node2"]]%string 0 (Some EType) /\
  launch nop_fin (mkLjob "toLaunch" "PASSIVE" "None" ["deploy"]%string [] "ch") noexec =
    mkRun [ASet "Launching"; AExec "cosys"; ASet "Finishing"]%string 0 (Some EIndex).
Proof. split; reflexivity. Qed.
Theorem C128_example : launch nop_fin job1 dead =
  mkRun [ASet "Launching"; ACpuset "init" ["node1"; "node2"]; APing ["node1"; "node2"];
         AEvent "PING_CHECKER_NODE_SUSPECTED" (Some ["node1"; "node2"]); AAlmighty "ChState"]%string 2 None.
Proof. reflexivity. Qed.

(** * C129, C130: the nodes on which the command is started *)
Lemma heads_In l h : h ∈ heads l <-> AExec h ∈ l.
Proof.
  unfold heads. rewrite elem_of_list_bind. split.
  - intros (a & Hh & Ha). destruct a; try (by apply elem_of_nil in Hh). apply elem_of_list_singleton in Hh as ->. done.
  - intros H. exists (AExec h). split; [apply elem_of_list_singleton; done|done].
Qed.
Lemma tell_exec l r h : Forall quiet l -> AExec h ∈ trace (tell l r) -> AExec h ∈ trace r.
Proof.
  intros Hq. rewrite trace_tell, elem_of_app. intros [H|H]; [|done]. apply heads_In in H.
  rewrite (quiet_heads l Hq) in H. by apply elem_of_nil in H.
Qed.
Lemma ends_exec j r h : ends j r -> AExec h ∉ trace r.
Proof. intros (pre & Hq & _ & ->) H. apply tell_exec in H; [|done]. by apply elem_of_nil in H. Qed.
Lemma dies_exec r h : dies r -> AExec h ∉ trace r.
Proof. intros (pre & Hq & ->) H. apply tell_exec in H; [|done]. by apply elem_of_nil in H. Qed.
Lemma start_exec f j w hs h : AExec h ∈ trace (start f j w hs) -> h = head_node j w hs.
Proof.
  intros H. apply heads_In in H. rewrite start_heads in H. destruct (has_type "noop" j); [by apply elem_of_nil in H|].
  by apply elem_of_list_singleton in H.
Qed.
Lemma goes_exec f j w r hs h : goes f j w r hs -> AExec h ∈ trace r -> h = head_node j w hs.
Proof. intros (pre & Hq & ->) H. apply tell_exec in H; [|done]. by apply start_exec in H. Qed.
Lemma head_node_on j w hs : on_nodes j -> (hs = [] /\ head_node j w hs = cosystem_host w) \/ hd_error hs = Some (head_node j w hs).
Proof.
  intros (Hd & Hc & _). unfold head_node, has_type. rewrite (bool_decide_eq_false_2 _ Hd), (bool_decide_eq_false_2 _ Hc).
  destruct hs as [|h hs]; [by left|]. right. done.
Qed.
Lemma launch_on f j w h : on_nodes j -> AExec h ∈ trace (launch f j w) -> l_state j = "toLaunch"%string /\ AExec h ∈ trace (cpuset_part f j w).
Proof.
  intros (Hd & Hc & Hh). unfold launch. case_bool_decide as Hs; [|by intros ?%elem_of_nil].
  unfold has_type. rewrite (bool_decide_eq_false_2 _ Hd), (bool_decide_eq_false_2 _ Hc), (bool_decide_eq_false_2 _ Hh). cbn [negb andb].
  intros H. split; [done|]. rewrite trace_tell in H. apply elem_of_app in H as [H|H]; [|done].
  apply heads_In in H. destruct (interactive j); cbn in H; by apply elem_of_nil in H.
Qed.
Lemma check_nodes_exec f j w hs bad h : on_nodes j -> AExec h ∈ trace (check_nodes f j w hs bad) ->
  h = head_node j w hs /\ ((bad = [] /\ (ping w hs = Some [] \/ hs = [])) \/ l_resv j <> "None"%string).
Proof.
  intros Ho H. destruct (check_nodes_form f j w hs bad) as [(_ & He)|[(_ & Hd)|(Hg & Hp)]].
  - by apply (ends_exec _ _ h) in He.
  - by apply (dies_exec _ h) in Hd.
  - split; [by eapply goes_exec|]. destruct Hp as [(-> & [?|(_ & ->)])|?]; auto.
Qed.
(** Which nodes the cpuset command was sent to, and what it answered. *)
Theorem C129_installed_partial : forall f j w h n ns bad, on_nodes j -> l_resv j = "None"%string ->
  cnodes w = Some (n :: ns) -> init w = Some bad -> AExec h ∈ trace (launch f j w) ->
  bad = [] /\ ACpuset "init" (n :: ns) ∈ trace (launch f j w).
Proof.
  intros f j w h n ns bad Ho Hr Hc Hi H. destruct (launch_on f j w h Ho H) as [Hs H'].
  split.
  - unfold cpuset_part in H'. rewrite Hc, Hi in H'. apply tell_exec in H'; [|repeat constructor].
    destruct (decide (bad <> [] /\ length bad < length (n :: ns))%nat) as [Hb|Hb].
    + rewrite (bool_decide_eq_true_2 _ Hb), (bool_decide_eq_true_2 _ Hr) in H'. apply tell_exec in H'; [|repeat constructor].
      apply check_nodes_exec in H' as [_ [[Hx _]|?]]; [|done|done]. apply app_nil in Hx. tauto.
    + rewrite (bool_decide_eq_false_2 _ Hb) in H'. apply check_nodes_exec in H' as [_ [[Hx _]|?]]; [done|done|done].
  - unfold launch. rewrite (bool_decide_eq_true_2 _ Hs), trace_tell. apply elem_of_app. right.
    destruct Ho as (Hd & Hco & Hh). unfold has_type.
    rewrite (bool_decide_eq_false_2 _ Hd), (bool_decide_eq_false_2 _ Hco), (bool_decide_eq_false_2 _ Hh). cbn [negb andb].
    unfold cpuset_part. rewrite Hc, trace_tell. apply elem_of_app. left. apply elem_of_cons. by left.
Qed.
(** For a reservation: never on a node whose cpuset failed, but on the cosystem host when all its hosts failed. *)
Theorem C129_reservation_partial : forall f j w h n ns bad, on_nodes j -> l_resv j <> "None"%string ->
  cnodes w = Some (n :: ns) -> (forall x, x ∈ l_hosts j -> x ∈ n :: ns) -> init w = Some bad -> bad ⊆+ n :: ns ->
  AExec h ∈ trace (launch f j w) ->
  (h ∈ l_hosts j /\ h ∉ bad) \/ (h = cosystem_host w /\ forall x, x ∈ l_hosts j -> x ∈ bad).
Proof.
  intros f j w h n ns bad Ho Hr Hc Hsub Hi Hbad H. destruct (launch_on f j w h Ho H) as [_ H'].
  unfold cpuset_part in H'. rewrite Hc, Hi in H'. apply tell_exec in H'; [|repeat constructor].
  destruct (decide (bad <> [] /\ length bad < length (n :: ns))%nat) as [Hb|Hb].
  - rewrite (bool_decide_eq_true_2 _ Hb), (bool_decide_eq_false_2 _ Hr) in H'. apply tell_exec in H'; [|repeat constructor].
    apply check_nodes_exec in H' as [-> _]; [|done].
    destruct (head_node_on j w (base.filter (fun h => h ∉ bad) (l_hosts j)) Ho) as [[He ->]|He].
    + right. split; [done|]. intros x Hx. destruct (decide (x ∈ bad)) as [|Hn]; [done|].
      assert (x ∈ base.filter (fun h => h ∉ bad) (l_hosts j)) as Hf by (by apply elem_of_list_filter).
      rewrite He in Hf. by apply elem_of_nil in Hf.
    + left. assert (head_node j w (base.filter (fun h => h ∉ bad) (l_hosts j)) ∈ base.filter (fun h => h ∉ bad) (l_hosts j)) as Hf.
      { destruct (base.filter (fun h => h ∉ bad) (l_hosts j)) as [|y ys]; [done|]. injection He as He. rewrite <- He at 1. apply elem_of_cons. by left. }
      apply elem_of_list_filter in Hf. tauto.
  - rewrite (bool_decide_eq_false_2 _ Hb) in H'. destruct bad as [|b bad].
    + apply check_nodes_exec in H' as [-> _]; [|done]. left. split; [|apply not_elem_of_nil].
      destruct (head_node_on j w (l_hosts j) Ho) as [[He _]|He]; [by destruct Ho as (_ & _ & ?)|].
      destruct (l_hosts j) as [|y ys]; [done|]. injection He as He. rewrite <- He at 1. apply elem_of_cons. by left.
    + exfalso. assert (b :: bad ≡ₚ n :: ns) as Hperm.
      { apply submseteq_Permutation_length_le; [|done]. destruct (decide (length (n :: ns) <= length (b :: bad))%nat); [done|].
        exfalso. apply Hb. split; [done|lia]. }
      unfold check_nodes in H'.
      destruct (suspects_form f j w "CPUSET_ERROR" (l_hosts j) (b :: bad) (l_hosts j)) as [(? & _)|[(_ & _ & Hd)|(_ & (x & Hx & Hnx) & _)]]; [done| |].
      * by apply (dies_exec _ h) in Hd.
      * apply Hnx. rewrite Hperm. by apply Hsub.
Qed.
Definition with_init (o : option (list string)) (w : world) : world :=
  mkWorld (cnodes w) o (clean w) (ping w) (prologue w) (exec_ok w) (client w) (cosystem_host w) (deploy_host w).
(** When the cpuset command times out (or its file is bad) the job is started without cpuset, on any nodes. *)
Theorem C129_timeout_refuted : forall f j w n ns h hs, on_nodes j -> l_state j = "toLaunch"%string -> cnodes w = Some (n :: ns) ->
  init w = None -> ping w (l_hosts j) = Some [] -> "noop"%string ∉ l_types j -> l_hosts j = h :: hs ->
  AExec h ∈ trace (launch f j w) /\ recorded "CPUSET_MANAGER_FILE" None (launch f j w).
Proof.
  intros f j w n ns h hs Ho Hs Hc Hi Hp Hn Hh. unfold recorded.
  assert (trace (launch f j w) = ASet "Launching" :: (if interactive j then [ANotify "Starting..."] else []) ++
    [ACpuset "init" (n :: ns); AEvent "CPUSET_MANAGER_FILE" None; APing (l_hosts j)] ++ trace (start f j w (l_hosts j))) as ->.
  { unfold launch. rewrite (bool_decide_eq_true_2 _ Hs), trace_tell. destruct Ho as (Hd & Hco & Hne). unfold has_type.
    rewrite (bool_decide_eq_false_2 _ Hd), (bool_decide_eq_false_2 _ Hco), (bool_decide_eq_false_2 _ Hne). cbn [negb andb].
    unfold cpuset_part, check_nodes. rewrite Hc, Hi, Hp. done. }
  split.
  - apply elem_of_cons; right. apply elem_of_app; right. apply elem_of_app; right. apply heads_In. rewrite start_heads.
    unfold has_type. rewrite (bool_decide_eq_false_2 _ Hn). apply elem_of_list_singleton.
    destruct (head_node_on j w (l_hosts j) Ho) as [[He _]|He]; [by rewrite Hh in He|]. rewrite Hh in He. cbn in He. rewrite Hh. congruence.
  - apply elem_of_cons; right. apply elem_of_app; right. apply elem_of_app; left.
    apply elem_of_cons; right. apply elem_of_cons; by left.
Qed.
Theorem C129_timeout_example : launch nop_fin job1 (with_init None fine) =
  mkRun [ASet "Launching"; ACpuset "init" ["node1"; "node2"]; AEvent "CPUSET_MANAGER_FILE" None; APing ["node1"; "node2"];
         AExec "node1"; ASet "Running"]%string 0 None.
Proof. reflexivity. Qed.
Theorem C129_example : launch nop_fin resv1 (with_init (Some ["node1"]%string) fine) =
  mkRun [ASet "Launching"; ACpuset "init" ["node1"; "node2"]; AEvent "CPUSET_ERROR" (Some ["node1"]); AArchive ["node1"];
         AAlmighty "ChState"; APing ["node2"]; AExec "node2"; ASet "Running"]%string 0 None.
Proof. reflexivity. Qed.

(** The head node of a job that is not a reservation is its first node, after a ping without any suspect. *)
Theorem C130_checked_partial : forall f j w h, on_nodes j -> l_resv j = "None"%string -> AExec h ∈ trace (launch f j w) ->
  hd_error (l_hosts j) = Some h /\ ping w (l_hosts j) = Some [].
Proof.
  intros f j w h Ho Hr H. destruct (launch_on f j w h Ho H) as [_ H'].
  assert (exists bad, AExec h ∈ trace (check_nodes f j w (l_hosts j) bad)) as (bad & Hb).
  { unfold cpuset_part in H'. destruct (cnodes w) as [[|n ns]|]; [eauto| |eauto].
    apply tell_exec in H'; [|repeat constructor]. destruct (init w) as [bad|].
    - destruct (bool_decide (bad <> [] /\ _)); [|eauto]. rewrite (bool_decide_eq_true_2 _ Hr) in H'.
      apply tell_exec in H'; [eauto|repeat constructor].
    - apply tell_exec in H'; [eauto|repeat constructor]. }
  apply check_nodes_exec in Hb as [-> [(_ & Hp)|?]]; [|done|done].
  destruct (head_node_on j w (l_hosts j) Ho) as [[He _]|He]; [by destruct Ho as (_ & _ & ?)|]. split; [done|].
  destruct Hp as [?|He']; [done|]. by destruct Ho as (_ & _ & ?).
Qed.
Theorem C130_example : exists h, on_nodes job1 /\ AExec h ∈ trace (launch nop_fin job1 fine).
Proof. exists "node1"%string. split; [split; [|split]; [by_dec|by_dec|done]|by_dec]. Qed.
(** A reservation is started on a node that did not answer the ping; and outside of its nodes, on the cosystem host, when
    the cpusets of all its nodes failed and another node, always assigned, worked. *)
Theorem C130_reservation_refuted :
  (exists w, ping w (l_hosts resv1) = Some ["node1"]%string /\ AExec "node1" ∈ trace (launch nop_fin resv1 w)) /\
  (exists w, cnodes w = Some ["frontend"; "node1"; "node2"]%string /\ init w = Some ["node1"; "node2"]%string /\
     AExec "cosys" ∈ trace (launch nop_fin resv1 w) /\ "cosys"%string ∉ l_hosts resv1).
Proof.
  split.
  - exists (mkWorld None None None (fun _ => Some ["node1"]%string) None true true "cosys" "deploy"). split; [done|by_dec].
  - exists (mkWorld (Some ["frontend"; "node1"; "node2"]%string) (Some ["node1"; "node2"]%string) (Some []) (fun _ => Some []) None true true "cosys" "deploy").
    split; [done|]. split; [done|]. split; by_dec.
Qed.

(** * C131: the interactive client that cannot be told *)
Lemma leon_view date evs d id : (JobKill.view id d).2 = [] -> JobKill.view id (JobModel.leon date evs d) = JobKill.view id d.
Proof.
  intros Hv. unfold JobModel.leon.
  assert (forall s d', (JobKill.view id d').2 = [] -> Forall (fun j => JobModel.j_id j <> id) (JobModel.jobs_in_frag s d')) as Hin.
  { intros s d' Hv'. apply Forall_forall. intros j Hj Heq. unfold JobModel.jobs_in_frag in Hj.
    apply elem_of_list_bind in Hj as (x & Hj & _). apply elem_of_list_bind in Hj as (fr & Hj & Hf).
    apply elem_of_list_singleton in Hj as ->. apply elem_of_list_filter in Hf as [[_ Hf] Hin].
    assert (fr ∈ (JobKill.view id d').2) as Hx by (cbn; apply elem_of_list_filter; split; [congruence|done]).
    rewrite Hv' in Hx. by apply elem_of_nil in Hx. }
  assert (forall l d', Forall (fun j => JobModel.j_id j <> id) l ->
    JobKill.view id (fold_left (JobModel.leon_kill date evs) l d') = JobKill.view id d') as H1.
  { intros l. induction l as [|j l IH]; intros d' Hl; [done|]. apply Forall_cons in Hl as [Hj Hl]. cbn.
    rewrite IH by done. by apply JobKill.view_leon_kill_other. }
  assert (forall l d', Forall (fun j => JobModel.j_id j <> id) l ->
    JobKill.view id (fold_left (JobModel.leon_exterminate date) l d') = JobKill.view id d') as H2.
  { intros l. induction l as [|j l IH]; intros d' Hl; [done|]. apply Forall_cons in Hl as [Hj Hl]. cbn.
    rewrite IH by done. by apply JobKill.view_exterminate_other. }
  cbv zeta. rewrite H2.
  - apply H1. unfold JobModel.jobs_to_kill. apply Forall_forall. intros j Hj. apply elem_of_list_filter in Hj as [_ Hj].
    specialize (Hin "LEON"%string d Hv). rewrite Forall_forall in Hin. by apply Hin.
  - apply Hin. rewrite H1; [done|]. unfold JobModel.jobs_to_kill. apply Forall_forall. intros j Hj.
    apply elem_of_list_filter in Hj as [_ Hj]. specialize (Hin "LEON"%string d Hv). rewrite Forall_forall in Hin. by apply Hin.
Qed.

(** The client of an interactive job is told: either the job runs, or it gets an error message. *)
Theorem C131_told : forall f j w, l_state j = "toLaunch"%string -> interactive j = true ->
  became "Running" (launch f j w) \/
  ANotify "ERROR: some resources did not respond" ∈ trace (launch f j w) \/
  ANotify "ERROR: an error occured on the first job node" ∈ trace (launch f j w).
Proof.
  intros f j w Hs Hi. unfold became. pose proof (interactive_resv j Hi) as Hr.
  destruct (launch_form f j w Hs) as (r & -> & [(_ & pre & Hq & (_ & Hn) & ->)|[(? & _)|(hs & (pre & Hq & ->) & _)]]); [|done|].
  - right; left. rewrite trace_tell. apply elem_of_app. right. cbn. rewrite app_nil_r. by apply Hn.
  - rewrite trace_tell, !elem_of_app, trace_tell, !elem_of_app.
    destruct (start_form' f j w hs) as [(_ & ->)|[(_ & _ & post & _ & _ & ->)|(_ & _ & post & _ & Hp & ->)]];
      rewrite trace_tell, !elem_of_app, !elem_of_cons.
    + left. right; right; left; right; left. done.
    + left. right; right; left; right; left; right; left. done.
    + right; right. right; right; left; right. apply elem_of_cons. right. by apply Hp.
Qed.
(** When the job is started but its client cannot be told, the launcher leaves it running and only sends "Qdel" to
    Almighty, which starts Leon; Leon does nothing to a job without a deletion request. *)
Theorem C131_not_deleted_refuted : forall f j w h, l_state j = "toLaunch"%string -> interactive j = true -> client w = false ->
  exec_ok w = true -> AExec h ∈ trace (launch f j w) ->
  (exists l, trace (launch f j w) = l ++ [ASet "Running"; ANotify "GOOD JOB"; AAlmighty "Qdel"]%string /\ raised (launch f j w) = None) /\
  (forall date evs d id, (JobKill.view id d).2 = [] -> JobKill.view id (JobModel.leon date evs d) = JobKill.view id d).
Proof.
  intros f j w h Hs Hi Hc He H. split; [|intros; by apply leon_view].
  destruct (launch_form f j w Hs) as (r & E & [(_ & Hx)|[(_ & Hx)|(hs & (pre & Hq & ->) & _)]]).
  - rewrite E, trace_tell in H. apply elem_of_app in H as [H|H].
    + by apply elem_of_list_singleton in H.
    + by apply (ends_exec _ _ h) in Hx.
  - rewrite E, trace_tell in H. apply elem_of_app in H as [H|H].
    + by apply elem_of_list_singleton in H.
    + by apply (dies_exec _ h) in Hx.
  - rewrite E. destruct (start_form' f j w hs) as [(Hn & Es)|[(_ & _ & post & _ & Hp & Es)|(_ & ? & _)]]; [| |congruence].
    + exfalso. rewrite E, trace_tell in H. apply elem_of_app in H as [H|H]; [by apply elem_of_list_singleton in H|].
      apply tell_exec in H; [|done]. apply heads_In in H. rewrite start_heads, Hn in H. by apply elem_of_nil in H.
    + rewrite Es, (Hp Hi Hc). exists ([ASet "Launching"] ++ pre ++ (prologues j w).1 ++ [AExec (head_node j w hs)]).
      cbn [trace tell raised stop]. split; [|done]. rewrite app_nil_r, <- !app_assoc. reflexivity.
Qed.
Theorem C131_example : launch nop_fin (mkLjob "toLaunch" "INTERACTIVE" "None" [] ["node1"]%string "ch")
    (mkWorld None None None (fun _ => Some []) None true false "cosys" "deploy") =
  mkRun [ASet "Launching"; ANotify "Starting..."; APing ["node1"]; AExec "node1"; ASet "Running"; ANotify "GOOD JOB"; AAlmighty "Qdel"]%string 0 None.
Proof. reflexivity. Qed.

(** * C132: the reports of the executor *)
(** A report changes the state of a started job only with the challenge given to the executor and a number. *)
Theorem C132_challenge : forall int f j w v rest, l_state j ∈ end_states -> v <> ""%string ->
  (exists st, became st (bipbip int f j w (v :: rest))) ->
  exists script rest' e, rest = script :: l_challenge j :: rest' /\ int v = Some e /\
    bipbip int f j w (v :: rest) = check_end f (l_state j) (l_types j) (l_hosts j) e 0.
Proof.
  intros int f j w v rest Hs Hv (st & Hb). unfold became, bipbip in *.
  rewrite (bool_decide_eq_true_2 _ Hv), (bool_decide_eq_true_2 _ Hs) in *. cbn [andb] in *.
  destruct rest as [|sc rest]; [by apply elem_of_nil in Hb|]. destruct (int v) as [e|]; [|by apply elem_of_nil in Hb].
  destruct rest as [|c rest]; [by apply elem_of_nil in Hb|].
  destruct (decide (c = l_challenge j)) as [->|Hc].
  - rewrite bool_decide_eq_true_2 by done. eauto 10.
  - rewrite (bool_decide_eq_false_2 _ Hc) in Hb. by apply elem_of_list_singleton in Hb.
Qed.
(** A report with another challenge only leaves a trace of it. *)
Theorem C132_wrong_challenge : forall int f j w v script c rest e, l_state j ∈ end_states -> v <> ""%string ->
  int v = Some e -> c <> l_challenge j ->
  bipbip int f j w (v :: script :: c :: rest) = mkRun [AEvent "BIPBIP_CHALLENGE" None] 2 None.
Proof.
  intros int f j w v sc c rest e Hs Hv He Hc. unfold bipbip.
  rewrite (bool_decide_eq_true_2 _ Hv), (bool_decide_eq_true_2 _ Hs). cbn [andb]. by rewrite He, (bool_decide_eq_false_2 _ Hc).
Qed.
(** With the right one, the end of the job is recorded first. *)
Theorem C132_accepted : forall int f j w v script rest e, l_state j ∈ end_states -> v <> ""%string -> int v = Some e ->
  exists l, trace (bipbip int f j w (v :: script :: l_challenge j :: rest)) = ASet "Finishing" :: l.
Proof.
  intros int f j w v sc rest e Hs Hv He. unfold bipbip.
  rewrite (bool_decide_eq_true_2 _ Hv), (bool_decide_eq_true_2 _ Hs). cbn [andb]. rewrite He, bool_decide_eq_true_2 by done.
  destruct (check_end_form f (l_state j) (l_types j) (l_hosts j) e 0) as (l & x & -> & [(? & _)|(_ & l' & -> & _)]); [done|].
  cbn [trace tell]. rewrite app_nil_r. eauto.
Qed.
(** In any other state but toLaunch, a report does nothing; no report starts the command of a started job. *)
Theorem C132_other_states : forall int f j w args, l_state j ∉ end_states -> l_state j <> "toLaunch"%string ->
  bipbip int f j w args = stop 1.
Proof.
  intros int f j w args Hs Ht. assert (launch f j w = stop 1) as Hl by (unfold launch; by rewrite (bool_decide_eq_false_2 _ Ht)).
  unfold bipbip. destruct args as [|v r]; [done|]. by rewrite (bool_decide_eq_false_2 _ Hs), andb_false_r.
Qed.
Theorem C132_no_start : forall int f j w args h, l_state j <> "toLaunch"%string -> AExec h ∉ trace (bipbip int f j w args).
Proof.
  intros int f j w args h Hs H. apply heads_In in H. destruct (bipbip_not_to_launch int f j w args Hs) as [Hh _].
  rewrite Hh in H. by apply elem_of_nil in H.
Qed.
(** A report for a job in state toLaunch is not a report: the job is launched. *)
Theorem C132_to_launch_refuted : forall int f j w args, l_state j = "toLaunch"%string -> bipbip int f j w args = launch f j w.
Proof. intros. by apply bipbip_to_launch. Qed.
Definition running1 : ljob := mkLjob "Running" "PASSIVE" "None" [] ["node1"]%string "ch".
Theorem C132_example : bipbip (fun _ => Some 0) nop_fin running1 fine ["0"; "0"; "ch"]%string =
  mkRun [ASet "Finishing"; AEvent "SWITCH_INTO_TERMINATE_STATE" None; AAlmighty "ChState"; AAlmighty "Term"; AAlmighty "BipBip"]%string 0 None.
Proof. reflexivity. Qed.

(** * C134: the events of the end of a job *)
Definition complete (e : tup) : Prop := match e with Triple _ None => False | _ => True end.
Definition act_of (e : tup) : act := match e with Pair t => AEvent t None | Triple t h => AEvent t h end.
Lemma record_complete evs : Forall complete evs -> record evs = (act_of <$> evs, None).
Proof. induction 1 as [|e evs He _ IH]; [done|]. destruct e as [t|t [h|]]; cbn in *; [by rewrite IH|by rewrite IH|done]. Qed.
Lemma record_stops evs t rest : Forall complete evs -> record (evs ++ Triple t None :: rest) = (act_of <$> evs, Some EType).
Proof. induction 1 as [|e evs He _ IH]; [done|]. destruct e as [x|x [h|]]; cbn in *; [by rewrite IH|by rewrite IH|done]. Qed.
Lemma pairs_complete ts : Forall complete (Pair <$> ts).
Proof. induction ts; constructor; done. Qed.
Lemma clean_complete f ts : Forall complete (clean_events f ts).2.
Proof. unfold clean_events. destruct (bool_decide _); [constructor|]. destruct (f_cnodes f) as [[|]|]; [constructor| |constructor]. destruct (f_clean f) as [[|]|]; repeat constructor. Qed.
Lemma ping_complete f ts hs : Forall complete (ping_events f ts hs).2.
Proof. unfold ping_events. destruct (f_ping f); [|constructor]. destruct (bool_decide _); [constructor|]. destruct (o hs) as [[|]|]; repeat constructor. Qed.
Definition epilogue_failed (o : option script) : Prop := o = Some SBad \/ o = Some STimeout.
(** The events of the exit code of the executor are always recorded, for a job with a node. *)
Theorem C134_exit_code : forall f st ts hs e c t, st ∈ end_states -> hs <> [] -> t ∈ (JobModel.end_events e).1 ->
  recorded t None (check_end f st ts hs e c).
Proof. exact check_end_events. Qed.
(** Unless the server epilogue fails, the nodes whose cleaning failed, or that do not answer, are recorded too. *)
Theorem C134_nodes_partial : forall f st ts hs e c, st ∈ end_states -> hs <> [] -> ~ epilogue_failed (f_epilogue f) ->
  (forall n ns b bs, "deploy"%string ∉ ts -> "cosystem"%string ∉ ts -> "noop"%string ∉ ts -> f_cnodes f = Some (n :: ns) -> f_clean f = Some (b :: bs) ->
     recorded "CPUSET_CLEAN_ERROR" (Some (b :: bs)) (check_end f st ts hs e c)) /\
  (forall p b bs, "deploy"%string ∉ ts -> "noop"%string ∉ ts -> f_ping f = Some p -> p hs = Some (b :: bs) ->
     recorded "PING_CHECKER_NODE_SUSPECTED_END_JOB" (Some (b :: bs)) (check_end f st ts hs e c)) /\
  raised (check_end f st ts hs e c) = None.
Proof.
  intros f st ts hs e c Hst Hh Hep. unfold recorded.
  destruct (check_end_form f st ts hs e c) as (l & x & -> & [(? & _)|(_ & l' & -> & _ & [(_ & ? & _)|(_ & l'' & -> & Hx)])]); [done|done|].
  cbn [trace tell raised]. rewrite app_nil_r.
  destruct (finishing_events f ts hs (Pair <$> (JobModel.end_events e).1)) as (Hf & Hi & _).
  assert ((epilogue_events (f_epilogue f)).2 = []) as He.
  { destruct (f_epilogue f) as [[]|] eqn:E; try done; exfalso; apply Hep; unfold epilogue_failed; auto. }
  rewrite He in *. cbn [app] in *.
  rewrite record_complete in Hf, Hi
    by (repeat (apply Forall_app; split); [apply pairs_complete|apply clean_complete|apply ping_complete]).
  cbn [fst snd] in *. split; [|split].
  - intros n ns b bs H1 H2 H3 Hc Hb. apply elem_of_cons. right. apply elem_of_app. left. apply Hi.
    apply elem_of_list_fmap. exists (Triple "CPUSET_CLEAN_ERROR" (Some (b :: bs))). split; [done|].
    rewrite !elem_of_app. right; left. unfold clean_events. rewrite bool_decide_eq_false_2 by tauto. rewrite Hc, Hb. cbn.
    apply elem_of_cons. by left.
  - intros p b bs H1 H2 Hp Hb. apply elem_of_cons. right. apply elem_of_app. left. apply Hi.
    apply elem_of_list_fmap. exists (Triple "PING_CHECKER_NODE_SUSPECTED_END_JOB" (Some (b :: bs))). split; [done|].
    rewrite !elem_of_app. right; right. unfold ping_events. rewrite Hp, bool_decide_eq_false_2 by tauto. rewrite Hb. cbn.
    apply elem_of_cons. by left.
  - by rewrite Hx.
Qed.
(** When the server epilogue fails, its failure is never recorded, nor the nodes found bad, and Almighty is not told. *)
Theorem C134_epilogue_refuted : forall f st ts hs e c, st ∈ end_states -> hs <> [] -> epilogue_failed (f_epilogue f) ->
  (forall ty h, recorded ty h (check_end f st ts hs e c) -> ty ∈ (JobModel.end_events e).1 /\ h = None) /\
  raised (check_end f st ts hs e c) = Some EType.
Proof.
  intros f st ts hs e c Hst Hh Hep. unfold recorded.
  assert (exists t, (epilogue_events (f_epilogue f)).2 = [Triple t None]) as (t & He) by (destruct Hep as [-> | ->]; eauto).
  unfold check_end. rewrite (bool_decide_eq_true_2 _ Hst).
  rewrite (bool_decide_eq_false_2 (hs = [])) by done. rewrite andb_false_r.
  destruct (finishing_events f ts hs (Pair <$> (JobModel.end_events e).1)) as (Hf & _ & Hi).
  rewrite He in *. cbn [app] in *. rewrite record_stops in Hf, Hi by apply pairs_complete. cbn [fst snd] in *.
  destruct (finishing f ts hs _) as [l x]. cbn [fst snd] in *. subst x. cbn [trace tell raised crash]. split; [|done].
  intros ty h. rewrite app_nil_r. cbn [app]. intros [?|H]%elem_of_cons; [done|]. apply Hi in H.
  apply elem_of_list_fmap in H as (y & Hy & H). apply elem_of_list_fmap in H as (t' & -> & H). cbn in Hy. injection Hy as -> ->. done.
Qed.
Definition epi_fails : finworld := mkFin (Some SBad) (Some ["node1"]%string) (Some ["node1"]%string) (Some (fun hs => Some hs)).
Definition epi_ok : finworld := mkFin (Some SOk) (Some ["node1"]%string) (Some ["node1"]%string) (Some (fun hs => Some hs)).
Theorem C134_example :
  check_end epi_fails "Running" [] ["node1"]%string 0 0 =
    mkRun [ASet "Finishing"; AEpilogue; ACpuset "clean" ["node1"]; APing ["node1"]; AEvent "SWITCH_INTO_TERMINATE_STATE" None]%string 0 (Some EType) /\
  check_end epi_ok "Running" [] ["node1"]%string 0 0 =
    mkRun [ASet "Finishing"; AEpilogue; ACpuset "clean" ["node1"]; APing ["node1"]; AEvent "SWITCH_INTO_TERMINATE_STATE" None;
           AEvent "CPUSET_CLEAN_ERROR" (Some ["node1"]); AEvent "PING_CHECKER_NODE_SUSPECTED_END_JOB" (Some ["node1"]);
           AAlmighty "ChState"; AAlmighty "Term"; AAlmighty "BipBip"]%string 0 None.
Proof. split; reflexivity. Qed.

(** * C135: the cpusets put in place are removed *)
(** The launch that fails because some cpusets failed removes the others... *)
Theorem C135_cleaned_partial : forall f j w n ns bad, on_nodes j -> l_state j = "toLaunch"%string -> l_resv j = "None"%string ->
  cnodes w = Some (n :: ns) -> init w = Some bad -> bad <> [] -> bad ⊆+ n :: ns ->
  in_place bad (trace (launch f j w)) [] = [] /\ ~ started (launch f j w).
Proof.
  intros f j w n ns bad Ho Hs Hr Hc Hi Hb Hsub. split.
  2:{ intros (h & H). destruct (C129_installed_partial f j w h n ns bad Ho Hr Hc Hi H) as [? _]. done. }
  destruct Ho as (Hd & Hco & Hh). unfold launch. rewrite (bool_decide_eq_true_2 _ Hs). unfold has_type.
  rewrite (bool_decide_eq_false_2 _ Hd), (bool_decide_eq_false_2 _ Hco), (bool_decide_eq_false_2 _ Hh). cbn [negb andb].
  assert (forall l now, (forall a, a ∈ l -> match a with ACpuset _ _ => False | _ => True end) -> in_place bad l now = now) as Hno.
  { intros l. induction l as [|a l IH]; intros now Hl; [done|]. cbn. assert (match a with ACpuset _ _ => False | _ => True end) as Ha
      by (apply Hl; apply elem_of_cons; by left).
    destruct a; try done; (apply IH; intros b Hb'; apply Hl; apply elem_of_cons; by right). }
  assert (forall ty b bs k, trace (suspects j ty (l_hosts j) (b :: bs) k) =
     (if interactive j then [ANotify "ERROR: some resources did not respond"] else []) ++ [AEvent ty (Some (b :: bs)); AAlmighty "ChState"]) as Hsus.
  { intros ty b bs k. unfold suspects. destruct (interactive j); [done|]. by rewrite (bool_decide_eq_true_2 _ Hr). }
  assert (forall b bs now, in_place bad (trace (check_nodes f j w (l_hosts j) (b :: bs))) now = now) as Hcn.
  { intros b bs now. cbn [check_nodes]. rewrite Hsus. apply Hno. intros a Ha. apply elem_of_app in Ha as [Ha|Ha].
    - destruct (interactive j); [|by apply elem_of_nil in Ha]. by apply elem_of_list_singleton in Ha as ->.
    - apply elem_of_cons in Ha as [->|Ha]; [done|]. by apply elem_of_list_singleton in Ha as ->. }
  assert (forall r now, in_place bad ((ASet "Launching" :: (if interactive j then [ANotify "Starting..."] else [])) ++ r) now = in_place bad r now) as Hpre.
  { intros r now. by destruct (interactive j). }
  rewrite trace_tell, Hpre. unfold cpuset_part. rewrite Hc, Hi, trace_tell. cbn [app in_place].
  change (String.eqb "init" "init") with true. cbv iota.
  destruct bad as [|b bs]; [done|].
  destruct (decide (b :: bs <> [] /\ length (b :: bs) < length (n :: ns))%nat) as [Hl|Hl].
  - rewrite (bool_decide_eq_true_2 _ Hl), (bool_decide_eq_true_2 _ Hr), trace_tell. cbn [app in_place].
    change (String.eqb "clean" "init") with false. cbv iota. cbn [app]. rewrite Hcn.
    apply filter_none0. intros x Hx Hn. by apply Hn.
  - rewrite (bool_decide_eq_false_2 _ Hl), Hcn. cbn [app].
    assert (b :: bs ≡ₚ n :: ns) as Hp.
    { apply submseteq_Permutation_length_le; [|done]. destruct (decide (length (n :: ns) <= length (b :: bs))%nat); [done|]. exfalso. apply Hl. split; [done|lia]. }
    apply filter_none0. intros x Hx Hn. apply Hn. by rewrite Hp.
Qed.
(** ... and the end of a job cleans all its nodes. *)
Theorem C135_end_partial : forall f st ts hs e c n ns, st ∈ end_states -> hs <> [] ->
  "deploy"%string ∉ ts -> "cosystem"%string ∉ ts -> "noop"%string ∉ ts -> f_cnodes f = Some (n :: ns) ->
  ACpuset "clean" (n :: ns) ∈ trace (check_end f st ts hs e c).
Proof.
  intros f st ts hs e c n ns Hst Hh H1 H2 H3 Hc.
  destruct (check_end_form f st ts hs e c) as (l & x & -> & [(? & _)|(_ & l' & -> & _ & [(_ & ? & _)|(_ & l'' & -> & _)])]); [done|done|].
  cbn [trace tell]. rewrite app_nil_r. apply elem_of_cons. right. apply elem_of_app. left.
  unfold finishing. assert ((clean_events f ts).1 = [ACpuset "clean" (n :: ns)]) as He.
  { unfold clean_events. rewrite bool_decide_eq_false_2 by tauto. by rewrite Hc. }
  destruct (epilogue_events _) as [a1 e1], (clean_events _ _) as [a2 e2], (ping_events _ _ _) as [a3 e3].
  destruct (record _) as [l e0]. cbn [fst] in *. rewrite He, !elem_of_app. right; left. apply elem_of_cons. by left.
Qed.
(** But when a node stops answering between the two checks, the cpusets of all the nodes stay in place; and the end of a
    noop job, whose launch put its cpusets in place, cleans nothing. *)
Theorem C135_left_refuted :
  (forall f j w n ns b bs, on_nodes j -> l_state j = "toLaunch"%string -> l_resv j = "None"%string -> cnodes w = Some (n :: ns) ->
     init w = Some [] -> ping w (l_hosts j) = Some (b :: bs) ->
     in_place [] (trace (launch f j w)) [] = n :: ns /\ ~ started (launch f j w)) /\
  (forall f st ts hs e c a hs', "noop"%string ∈ ts -> ACpuset a hs' ∉ trace (check_end f st ts hs e c)) /\
  in_place [] (trace (launch nop_fin (mkLjob "toLaunch" "PASSIVE" "None" ["noop"] ["node1"; "node2"] "ch")%string fine)) [] = ["node1"; "node2"]%string.
Proof.
  split; [|split].
  - intros f j w n ns b bs Ho Hs Hr Hc Hi Hp. split.
    + pose proof Ho as (Hd & Hco & Hh). unfold launch. rewrite (bool_decide_eq_true_2 _ Hs). unfold has_type.
      rewrite (bool_decide_eq_false_2 _ Hd), (bool_decide_eq_false_2 _ Hco), (bool_decide_eq_false_2 _ Hh). cbn [negb andb].
      unfold cpuset_part, check_nodes, suspects. rewrite Hc, Hi, Hp. rewrite (bool_decide_eq_true_2 _ Hr).
      rewrite (bool_decide_eq_false_2 ([] <> [] /\ _)) by (intros [? _]; done).
      assert (base.filter (fun h => h ∉ []) (n :: ns) = n :: ns) as Hf.
      { generalize (n :: ns). intros l. induction l as [|x l IH]; [done|]. rewrite filter_cons_True by apply not_elem_of_nil. by rewrite IH. }
      destruct (interactive j); cbn [trace tell app in_place]; change (String.eqb "init" "init") with true; cbv iota;
        rewrite Hf; reflexivity.
    + intros (h & H). destruct (C130_checked_partial f j w h Ho Hr H) as [_ Hx]. congruence.
  - intros f st ts hs e c a hs' Hn H.
    assert (Forall (fun a => match a with ACpuset _ _ => False | _ => True end) (trace (check_end f st ts hs e c))) as HF.
    2:{ rewrite Forall_forall in HF. by apply HF in H. }
    clear H. unfold check_end. destruct (bool_decide _); [|repeat constructor].
    cbn [trace tell]. constructor; [done|]. destruct (_ && _); [constructor|].
    assert (Forall (fun a => match a with ACpuset _ _ => False | _ => True end) (finishing f ts hs (Pair <$> (JobModel.end_events e).1)).1) as HF.
    { unfold finishing. assert (clean_events f ts = ([], [])) as ->.
      { unfold clean_events. by rewrite bool_decide_eq_true_2 by tauto. }
      assert (Forall (fun a => match a with ACpuset _ _ => False | _ => True end) (epilogue_events (f_epilogue f)).1) as H1
        by (destruct (f_epilogue f) as [[]|]; repeat constructor).
      assert (Forall (fun a => match a with ACpuset _ _ => False | _ => True end) (ping_events f ts hs).1) as H2.
      { unfold ping_events. destruct (f_ping f); [|constructor]. destruct (bool_decide _); repeat constructor. }
      destruct (epilogue_events _) as [a1 e1], (ping_events _ _ _) as [a3 e3].
      pose proof (record_acts ((Pair <$> (JobModel.end_events e).1) ++ e1 ++ [] ++ e3)) as Hr.
      destruct (record _) as [l e0]; cbn [fst] in *. repeat (apply Forall_app; split); try done.
      - eapply Forall_impl; [exact Hr|]. by intros ? (? & ? & ->).
      - destruct e0; [constructor|]. match goal with |- Forall _ (match ?x with _ => _ end) => destruct x end; repeat constructor. }
    destruct (finishing _ _ _ _) as [l [x|]]; cbn [fst trace tell] in *.
    + rewrite app_nil_r. done.
    + rewrite app_nil_r. apply Forall_app. split; [done|]. destruct (notify_term e); repeat constructor.
  - reflexivity.
Qed.
Theorem C135_example : launch nop_fin job1 (with_init (Some ["node1"]%string) fine) =
  mkRun [ASet "Launching"; ACpuset "init" ["node1"; "node2"]; ACpuset "clean" ["node2"]; AEvent "CPUSET_ERROR" (Some ["node1"]);
         AAlmighty "ChState"]%string 2 None.
Proof. reflexivity. Qed.
Print Assumptions C126_once.
Print Assumptions C126_recorded_first.
Print Assumptions C126_example.
Print Assumptions C127_ignored_refuted.
Print Assumptions C127_runs_anyway.
Print Assumptions C127_recorded_partial.
Print Assumptions C127_example.
Print Assumptions C128_silent.
Print Assumptions C128_reported_partial.
Print Assumptions C128_silent_refuted.
Print Assumptions C128_example.
Print Assumptions C129_installed_partial.
Print Assumptions C129_reservation_partial.
Print Assumptions C129_timeout_refuted.
Print Assumptions C129_timeout_example.
Print Assumptions C129_example.
Print Assumptions C130_checked_partial.
Print Assumptions C130_example.
Print Assumptions C130_reservation_refuted.
Print Assumptions C131_told.
Print Assumptions C131_not_deleted_refuted.
Print Assumptions C131_example.
Print Assumptions C132_challenge.
Print Assumptions C132_wrong_challenge.
Print Assumptions C132_accepted.
Print Assumptions C132_other_states.
Print Assumptions C132_no_start.
Print Assumptions C132_to_launch_refuted.
Print Assumptions C132_example.
Print Assumptions C134_exit_code.
Print Assumptions C134_nodes_partial.
Print Assumptions C134_epilogue_refuted.
Print Assumptions C134_example.
Print Assumptions C135_cleaned_partial.
Print Assumptions C135_end_partial.
Print Assumptions C135_left_refuted.
Print Assumptions C135_example.
