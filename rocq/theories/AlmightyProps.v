(** The server loop: C39, C68. *)
From Verif Require Import Base AlmightyModel.

(** ** Vocabulary of the statements *)
Definition takes (o : list obs) : list string := omap (fun x => match x with OTake c => Some c | ORun _ _ _ => None end) o.
Definition sched_runs (o : list obs) : list (Z * Z) := omap (fun x => match x with ORun CSched b e => Some (b, e) | _ => None end) o.
Definition cmds (l : list msg) : list string := omap (fun x => match x with MCmd c => Some c | _ => None end) l.
(** A property of every turn of a run. *)
Fixpoint along (rx : regex) (cf : acfg) (P : alm -> turn -> Prop) (l : list turn) (a : alm) : Prop :=
  match l with
  | [] => True
  | t :: l' => P a t /\ match step rx cf t a with Ok (a1, _) => along rx cf P l' a1 | Err _ => True end
  end.
Lemma takes_app o1 o2 : takes (o1 ++ o2) = takes o1 ++ takes o2.
Proof. unfold takes. apply omap_app. Qed.
Lemma sched_runs_app o1 o2 : sched_runs (o1 ++ o2) = sched_runs o1 ++ sched_runs o2.
Proof. unfold sched_runs. apply omap_app. Qed.
Lemma run_cons rx cf t l a a' o : run rx cf (t :: l) a = Ok (a', o) ->
  exists a1 o1 o2, step rx cf t a = Ok (a1, o1) /\ run rx cf l a1 = Ok (a', o2) /\ o = o1 ++ o2.
Proof.
  cbn [run]. intros H. apply rbind_Ok in H as ((a1 & o1) & H1 & H). apply rbind_Ok in H as ((a2 & o2) & H2 & H). injection H as <- <-. eauto 8.
Qed.
(** Simplification of the successor states *)
Ltac proj := cbn [st queue wanted lastscheduler lastvillains lastchecknodes finish inbox with_st with_queue with_inbox with_finish] in *.

(** ** C39. No notification is lost, the order is kept *)
Lemma add_grows rx c q q' : add_command rx c q = Ok q' -> exists x, q' = q ++ x.
Proof. unfold add_command. destruct (rx c); [|done]. destruct (existsb _ q); intros [= <-]; [exists []; by rewrite app_nil_r|eauto]. Qed.
Lemma opt_grows (b : bool) rx c q q' : (if b then add_command rx c q else Ok q) = Ok q' -> exists x, q' = q ++ x.
Proof. destruct b; [apply add_grows|]. intros [= <-]. exists []. by rewrite app_nil_r. Qed.
Lemma time_update_grows rx cf now a a' : time_update rx cf now a = Ok a' -> (exists x, queue a' = queue a ++ x) /\ inbox a' = inbox a.
Proof.
  unfold time_update. intros H. apply rbind_Ok in H as (q1 & H1 & H). apply rbind_Ok in H as (q2 & H2 & H). apply rbind_Ok in H as (q3 & H3 & H). injection H as <-. proj. split; [|done].
  apply opt_grows in H1 as (x1 & ->). apply opt_grows in H2 as (x2 & ->). apply opt_grows in H3 as (x3 & ->).
  exists (x1 ++ x2 ++ x3). by rewrite !app_assoc.
Qed.
Definition books (a : alm) (arrived : list msg) (a' : alm) (o : list obs) : Prop :=
  exists added consumed, queue a ++ added = takes o ++ queue a' /\ inbox a ++ arrived = consumed ++ inbox a' /\ cmds consumed `sublist_of` added.
Lemma books_same a arrived a' o : queue a' = queue a -> inbox a' = inbox a ++ arrived -> takes o = [] -> books a arrived a' o.
Proof. intros H1 H2 H3. exists [], []. rewrite H1, H2, H3, app_nil_r. done. Qed.
Lemma books_grow a arrived a' o x : queue a' = queue a ++ x -> inbox a' = inbox a ++ arrived -> takes o = [] -> books a arrived a' o.
Proof. intros H1 H2 H3. exists x, []. rewrite H1, H2, H3. split; [done|]. split; [done|]. apply sublist_nil_l. Qed.
Lemma step_books rx cf t a a' o : step rx cf t a = Ok (a', o) -> books a (arrive t) a' o.
Proof.
  unfold step. set (a0 := with_inbox (inbox a ++ arrive t) a). assert (Hq0 : queue a0 = queue a) by done. assert (Hi0 : inbox a0 = inbox a ++ arrive t) by done.
  set (a1 := if signalled t then with_finish a0 else a0). assert (Hq1 : queue a1 = queue a) by (unfold a1; by destruct (signalled t)). assert (Hi1 : inbox a1 = inbox a ++ arrive t) by (unfold a1; by destruct (signalled t)).
  clearbody a1. clear a0 Hq0 Hi0. destruct (finish a1); [intros [= <- <-]; by apply books_same|]. destruct (greta_died t); [intros [= <- <-]; by apply books_same|].
  destruct (st a1) eqn:Est.
  - intros H. apply rbind_Ok in H as (a2 & H1 & H).
    assert (exists added consumed, queue a ++ added = queue a2 /\ inbox a ++ arrive t = consumed ++ inbox a2 /\ cmds consumed `sublist_of` added) as (added & consumed & E1 & E2 & E3).
    { destruct (queue a1) as [|c q] eqn:Eq.
      - unfold read_commands in H1. rewrite <- Hq1. cbn [app]. destruct (inbox a1) as [|[c| |] l] eqn:Ei.
        + apply rbind_Ok in H1 as (q & Hq & H1). injection H1 as <-. proj. exists q, []. rewrite Ei, <- Hi1. split; [done|]. split; [done|]. apply sublist_nil_l.
        + apply rbind_Ok in H1 as (q & Hq & H1). injection H1 as <-. proj. unfold add_command in Hq. rewrite Eq in Hq. destruct (rx c); [|done]. cbn [existsb app] in Hq. injection Hq as <-.
          exists [c], [MCmd c]. rewrite <- Hi1. done.
        + injection H1 as <-. proj. exists [], [MNull]. rewrite <- Hi1, Eq. done.
        + done.
      - injection H1 as <-. exists [], []. rewrite app_nil_r, <- Hq1, Eq, Hi1. done. }
    destruct (queue a2) as [|c q] eqn:Eq2; [done|]. exists added, consumed. rewrite E1.
    destruct (bool_decide (c = "Time"%string)); [destruct q as [|c' q']|]; injection H as <- <-; proj; done.
  - destruct (_ <=? _); intros [= <- <-]; apply books_same; try done; repeat destruct (_ =? _); done.
  - intros H. apply rbind_Ok in H as (a2 & H1 & H). injection H as <- <-. apply time_update_grows in H1 as [(x & Hx) Hi]. apply (books_grow _ _ _ _ x); proj; try done; congruence.
  - intros [= <- <-]. apply books_same; try done; repeat destruct (_ =? _); done.
  - intros [= <- <-]. apply books_same; try done; repeat destruct (_ =? _); done.
  - destruct (_ =? _); [|intros [= <- <-]; by apply books_same]. intros H. apply rbind_Ok in H as (q & H1 & H). injection H as <- <-. apply add_grows in H1 as (x & ->). apply (books_grow _ _ _ _ x); proj; try done; congruence.
  - destruct (_ =? 2).
    + intros H. apply rbind_Ok in H as (q & H1 & H). injection H as <- <-. apply add_grows in H1 as (x & ->). apply (books_grow _ _ _ _ x); proj; try done; congruence.
    + intros [= <- <-]. apply books_same; try done; repeat destruct (_ =? _); done.
Qed.
(** Over any run: the commands taken from the queue are those that were in it, then those added,
    in the order they were added, and the rest is still in it; the messages read were read in the
    order of arrival, the rest is still in the socket; every command read was added. *)
Theorem C39_fifo rx cf l a a' o : run rx cf l a = Ok (a', o) -> books a (l ≫= arrive) a' o.
Proof.
  revert a o. induction l as [|t l IH]; intros a o H; [injection H as <- <-; exists [], []; cbn; by rewrite !app_nil_r|].
  apply run_cons in H as (a1 & o1 & o2 & H1 & H2 & ->). apply step_books in H1 as (x1 & c1 & E1 & E2 & E3). apply IH in H2 as (x2 & c2 & F1 & F2 & F3).
  exists (x1 ++ x2), (c1 ++ c2). cbn [mbind list_bind]. rewrite takes_app, !app_assoc, E1, <- !app_assoc, F1. split; [done|]. split.
  - rewrite app_assoc, E2, <- app_assoc, F2. done.
  - unfold cmds in *. rewrite omap_app. by apply sublist_app.
Qed.

(** Duplicates are merged. *)
Definition lit_msgs (l : list msg) : Prop := forall m, m ∈ l -> exists c, m = MCmd c /\ literal c = true.
Definition tidy (a : alm) : Prop := NoDup (queue a) /\ (forall c, c ∈ queue a -> literal c = true) /\ lit_msgs (inbox a).
Lemma add_tidy rx c q : rx_ok rx -> literal c = true -> NoDup q -> (forall c, c ∈ q -> literal c = true) ->
  exists q', add_command rx c q = Ok q' /\ NoDup q' /\ (forall c, c ∈ q' -> literal c = true) /\ c ∈ q'.
Proof.
  intros Hrx Hc HN HL. unfold add_command. destruct (Hrx c Hc) as (f & -> & Hf). eexists. split; [done|].
  destruct (existsb f q) eqn:E.
  - split; [done|]. split; [done|]. apply existsb_exists in E as (x & Hx & Hfx). apply elem_of_list_In in Hx. rewrite Hf in Hfx by (by apply HL). apply bool_decide_eq_true in Hfx as ->. done.
  - split; [|split; [|set_solver]].
    + apply NoDup_app. split; [done|]. split; [|apply NoDup_singleton]. intros x Hx Hx'. apply elem_of_list_singleton in Hx' as ->.
      assert (existsb f q = true); [|congruence]. apply existsb_exists. exists c. split; [by apply elem_of_list_In|]. rewrite Hf by done. by apply bool_decide_eq_true.
    + intros x Hx. apply elem_of_app in Hx as [Hx|Hx]; [by apply HL|]. by apply elem_of_list_singleton in Hx as ->.
Qed.
Lemma time_update_tidy rx cf now a : rx_ok rx -> tidy a -> exists a', time_update rx cf now a = Ok a' /\ tidy a' /\ finish a' = finish a /\
  (wanted a = true -> lastscheduler a + min_between cf <= now -> "Scheduling"%string ∈ queue a').
Proof.
  intros Hrx (HN & HL & HI). unfold time_update.
  assert (exists q, (if (lastscheduler a + 60 <=? now) || wanted a && (lastscheduler a + min_between cf <=? now) then add_command rx "Scheduling" (queue a) else Ok (queue a)) = Ok q /\
     NoDup q /\ (forall c, c ∈ q -> literal c = true) /\ (wanted a = true -> lastscheduler a + min_between cf <= now -> "Scheduling"%string ∈ q)) as (q1 & -> & N1 & L1 & S1).
  { destruct (_ || _) eqn:E; [destruct (add_tidy rx "Scheduling" (queue a) Hrx eq_refl HN HL) as (q & ? & ? & ? & ?); eauto 8|].
    exists (queue a). split; [done|]. split; [done|]. split; [done|]. intros Hw Hn. rewrite Hw in E. lia. }
  cbn [rbind].
  assert (exists q, (if lastvillains a + 10 <=? now then add_command rx "Villains" q1 else Ok q1) = Ok q /\ NoDup q /\ (forall c, c ∈ q -> literal c = true) /\ (forall c, c ∈ q1 -> c ∈ q)) as (q2 & -> & N2 & L2 & S2).
  { destruct (_ <=? _); [|eauto]. destruct (add_tidy rx "Villains" q1 Hrx eq_refl N1 L1) as (q & Hq & ? & ? & ?). exists q. split; [done|]. split; [done|]. split; [done|]. apply add_grows in Hq as (x & ->). set_solver. }
  cbn [rbind].
  assert (exists q, (if (lastchecknodes a + finaud cf <=? now) && (0 <? finaud cf) then add_command rx "Finaud" q2 else Ok q2) = Ok q /\ NoDup q /\ (forall c, c ∈ q -> literal c = true) /\ (forall c, c ∈ q2 -> c ∈ q)) as (q3 & -> & N3 & L3 & S3).
  { destruct (_ && _); [|eauto]. destruct (add_tidy rx "Finaud" q2 Hrx eq_refl N2 L2) as (q & Hq & ? & ? & ?). exists q. split; [done|]. split; [done|]. split; [done|]. apply add_grows in Hq as (x & ->). set_solver. }
  cbn [rbind]. eexists. split; [done|]. proj. unfold tidy. proj. repeat split; try done. intros. apply S3, S2, S1; done.
Qed.
(** The exit codes the server knows. *)
Definition known_code (a : alm) (t : turn) : Prop :=
  match st a with
  | Scheduler | ChangeState => code t = 0 \/ code t = 1 \/ code t = 2
  | Villains | CheckNodes => code t = 0 \/ code t = 1
  | _ => True
  end.
Definition ordinary (a : alm) (t : turn) : Prop := signalled t = false /\ lit_msgs (arrive t) /\ known_code a t.
Lemma lit_msgs_app l1 l2 : lit_msgs l1 -> lit_msgs l2 -> lit_msgs (l1 ++ l2).
Proof. intros H1 H2 m Hm. apply elem_of_app in Hm as [?|?]; auto. Qed.
Lemma step_ordinary rx cf t a : rx_ok rx -> tidy a -> finish a = false -> ordinary a t ->
  exists a' o, step rx cf t a = Ok (a', o) /\ tidy a' /\ finish a' = false.
Proof.
  intros Hrx (HN & HL & HI) Hf (Hs & Ha & Hc). unfold step. rewrite Hs. set (a0 := with_inbox (inbox a ++ arrive t) a).
  assert (T0 : tidy a0). { unfold tidy, a0. proj. split; [done|]. split; [done|]. by apply lit_msgs_app. }
  assert (Hf0 : finish a0 = false) by done. assert (Hst0 : st a0 = st a) by done. rewrite Hf0. clearbody a0. clear HN HL HI Hf.
  destruct (greta_died t); [eauto|]. unfold known_code in Hc. rewrite <- Hst0 in Hc. destruct T0 as (HN & HL & HI). destruct (st a0) eqn:Est.
  - assert (exists a2, (match queue a0 with [] => read_commands rx a0 | _ => Ok a0 end) = Ok a2 /\ tidy a2 /\ finish a2 = false /\ queue a2 <> []) as (a2 & -> & (HN2 & HL2 & HI2) & Hf2 & Hne).
    { destruct (queue a0) as [|c q] eqn:Eq.
      - unfold read_commands. rewrite Eq. destruct (inbox a0) as [|m l] eqn:Ei.
        + destruct (add_tidy rx "Time" [] Hrx eq_refl) as (q & Hq & N & L & I); [apply NoDup_nil_2|set_solver|]. rewrite Hq. cbn [rbind]. eexists. split; [done|]. unfold tidy. proj. rewrite Ei. repeat split; try done. intros ->. set_solver.
        + destruct (HI m) as (c & -> & Hlc); [left|]. destruct (add_tidy rx c [] Hrx Hlc) as (q & Hq & N & L & I); [apply NoDup_nil_2|set_solver|]. rewrite Hq. cbn [rbind]. eexists. split; [done|]. unfold tidy. proj.
          repeat split; try done; [intros x Hx; apply HI; by right|]. intros ->. set_solver.
      - exists a0. split; [done|]. unfold tidy. rewrite Eq. done. }
    cbn [rbind]. destruct (queue a2) as [|c q] eqn:Eq2; [done|]. apply NoDup_cons in HN2 as [Hcq HN2].
    destruct (bool_decide (c = "Time"%string)); [destruct q as [|c' q']|]; (eexists _, _; split; [done|]; unfold tidy; proj; split; [|done]).
    + split; [done|]. split; [set_solver|done].
    + apply NoDup_cons in HN2 as [_ HN2]. split; [done|]. split; [|done]. intros x Hx. apply HL2. by do 2 right.
    + split; [done|]. split; [|done]. intros x Hx. apply HL2. by right.
  - destruct (_ <=? _); (eexists _, _; split; [done|]); [|unfold tidy; proj; done]. destruct Hc as [-> | [-> | ->]]; cbn [Z.eqb Pos.eqb]; unfold tidy; proj; done.
  - destruct (time_update_tidy rx cf (clock t) a0 Hrx) as (a2 & -> & T2 & Hf2 & _); [done|]. cbn [rbind]. eexists _, _. split; [done|]. unfold tidy in *. proj. split; [done|]. congruence.
  - eexists _, _. split; [done|]. destruct Hc as [-> | ->]; cbn [Z.eqb Pos.eqb]; unfold tidy; proj; done.
  - eexists _, _. split; [done|]. destruct Hc as [-> | ->]; cbn [Z.eqb Pos.eqb]; unfold tidy; proj; done.
  - destruct (_ =? _); [|eexists _, _; split; [done|]; unfold tidy; proj; done]. proj. destruct (add_tidy rx "Term" (queue a0) Hrx eq_refl HN HL) as (q & -> & ? & ? & ?). cbn [rbind]. eexists _, _. split; [done|]. unfold tidy. proj. done.
  - destruct (code t =? 2) eqn:E2.
    + destruct (add_tidy rx "Term" (queue a0) Hrx eq_refl HN HL) as (q & -> & ? & ? & ?). cbn [rbind]. eexists _, _. split; [done|]. unfold tidy. proj. done.
    + eexists _, _. split; [done|]. destruct Hc as [Hc|[Hc|Hc]]; [| |lia]; rewrite Hc; cbn [Z.eqb Pos.eqb]; unfold tidy; proj; done.
Qed.
(** The queue never holds a command twice, whatever arrives, and the server does not stop. *)
Lemma run_ordinary rx cf l a : rx_ok rx -> tidy a -> finish a = false -> along rx cf ordinary l a ->
  exists a' o, run rx cf l a = Ok (a', o) /\ tidy a' /\ finish a' = false.
Proof.
  intros Hrx. revert a. induction l as [|t l IH]; intros a HT Hf HA; [eexists _, _; done|].
  destruct HA as [Ho HA]. destruct (step_ordinary rx cf t a Hrx HT Hf Ho) as (a1 & o1 & H1 & HT1 & Hf1). rewrite H1 in HA.
  destruct (IH a1 HT1 Hf1 HA) as (a2 & o2 & H2 & HT2 & Hf2). exists a2, (o1 ++ o2). cbn [run]. rewrite H1. cbn [rbind]. rewrite H2. cbn [rbind]. done.
Qed.
Theorem C39_merged rx cf l : rx_ok rx -> along rx cf ordinary l init ->
  exists a' o, run rx cf l init = Ok (a', o) /\ NoDup (queue a').
Proof.
  intros Hrx HA. destruct (run_ordinary rx cf l init Hrx) as (a' & o & H & (HN & _) & _); [|done|done|eauto].
  split; [apply NoDup_nil_2|]. split; [set_solver|]. intros m Hm. by apply elem_of_nil in Hm.
Qed.

(** *** Two scheduler runs are separated by the configured delay *)
Fixpoint spaced (d last : Z) (l : list (Z * Z)) : Prop :=
  match l with [] => True | (b, e) :: l' => last + d <= b /\ spaced d e l' end.
Lemma spaced_app d last l1 l2 : spaced d last l1 -> spaced d (List.last (snd <$> l1) last) l2 -> spaced d last (l1 ++ l2).
Proof.
  revert last. induction l1 as [|[b e] l1 IH]; intros last H1 H2; [done|]. cbn [app spaced] in *. destruct H1 as [? H1]. split; [done|]. apply IH; [done|].
  cbn [fmap list_fmap snd] in H2. destruct l1 as [|x l1]; [exact H2|]. replace (List.last (snd <$> x :: l1) e) with (List.last (e :: (snd <$> x :: l1)) last); [done|].
  clear. cbn [fmap list_fmap]. revert x. induction l1 as [|y l1 IH]; intros x; [done|]. cbn [fmap list_fmap] in *. specialize (IH y). cbn [List.last] in *. exact IH.
Qed.
Lemma step_sched rx cf t a a' o : step rx cf t a = Ok (a', o) ->
  (sched_runs o = [] /\ lastscheduler a' = lastscheduler a /\ (wanted a = true -> wanted a' = true)) \/
  (st a = Scheduler /\ lastscheduler a + min_between cf <= clock t /\ sched_runs o = [(clock t, clock_after t)] /\ lastscheduler a' = clock_after t).
Proof.
  unfold step. set (a0 := with_inbox (inbox a ++ arrive t) a).
  set (a1 := if signalled t then with_finish a0 else a0). assert (H1 : lastscheduler a1 = lastscheduler a /\ wanted a1 = wanted a /\ st a1 = st a) by (unfold a1; by destruct (signalled t)).
  clearbody a1. clear a0. destruct H1 as (El & Ew & Es). rewrite <- El, <- Ew, <- Es. clear El Ew Es. destruct (finish a1); [intros [= <- <-]; by left|]. destruct (greta_died t); [intros [= <- <-]; by left|].
  destruct (st a1) eqn:Est.
  - intros H. apply rbind_Ok in H as (a2 & H1 & H). left.
    assert (lastscheduler a2 = lastscheduler a1 /\ wanted a2 = wanted a1) as [<- <-].
    { destruct (queue a1); [|by injection H1 as <-]. unfold read_commands in H1. destruct (inbox a1) as [|[c| |] ?]; try done; [| |by injection H1 as <-]; apply rbind_Ok in H1 as (q & _ & H1); by injection H1 as <-. }
    destruct (queue a2) as [|c q]; [done|]. destruct (bool_decide (c = "Time"%string)); [destruct q as [|c' q']|]; injection H as <- <-; proj; done.
  - destruct (_ <=? _) eqn:E; intros [= <- <-]; [right|left; done]. split; [done|]. split; [lia|]. split; [done|]. repeat destruct (_ =? _); done.
  - intros H. apply rbind_Ok in H as (a2 & H1 & H). injection H as <- <-. left. unfold time_update in H1. repeat (apply rbind_Ok in H1 as (? & _ & H1)). injection H1 as <-. proj. done.
  - intros [= <- <-]. left. repeat destruct (_ =? _); done.
  - intros [= <- <-]. left. repeat destruct (_ =? _); done.
  - left. destruct (_ =? _); [|by injection H as <- <-]. apply rbind_Ok in H as (q & H1 & H). by injection H as <- <-.
  - intros H. left. destruct (_ =? 2).
    + apply rbind_Ok in H as (q & H1 & H). by injection H as <- <-.
    + injection H as <- <-. repeat destruct (_ =? _); done.
Qed.
Theorem C39_spaced rx cf l a a' o : run rx cf l a = Ok (a', o) -> spaced (min_between cf) (lastscheduler a) (sched_runs o).
Proof.
  revert a o. induction l as [|t l IH]; intros a o H; [injection H as <- <-; done|].
  apply run_cons in H as (a1 & o1 & o2 & H1 & H2 & ->). apply IH in H2. rewrite sched_runs_app.
  apply step_sched in H1 as [(-> & El & _)|(_ & Hle & -> & El)]; rewrite El in H2; cbn [app spaced]; done.
Qed.

(** *** A scheduling request is remembered until the scheduler runs *)
Definition pending_sched (a : alm) : Prop := finish a = true \/ wanted a = true \/ st a = Scheduler.
Lemma step_keeps_pending rx cf t a a' o : step rx cf t a = Ok (a', o) -> sched_runs o = [] -> pending_sched a -> pending_sched a'.
Proof.
  intros H Hno [Hf|[Hw|Hs]].
  - unfold step in H. replace (finish (if signalled t then with_finish (with_inbox (inbox a ++ arrive t) a) else with_inbox (inbox a ++ arrive t) a)) with true in H by (by destruct (signalled t)).
    injection H as <- <-. left. by destruct (signalled t).
  - apply step_sched in H as [(_ & _ & Hk)|(_ & _ & Hr & _)]; [|congruence]. right. left. by apply Hk.
  - unfold step in H. set (a0 := with_inbox (inbox a ++ arrive t) a) in H. assert (Hs0 : st a0 = Scheduler) by done. destruct (signalled t).
    { replace (finish (with_finish a0)) with true in H by done. injection H as <- <-. by left. }
    destruct (finish a0) eqn:Ef; [injection H as <- <-; by left|]. destruct (greta_died t); [injection H as <- <-; right; by right|]. rewrite Hs0 in H.
    destruct (_ <=? _); injection H as <- <-; [|right; by left]. done.
Qed.
Lemma run_keeps_pending rx cf l a a' o : run rx cf l a = Ok (a', o) -> sched_runs o = [] -> pending_sched a -> pending_sched a'.
Proof.
  revert a o. induction l as [|t l IH]; intros a o H Hno HP; [by injection H as <- <-|].
  apply run_cons in H as (a1 & o1 & o2 & H1 & H2 & ->). rewrite sched_runs_app in Hno. apply app_eq_nil in Hno as [N1 N2]. apply (IH a1 o2); try done. by eapply step_keeps_pending.
Qed.
Lemma step_takes rx cf t a a' o c : step rx cf t a = Ok (a', o) -> c ∈ sched_commands -> OTake c ∈ o ->
  pending_sched a' /\ sched_runs o = [].
Proof.
  intros H Hc. assert (Hd : forall x, x ∈ sched_commands -> dispatch x = Scheduler) by (intros x Hx; unfold dispatch; by rewrite bool_decide_eq_true_2).
  assert (Hnt : c <> "Time"%string) by (intros ->; revert Hc; by_dec).
  unfold step in H. set (a1 := if signalled t then _ else _) in H. clearbody a1. destruct (finish a1); [injection H as <- <-; by intros ?%elem_of_nil|]. destruct (greta_died t); [injection H as <- <-; by intros ?%elem_of_nil|].
  destruct (st a1).
  - apply rbind_Ok in H as (a2 & _ & H). destruct (queue a2) as [|x q]; [done|]. destruct (bool_decide (x = "Time"%string)) eqn:Ex; [destruct q as [|c' q']|]; injection H as <- <-; intros Hin.
    + apply elem_of_list_singleton in Hin as [= <-]. apply bool_decide_eq_true in Ex. done.
    + apply elem_of_cons in Hin as [[= <-]|Hin]; [apply bool_decide_eq_true in Ex; done|]. apply elem_of_list_singleton in Hin as [= <-]. split; [|done]. right. right. proj. by apply Hd.
    + apply elem_of_list_singleton in Hin as [= <-]. split; [|done]. right. right. proj. by apply Hd.
  - destruct (_ <=? _) in H; injection H as _ <-; [|by intros ?%elem_of_nil]. intros Hin. apply elem_of_list_singleton in Hin. done.
  - apply rbind_Ok in H as (a2 & _ & H). injection H as _ <-. by intros ?%elem_of_nil.
  - injection H as _ <-. intros Hin. by apply elem_of_list_singleton in Hin.
  - injection H as _ <-. intros Hin. by apply elem_of_list_singleton in Hin.
  - destruct (_ =? _) in H; [apply rbind_Ok in H as (q & _ & H)|]; injection H as _ <-; intros Hin; by apply elem_of_list_singleton in Hin.
  - destruct (_ =? 2) in H; [apply rbind_Ok in H as (q & _ & H)|]; injection H as _ <-; intros Hin; by apply elem_of_list_singleton in Hin.
Qed.
(** After a command that asks for scheduling has been taken, and as long as the scheduler has not
    run since, the server is about to run it or remembers that it has to (or is stopping). *)
Theorem C39_remembered rx cf l a a' o1 o2 c : run rx cf l a = Ok (a', o1 ++ OTake c :: o2) -> c ∈ sched_commands -> sched_runs o2 = [] -> pending_sched a'.
Proof.
  intros H Hc Hno. revert a o1 H. induction l as [|t l IH]; intros a o1 H.
  - injection H as _ H. by destruct o1.
  - apply run_cons in H as (a1 & p1 & p2 & H1 & H2 & E). apply app_eq_inv in E as [(k & E1 & E2)|(k & E1 & E2)].
    + apply (IH a1 k). by rewrite <- E2.
    + destruct k as [|x k].
      * cbn [app] in E2. apply (IH a1 []). by rewrite E2.
      * cbn [app] in E2. injection E2 as <- E2. destruct (step_takes _ _ _ _ _ _ c H1 Hc) as [HP HR]; [rewrite E1; set_solver|].
        apply (run_keeps_pending rx cf l a1 a' p2); try done. rewrite E2, sched_runs_app in Hno. by apply app_eq_nil in Hno as [_ ?].
Qed.
(** And the reminder becomes a scheduling command as soon as the delay is over. *)
Theorem C39_reminder rx cf t a : rx_ok rx -> tidy a -> finish a = false -> signalled t = false -> greta_died t = false ->
  st a = TimeUpdate -> wanted a = true -> lastscheduler a + min_between cf <= clock t -> lit_msgs (arrive t) ->
  exists a', step rx cf t a = Ok (a', []) /\ "Scheduling"%string ∈ queue a'.
Proof.
  intros Hrx (HN & HL & HI) Hf Hs Hg Hst Hw Hle Ha. unfold step. rewrite Hs. set (a0 := with_inbox (inbox a ++ arrive t) a). replace (finish a0) with false by done. rewrite Hg. replace (st a0) with TimeUpdate by done.
  destruct (time_update_tidy rx cf (clock t) a0 Hrx) as (a2 & -> & T2 & Hf2 & Hsc); [unfold tidy, a0; proj; split; [done|]; split; [done|]; by apply lit_msgs_app|].
  cbn [rbind]. eexists. split; [done|]. proj. by apply Hsc.
Qed.

(** *** Every command of the queue is taken *)
Definition rank (s : state) : nat := match s with Qget => 0 | TimeUpdate => 1 | Leon => 2 | ChangeState => 3 | Scheduler => 4 | Villains => 3 | CheckNodes => 4 end.
(** Exit codes other than 1 for the scheduler and the node changes, which ask for a new
    scheduling round before anything else. *)
Definition smooth (a : alm) (t : turn) : Prop :=
  ordinary a t /\ greta_died t = false /\ (st a = Scheduler \/ st a = ChangeState -> code t <> 1).
Lemma step_rank rx cf t a a' o : finish a = false -> smooth a t -> step rx cf t a = Ok (a', o) ->
  (rank (st a') <= 4)%nat /\ (st a <> Qget -> (rank (st a') < rank (st a))%nat) /\ (st a = Qget -> (1 <= length (takes o))%nat).
Proof.
  intros Hf ((Hs & _ & Hc) & Hg & Hno). unfold step. rewrite Hs. set (a0 := with_inbox (inbox a ++ arrive t) a). replace (finish a0) with (finish a) by done. rewrite Hf, Hg.
  unfold known_code in Hc. assert (Est0 : st a0 = st a) by done. rewrite <- Est0 in *. clearbody a0. clear Est0 Hf. intros H. split; [destruct (st a'); cbn; lia|].
  destruct (st a0) eqn:Est.
  - split; [done|]. intros _. apply rbind_Ok in H as (a2 & _ & H). destruct (queue a2) as [|x q]; [done|]. destruct (bool_decide (x = "Time"%string)); [destruct q as [|c' q']|]; injection H as <- <-; cbn; lia.
  - split; [|done]. intros _. destruct (_ <=? _) in H; injection H as <- _; [|cbn; lia]. destruct Hc as [Hc|[Hc|Hc]]; [|exfalso; apply Hno; [by left|done]|]; rewrite Hc; cbn; lia.
  - split; [|done]. intros _. apply rbind_Ok in H as (a2 & _ & H). injection H as <- _. cbn. lia.
  - split; [|done]. intros _. injection H as <- _. destruct Hc as [Hc|Hc]; rewrite Hc; cbn; lia.
  - split; [|done]. intros _. injection H as <- _. destruct Hc as [Hc|Hc]; rewrite Hc; cbn; lia.
  - split; [|done]. intros _. destruct (_ =? _) in H; [apply rbind_Ok in H as (q & _ & H)|]; injection H as <- _; cbn; lia.
  - split; [|done]. intros _. destruct Hc as [Hc|[Hc|Hc]]; rewrite Hc in H; cbn [Z.eqb Pos.eqb] in H; [|exfalso; apply Hno; [by right|done]|].
    + injection H as <- _. cbn. lia.
    + apply rbind_Ok in H as (q & _ & H). injection H as <- _. cbn. lia.
Qed.
Lemma run_counts rx cf p l a a' o : rx_ok rx -> tidy a -> finish a = false -> along rx cf smooth l a -> run rx cf l a = Ok (a', o) ->
  (5 * p + rank (st a) <= length l)%nat -> (p <= length (takes o))%nat.
Proof.
  intros Hrx. revert p a o. induction l as [|t l IH]; intros p a o HT Hf HA H Hlen; [cbn in Hlen; lia|].
  apply run_cons in H as (a1 & o1 & o2 & H1 & H2 & ->). cbn [along] in HA. rewrite H1 in HA. destruct HA as [Hsm HA].
  destruct (step_ordinary rx cf t a Hrx HT Hf (proj1 Hsm)) as (a1' & o1' & H1' & HT1 & Hf1). rewrite H1 in H1'. injection H1' as <- <-.
  destruct (step_rank _ _ _ _ _ _ Hf Hsm H1) as (R1 & R2 & R3). rewrite takes_app, app_length. cbn [length] in Hlen.
  destruct (decide (st a = Qget)) as [E|E].
  - rewrite E in Hlen. cbn [rank] in Hlen. specialize (R3 E). destruct p as [|p]; [lia|]. assert (p <= length (takes o2))%nat; [|lia]. apply (IH p a1 o2); try done. lia.
  - specialize (R2 E). assert (p <= length (takes o2))%nat; [|lia]. apply (IH p a1 o2); try done. lia.
Qed.
(** Partial: in a run whose exit codes never ask for a new round, the first [p] commands of the
    queue are taken within 5 p + 4 turns, in order. *)
Theorem C39_served_partial rx cf p l a a' o : rx_ok rx -> tidy a -> finish a = false -> along rx cf smooth l a -> run rx cf l a = Ok (a', o) ->
  (p <= length (queue a))%nat -> (5 * p + 4 <= length l)%nat -> take p (queue a) `prefix_of` takes o.
Proof.
  intros Hrx HT Hf HA H Hp Hlen. assert (p <= length (takes o))%nat as Hc. { apply (run_counts rx cf p l a a' o); try done. destruct (st a); cbn [rank]; lia. }
  apply C39_fifo in H as (x & c & E & _). exists (drop p (takes o)). rewrite <- (take_drop p (takes o)) at 1. f_equal.
  assert (take p (queue a ++ x) = take p (takes o ++ queue a')) as E' by (by rewrite E). rewrite !take_app_le in E' by done. done.
Qed.
(** Refuted without that: when the node changes take longer than the delay and always ask for a new
    round, the server schedules for ever and the deletion request in its queue is never looked at. *)
Definition lturn (b e c : Z) : turn := mkTurn [] false false b e c.
Fixpoint busy (k : nat) (t : Z) : list turn := match k with O => [] | S k => lturn t (t + 1) 0 :: lturn (t + 1) (t + 7) 1 :: busy k (t + 7) end.
Theorem C39_starvation_refuted rx k t last : last + 5 <= t ->
  exists last' o, run rx (mkCfg 5 0) (busy k t) (mkAlm Scheduler ["Qdel"%string] false last 0 0 false [MCmd "Qsub"]) =
    Ok (mkAlm Scheduler ["Qdel"%string] false last' 0 0 false [MCmd "Qsub"], o) /\ takes o = [] /\ length (sched_runs o) = k.
Proof.
  revert t last. induction k as [|k IH]; intros t last Hl; [by eexists _, _|]. cbn [busy run].
  assert (step rx (mkCfg 5 0) (lturn t (t + 1) 0) (mkAlm Scheduler ["Qdel"%string] false last 0 0 false [MCmd "Qsub"]) = Ok (mkAlm ChangeState ["Qdel"%string] false (t + 1) 0 0 false [MCmd "Qsub"], [ORun CSched t (t + 1)])) as ->.
  { unfold step. cbn -[Z.add Z.leb]. replace (last + 5 <=? t) with true by lia. done. }
  cbn [rbind].
  assert (step rx (mkCfg 5 0) (lturn (t + 1) (t + 7) 1) (mkAlm ChangeState ["Qdel"%string] false (t + 1) 0 0 false [MCmd "Qsub"]) = Ok (mkAlm Scheduler ["Qdel"%string] false (t + 1) 0 0 false [MCmd "Qsub"], [ORun CChState (t + 1) (t + 7)])) as -> by done.
  cbn [rbind]. destruct (IH (t + 7) (t + 1) ltac:(lia)) as (last' & o & -> & Ht & Hr). cbn [rbind]. eexists _, _. split; [done|]. split; [exact Ht|]. cbn. by rewrite <- Hr.
Qed.

(** A concrete server: commands match themselves only. *)
Definition rx0 : regex := fun s => if literal s then Some (fun x => bool_decide (x = s)) else None.
Lemma rx0_ok : rx_ok rx0.
Proof. intros s Hs. unfold rx0. rewrite Hs. eexists. split; [done|]. done. Qed.
Definition cf0 : acfg := mkCfg 5 300.
Definition demo : list turn :=
  [mkTurn [MCmd "Qsub"; MCmd "Qdel"; MCmd "Qsub"] false false 100 100 0; lturn 100 101 0; lturn 101 102 2; lturn 102 103 0; lturn 103 103 0;
   lturn 103 103 0; lturn 103 103 0; lturn 103 103 0].
Example C39_case : along rx0 cf0 smooth demo init /\
  (match run rx0 cf0 demo init with Ok (a, o) => (queue a, inbox a, wanted a, takes o, sched_runs o) | Err _ => ([], [], false, [], []) end) =
    (["Villains"]%string, [MCmd "Qdel"; MCmd "Qsub"], true, ["Qsub"; "Term"]%string, [(100, 101)]).
Proof.
  split; [|vm_compute; done].
  assert (forall (P : alm -> turn -> Prop) l a t a1 o, P a t -> step rx0 cf0 t a = Ok (a1, o) -> along rx0 cf0 P l a1 -> along rx0 cf0 P (t :: l) a) as Hcons by (intros P l a t a1 o H1 H2 H3; cbn [along]; by rewrite H2).
  assert (forall a b e c, known_code a (lturn b e c) -> c <> 1 -> smooth a (lturn b e c)) as Hl.
  { intros a b e c Hk Hc. split; [|done]. split; [done|]. split; [|done]. intros m Hm. by apply elem_of_nil in Hm. }
  unfold demo. eapply Hcons; [|vm_compute; reflexivity|].
  { split; [|done]. split; [done|]. split; [|done]. intros m Hm. repeat (apply elem_of_cons in Hm as [->|Hm]; [eauto|]). by apply elem_of_nil in Hm. }
  do 7 (eapply Hcons; [apply Hl; [cbn; tauto|done]|vm_compute; reflexivity|]). exact I.
Qed.

(** ** C68. Nothing received and no child can stop the server *)
Theorem C68_keeps_running_partial rx cf l : rx_ok rx -> along rx cf ordinary l init ->
  exists a' o, run rx cf l init = Ok (a', o) /\ finish a' = false.
Proof.
  intros Hrx HA. destruct (run_ordinary rx cf l init Hrx) as (a' & o & H & _ & Hf); [|done|done|eauto].
  split; [apply NoDup_nil_2|]. split; [set_solver|]. intros m Hm. by apply elem_of_nil in Hm.
Qed.
(** Refuted: a notification that is null, that has no command or whose text is not a regular
    expression stops the server with an exception. *)
Theorem C68_message_refuted rx cf t : rx "("%string = None -> signalled t = false -> greta_died t = false ->
  (arrive t = [MNull] -> step rx cf t init = Err EIndex) /\ (arrive t = [MBad] -> step rx cf t init = Err EKey) /\ (arrive t = [MCmd "("] -> step rx cf t init = Err EName).
Proof. intros Hrx Hs Hg. unfold step. rewrite Hs, Hg. repeat split; intros ->; cbn; unfold add_command; try rewrite Hrx; done. Qed.
(** Refuted: any other exit code of a child (137: killed) stops the server. *)
Theorem C68_child_refuted rx cf t a : st a = Villains -> finish a = false -> greta_died t = false -> code t = 137 ->
  exists a' o, step rx cf t a = Ok (a', o) /\ finish a' = true.
Proof.
  intros Hst Hf Hg Hc. unfold step. destruct (signalled t); proj; rewrite ?Hf, ?Hg, ?Hst, ?Hc; cbn; eauto.
Qed.
Example C68_case : rx0 "("%string = None.
Proof. vm_compute. done. Qed.
Print Assumptions C39_fifo.
Print Assumptions C39_merged.
Print Assumptions C39_spaced.
Print Assumptions C39_remembered.
Print Assumptions C39_reminder.
Print Assumptions C39_served_partial.
Print Assumptions C39_starvation_refuted.
Print Assumptions C68_keeps_running_partial.
Print Assumptions C68_message_refuted.
Print Assumptions C68_child_refuted.
