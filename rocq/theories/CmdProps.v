(** The commands on jobs: C211-C216. *)
From Verif Require Import Base JobModel JobProofs CmdModel CmdSpec.
From Verif Require AdminModel.

(** * The exit status *)
Lemma exits_nonzero evs p : p <> 0 -> fst (AdminModel.exits evs p p) <> 0.
Proof. revert p. induction evs as [|e r IH]; intros p Hp; cbn [AdminModel.exits fst]; [done|]. destruct (Z.eqb_spec e 0) as [->|He]; [by apply IH|]. destruct (negb (p =? 0) && negb (p =? e)); [done|by apply IH]. Qed.
Lemma exit_zero o : exit_status o = 0 <-> Forall (fun e => e = 0) (o_exits o).
Proof.
  unfold exit_status, AdminModel.get_exit_value. cbn [AdminModel.final_exit AdminModel.exit_values]. rewrite Z.eqb_refl. generalize (o_exits o) as evs. intros evs.
  assert (H : fst (AdminModel.exits evs 0 0) = 0 <-> Forall (fun e => e = 0) evs).
  { induction evs as [|e r IH]; cbn [AdminModel.exits fst]; [split; [intros; apply Forall_nil; done|done]|]. destruct (Z.eqb_spec e 0) as [->|He]; [rewrite IH, Forall_cons; tauto|]. cbn [Z.eqb negb andb].
    split; [intros H; by apply exits_nonzero in H|]. intros H. apply Forall_cons in H as [H _]. done. }
  rewrite <- H. destruct (AdminModel.exits evs 0 0) as [v f]. done.
Qed.
Lemma exits_add o v : Forall (fun e => e = 0) (o_exits (add_exit v o)) <-> Forall (fun e => e = 0) (o_exits o) /\ v = 0.
Proof. cbn. rewrite Forall_app, Forall_singleton. done. Qed.
Lemma admin_spec u : admin u = true <-> administrator u.
Proof. unfold admin, administrator. rewrite orb_true_iff, !bool_decide_eq_true. done. Qed.
Lemma may_spec u j : bool_decide (u = j_user j) || admin u = true <-> may u j.
Proof. unfold may. rewrite orb_true_iff, bool_decide_eq_true, admin_spec. unfold administrator. tauto. Qed.
Lemma find_job d id : proper_jobs d -> (exists j, get_job d id = Some j /\ j ∈ jobs d /\ j_id j = id) \/ (get_job d id = None /\ forall j, j ∈ jobs d -> j_id j <> id).
Proof.
  intros HU. destruct (get_job d id) as [j|] eqn:E; [left; exists j; split; [done|]; by apply get_job_in|]. right. split; [done|]. intros j Hj <-. by rewrite (get_job_of d j HU Hj) in E.
Qed.
Lemma the_job d id j j' : proper_jobs d -> get_job d id = Some j -> j' ∈ jobs d -> j_id j' = id -> j' = j.
Proof. intros HU E Hj <-. rewrite (get_job_of d j' HU Hj) in E. congruence. Qed.

(** * C211: deletion *)
Lemma frag_job_cases date u id d : proper_jobs d ->
  (deletable u d id /\ frag_job date u id d = (0, add_event "FRAG_JOB_REQUEST" id (with_frags (fun l => l ++ [mkFrag id date "LEON"]) d))) \/
  (~ deletable u d id /\ (exists j, j ∈ jobs d /\ j_id j = id /\ may u j) /\ frag_job date u id d = (-2, d)) \/
  (~ deletable u d id /\ ~ (exists j, j ∈ jobs d /\ j_id j = id /\ may u j) /\ exists e, (e = -1 \/ e = -3) /\ frag_job date u id d = (e, d)).
Proof.
  intros HU. unfold frag_job. destruct (find_job d id HU) as [(j & -> & Hj & Hid)|[-> Hn]].
  - destruct (bool_decide (u = j_user j) || admin u) eqn:Em.
    + apply may_spec in Em. destruct (filter (fun f => f_job f = id) (frags d)) as [|f l] eqn:Ef.
      * left. split; [|done]. split; [eauto|]. intros f Hf Hid'. assert (Hin : f ∈ filter (fun f => f_job f = id) (frags d)) by (by apply elem_of_list_filter). rewrite Ef in Hin. by apply elem_of_nil in Hin.
      * right. left. split; [|split; [eauto|done]]. intros [_ H]. assert (Hin : f ∈ filter (fun f => f_job f = id) (frags d)) by (rewrite Ef; left). apply elem_of_list_filter in Hin as [H1 H2]. by apply (H f H2).
    + right. right. assert (Hno : ~ exists j0, j0 ∈ jobs d /\ j_id j0 = id /\ may u j0).
      { intros (j0 & H0 & Hid0 & Hm). assert (get_job d id = Some j) as Eg by (rewrite <- Hid; by apply get_job_of). rewrite (the_job d id j j0 HU Eg H0 Hid0) in Hm. apply may_spec in Hm. congruence. }
      split; [intros [H _]; done|]. split; [done|]. exists (-1). split; [by left|done].
  - right. right. assert (Hno : ~ exists j0, j0 ∈ jobs d /\ j_id j0 = id /\ may u j0) by (intros (j0 & H0 & Hid0 & _); by apply (Hn j0)). split; [intros [H _]; done|]. split; [done|]. exists (-3). split; [by right|done].
Qed.
Lemma deletable_after u d id id' date : deletable u (add_event "FRAG_JOB_REQUEST" id (with_frags (fun l => l ++ [mkFrag id date "LEON"]) d)) id' <-> deletable u d id' /\ id' <> id.
Proof.
  unfold deletable, add_event, with_events, with_frags. cbn [jobs frags]. split.
  - intros [H1 H2]. split; [split; [done|]; intros f Hf; apply H2, elem_of_app; by left|]. intros ->. apply (H2 (mkFrag id date "LEON")); [apply elem_of_app; right; by apply elem_of_list_singleton|done].
  - intros [[H1 H2] H3]. split; [done|]. intros f Hf. apply elem_of_app in Hf as [Hf|Hf]; [by apply H2|]. apply elem_of_list_singleton in Hf as ->. cbn. congruence.
Qed.
Lemma delete_fold w u ids : forall o n o' n', proper_jobs (o_db o) -> fold_left (delete_one w u) ids (o, n) = (o', n') ->
  same_jobs (o_db o) (o_db o') /\ o_sent o' = o_sent o /\ o_signals o' = o_signals o /\
  (forall f, f ∈ frags (o_db o') <-> f ∈ frags (o_db o) \/ exists id, id ∈ ids /\ deletable u (o_db o) id /\ f = mkFrag id (w_now w) "LEON") /\
  (forall e, e ∈ events (o_db o') <-> e ∈ events (o_db o) \/ exists id, id ∈ ids /\ deletable u (o_db o) id /\ e = mkEv "FRAG_JOB_REQUEST" id "YES") /\
  (NoDup (f_job <$> frags (o_db o)) -> NoDup (f_job <$> frags (o_db o'))) /\
  (Forall (fun e => e = 0) (o_exits o') <-> Forall (fun e => e = 0) (o_exits o) /\ NoDup ids /\ forall id, id ∈ ids -> deletable u (o_db o) id) /\
  (n' = true <-> n = true \/ exists id j, id ∈ ids /\ j ∈ jobs (o_db o) /\ j_id j = id /\ may u j).
Proof.
  induction ids as [|id ids IH]; intros o n o' n' HU E; cbn [fold_left] in E.
  - assert (o' = o) as -> by congruence. assert (n' = n) as -> by congruence. split; [done|]. split; [done|]. split; [done|].
    split; [intros f; split; [by left|intros [H|(id & H & _)]; [done|by apply elem_of_nil in H]]|]. split; [intros f; split; [by left|intros [H|(id & H & _)]; [done|by apply elem_of_nil in H]]|].
    split; [done|]. split; [split; [intros H; split; [done|]; split; [constructor|intros id Hid; by apply elem_of_nil in Hid]|tauto]|]. split; [by left|]. intros [H|(id & j & H & _)]; [done|by apply elem_of_nil in H].
  - unfold delete_one in E at 2. destruct (frag_job_cases (w_now w) u id (o_db o) HU) as [[Hd Ef]|[(Hd & Hex & Ef)|(Hd & Hex & e & He & Ef)]]; rewrite Ef in E.
    + cbn [Z.eqb negb orb frag_exit] in E. set (o1 := add_exit 0 _) in E. assert (HU1 : proper_jobs (o_db o1)) by exact HU. replace (n || false || true) with true in E by (by destruct n). destruct (IH _ _ _ _ HU1 E) as (S & H1 & H2 & H3 & H4 & H5 & H6 & H7).
      assert (Ed : o_db o1 = add_event "FRAG_JOB_REQUEST" id (with_frags (fun l => l ++ [mkFrag id (w_now w) "LEON"]) (o_db o))) by done.
      rewrite Ed in S, H3, H4, H5, H6, H7. clear Ef E. split; [exact S|]. split; [exact H1|]. split; [exact H2|]. split; [|split; [|split; [|split]]].
      * intros f. rewrite H3. cbn [frags add_event with_events with_frags]. rewrite elem_of_app, elem_of_list_singleton. split.
        -- intros [[H| ->]|(id' & Hi & Hd' & ->)]; [by left|right; exists id; split; [left|done]|]. apply deletable_after in Hd' as [Hd' _]. right. exists id'. split; [by right|done].
        -- intros [H|(id' & Hi & Hd' & ->)]; [by left; left|]. apply elem_of_cons in Hi as [->|Hi]; [left; by right|]. destruct (decide (id' = id)) as [->|Hne]; [left; by right|]. right. exists id'. split; [done|]. split; [by apply deletable_after|done].
      * intros f. rewrite H4. cbn [events add_event with_events with_frags]. rewrite elem_of_app, elem_of_list_singleton. split.
        -- intros [[H| ->]|(id' & Hi & Hd' & ->)]; [by left|right; exists id; split; [left|done]|]. apply deletable_after in Hd' as [Hd' _]. right. exists id'. split; [by right|done].
        -- intros [H|(id' & Hi & Hd' & ->)]; [by left; left|]. apply elem_of_cons in Hi as [->|Hi]; [left; by right|]. destruct (decide (id' = id)) as [->|Hne]; [left; by right|]. right. exists id'. split; [done|]. split; [by apply deletable_after|done].
      * intros HN. apply H5. cbn [frags add_event with_events with_frags]. rewrite fmap_app. apply NoDup_app. split; [done|]. split; [|apply NoDup_singleton]. intros x Hx Hx'. apply elem_of_list_singleton in Hx' as ->. apply elem_of_list_fmap in Hx as (f & Hf & Hfi). cbn in Hf. destruct Hd as [_ Hd]. by apply (Hd f Hfi).
      * rewrite H6. unfold o1. rewrite exits_add. cbn [on_db o_exits]. rewrite NoDup_cons. split.
        -- intros ([H _] & HN & HA). split; [done|]. split; [split; [|done]; intros Hin; apply HA, deletable_after in Hin; tauto|]. intros id' Hi. apply elem_of_cons in Hi as [->|Hi]; [done|]. by apply HA, deletable_after in Hi as [? _].
        -- intros (H & [Hn HN] & HA). split; [done|]. split; [done|]. intros id' Hi. apply deletable_after. split; [apply HA; by right|]. by intros ->.
      * rewrite H7. split; [|intros _; by left]. intros _. right. destruct Hd as [(j & Hj) _]. exists id, j. split; [left|done].
    + assert (Hb : n || (-2 =? -2) || negb ((-2 =? -1) || (-2 =? -2) || (-2 =? -3)) = true) by (by destruct n). rewrite Hb in E. clear Hb. set (o1 := add_exit _ _) in E. assert (HU1 : proper_jobs (o_db o1)) by exact HU. destruct (IH _ _ _ _ HU1 E) as (S & H1 & H2 & H3 & H4 & H5 & H6 & H7). change (o_db o1) with (o_db o) in *.
      split; [exact S|]. split; [exact H1|]. split; [exact H2|]. split; [|split; [|split; [exact H5|split]]].
      * intros f. rewrite H3. split; (intros [H|(id' & Hi & Hd' & ->)]; [by left|]); [right; exists id'; split; [by right|done]|]. apply elem_of_cons in Hi as [->|Hi]; [done|]. right. by exists id'.
      * intros f. rewrite H4. split; (intros [H|(id' & Hi & Hd' & ->)]; [by left|]); [right; exists id'; split; [by right|done]|]. apply elem_of_cons in Hi as [->|Hi]; [done|]. right. by exists id'.
      * rewrite H6. unfold o1. rewrite exits_add. split; [intros ([_ H] & _); done|]. intros (_ & _ & HA). exfalso. apply Hd, HA. left.
      * rewrite H7. split; [|intros _; by left]. intros _. right. destruct Hex as (j & Hj). exists id, j. split; [left|done].
    + assert (Hz : frag_exit e <> 0) by (destruct He as [-> | ->]; done). assert (Hb : n || (e =? -2) || negb ((e =? -1) || (e =? -2) || (e =? -3)) = n) by (destruct He as [-> | ->]; by destruct n). rewrite Hb in E. clear Hb.
      set (o1 := add_exit _ _) in E. assert (HU1 : proper_jobs (o_db o1)) by exact HU. destruct (IH _ _ _ _ HU1 E) as (S & H1 & H2 & H3 & H4 & H5 & H6 & H7). change (o_db o1) with (o_db o) in *.
      split; [exact S|]. split; [exact H1|]. split; [exact H2|]. split; [|split; [|split; [exact H5|split]]].
      * intros f. rewrite H3. split; (intros [H|(id' & Hi & Hd' & ->)]; [by left|]); [right; exists id'; split; [by right|done]|]. apply elem_of_cons in Hi as [->|Hi]; [done|]. right. by exists id'.
      * intros f. rewrite H4. split; (intros [H|(id' & Hi & Hd' & ->)]; [by left|]); [right; exists id'; split; [by right|done]|]. apply elem_of_cons in Hi as [->|Hi]; [done|]. right. by exists id'.
      * rewrite H6. unfold o1. rewrite exits_add. split; [intros ([_ H] & _); done|]. intros (_ & _ & HA). exfalso. apply Hd, HA. left.
      * rewrite H7. split; (intros [H|(id' & j & Hi & Hj)]; [by left|]); [right; exists id', j; split; [by right|done]|]. apply elem_of_cons in Hi as [->|Hi]; [exfalso; apply Hex; by exists j|]. right. by exists id', j.
Qed.
(** What oardel does to the jobs of its list, and what it says. *)
Theorem C211_delete w u ids d o e : proper_jobs d -> ids <> [] -> oardel w u ids 0 None (mkDel false None false false) d = (o, e) ->
  e = None /\ same_jobs d (o_db o) /\
  (forall f, f ∈ frags (o_db o) <-> f ∈ frags d \/ exists id, id ∈ ids /\ deletable u d id /\ f = mkFrag id (w_now w) "LEON") /\
  (forall v, v ∈ events (o_db o) <-> v ∈ events d \/ exists id, id ∈ ids /\ deletable u d id /\ v = mkEv "FRAG_JOB_REQUEST" id "YES") /\
  (NoDup (f_job <$> frags d) -> NoDup (f_job <$> frags (o_db o))) /\
  (exit_status o = 0 <-> NoDup ids /\ (forall id, id ∈ ids -> deletable u d id) /\ w_reach w = true) /\
  ("Qdel"%string ∈ o_sent o <-> w_reach w = true /\ exists id j, id ∈ ids /\ j ∈ jobs d /\ j_id j = id /\ may u j).
Proof.
  intros HU Hne E. unfold oardel, select in E. rewrite bool_decide_false in E by done. cbn [andb Z.eqb d_checkpoint d_signal d_besteffort d_force orb] in E. rewrite bool_decide_false in E by (by intros [? ?]). unfold delete_jobs in E.
  destruct (fold_left (delete_one w u) ids (start_of d, false)) as [o1 n1] eqn:Ef. destruct (delete_fold w u ids (start_of d) false o1 n1 HU Ef) as (S & H1 & H2 & H3 & H4 & H5 & H6 & H7). cbn [start_of o_db o_exits o_sent o_signals] in *.
  assert (e = None) as -> by congruence. split; [done|].
  assert (Hex : n1 = true <-> exists id j, id ∈ ids /\ j ∈ jobs d /\ j_id j = id /\ may u j) by (rewrite H7; split; [intros [H|H]; done|by right]).
  assert (Hall : (forall id, id ∈ ids -> deletable u d id) -> n1 = true).
  { intros HA. apply Hex. destruct ids as [|id ids]; [done|]. destruct (HA id) as [(j & Hj) _]; [left|]. exists id, j. split; [left|done]. }
  rewrite <- Hex. destruct n1.
  - destruct (w_reach w) eqn:Ew.
    + assert (o = mkOut (o_db o1) (o_exits o1) (o_sent o1 ++ ["ChState"; "Qdel"]%string) (o_signals o1)) as -> by congruence. cbn [o_db o_sent]. split; [exact S|]. split; [exact H3|]. split; [exact H4|]. split; [exact H5|]. split.
      * rewrite exit_zero. cbn [o_exits]. rewrite H6. split; [intros (_ & A & B); done|intros (A & B & _); split; [by apply Forall_nil|done]].
      * rewrite H1. split; [done|]. intros _. right. left.
    + assert (o = add_exit 2 o1) as -> by congruence. cbn [add_exit o_db o_sent]. split; [exact S|]. split; [exact H3|]. split; [exact H4|]. split; [exact H5|]. split.
      * rewrite exit_zero, exits_add. split; [intros [_ H]; done|intros (_ & _ & H); done].
      * rewrite H1. split; [intros H; by apply elem_of_nil in H|intros [H _]; done].
  - assert (o = o1) as -> by congruence. split; [exact S|]. split; [exact H3|]. split; [exact H4|]. split; [exact H5|]. split.
    + rewrite exit_zero, H6. split; [intros (_ & A & B); by specialize (Hall B)|intros (A & B & _); by specialize (Hall B)].
    + rewrite H1. split; [intros H; by apply elem_of_nil in H|intros [_ H]; done].
Qed.

(** * C212: which jobs *)
(** With an array the jobs are those of the array, whatever the identifiers that are given; with a condition, those of the condition. *)
Theorem C212_array w u ids a l p d : a <> 0 -> w_array w a = l -> l <> [] -> oardel w u ids a None p d = oardel w u l 0 None p d.
Proof.
  intros Ha <- Hl. unfold oardel, select. rewrite (bool_decide_false (w_array w a = [])) by done. destruct (Z.eqb_spec a 0) as [->|_]; [done|]. rewrite andb_false_r. cbn [andb Z.eqb]. destruct (w_array w a) as [|x r]; done.
Qed.
Theorem C212_condition w u ids a q l p d : (a <> 0 -> w_array w a <> []) -> w_sql w q = l -> l <> [] -> oardel w u ids a (Some q) p d = oardel w u l 0 None p d.
Proof.
  intros Ha <- Hl. unfold oardel, select. rewrite (bool_decide_false (w_sql w q = [])) by done. rewrite (bool_decide_false (Some q = None)) by done. rewrite andb_false_r. cbn [andb Z.eqb].
  destruct (Z.eqb_spec a 0) as [->|Hn]; [destruct (w_sql w q); done|]. specialize (Ha Hn). destruct (w_array w a) as [|x r]; [done|]. destruct (w_sql w q); done.
Qed.
(** Nothing is asked for: an error, and nothing is done. *)
Theorem C212_usage w u p d : oardel w u [] 0 None p d = (mkOut d [1] [] [], None) /\ forall allowed cpuset running, oarhold w allowed cpuset running u [] 0 None d = mkOut d [1] [] [] /\ oarresume w allowed u [] 0 None d = mkOut d [1] [] [].
Proof. split; [reflexivity|]. intros. split; reflexivity. Qed.
(** So a job that is named together with an array is not deleted, and the command says that all is well; *)
Theorem C212_named_refuted w u ids a p d : a <> 0 -> w_array w a = [] ->
  exists o, oardel w u ids a None p d = (o, None) /\ o_db o = d /\ o_sent o = [] /\ o_signals o = [] /\ exit_status o = 0.
Proof.
  intros Ha E. exists (add_exit 0 (start_of d)). split; [|split; [done|split; [done|split; [done|reflexivity]]]]. unfold oardel, select. destruct (Z.eqb_spec a 0) as [->|_]; [done|]. rewrite andb_false_r. cbn [andb]. rewrite E. done.
Qed.
(** the same with a condition that selects nothing. *)
Theorem C212_empty_refuted w u ids q p d : w_sql w q = [] ->
  exists o, oardel w u ids 0 (Some q) p d = (o, None) /\ o_db o = d /\ o_sent o = [] /\ o_signals o = [] /\ exit_status o = 0.
Proof.
  intros E. exists (add_exit 0 (start_of d)). split; [|split; [done|split; [done|split; [done|reflexivity]]]]. unfold oardel, select. rewrite (bool_decide_false (Some q = None)) by done. rewrite andb_false_r. cbn [Z.eqb]. rewrite E. done.
Qed.

(** * C213: the signals *)
Definition is_text (us : option usignal) (text : option string) : Prop := us = match text with Some s => Some (SText s) | None => None end.
Definition keeps (u : string) (d : db) (id : Z) : bool :=
  match get_job d id with
  | None => false
  | Some j => negb (bool_decide (j_type j = "INTERACTIVE"%string)) && (bool_decide (u = j_user j) || admin u) && bool_decide (j_state j = "Running"%string)
  end.
Lemma keeps_spec u d id : proper_jobs d -> keeps u d id = true <-> exists j, signalable u d j /\ j_id j = id.
Proof.
  intros HU. unfold keeps, signalable. destruct (find_job d id HU) as [(j & E & Hj & Hid)|[-> Hn]].
  - rewrite E. rewrite !andb_true_iff, negb_true_iff, bool_decide_eq_false, bool_decide_eq_true, may_spec. split.
    + intros [[H1 H2] H3]. exists j. done.
    + intros (j' & (H1 & H2 & H3 & H4) & H5). rewrite (the_job d id j j' HU E H1 H5) in *. done.
  - split; [done|]. intros (j & (Hj & _) & Hid). by apply (Hn j) in Hj.
Qed.
Lemma signal_host_ok w j h : signal_host w j = Ok h <-> host_of w j h.
Proof.
  unfold signal_host, host_of. destruct (decide ("cosystem"%string ∈ j_types j)) as [H|H].
  - rewrite bool_decide_true by done. split; [intros [= <-]; by left|]. intros [[_ ->]|[[H' _]|[H' _]]]; done.
  - rewrite bool_decide_false by done. destruct (decide ("deploy"%string ∈ j_types j)) as [H0|H0].
    + rewrite bool_decide_true by done. split; [intros [= <-]; right; by left|]. intros [[H' _]|[(_ & _ & ->)|(_ & H' & _)]]; done.
    + rewrite bool_decide_false by done. destruct (w_hosts w (j_id j)) as [|h0 r] eqn:E.
      * split; [done|]. intros [[H' _]|[(_ & H' & _)|(_ & _ & r & Hr)]]; congruence.
      * split; [intros [= <-]; right; right; split; [done|]; split; [done|]; by exists r|]. intros [[H' _]|[(_ & H' & _)|(_ & _ & r' & Hr)]]; [done|done|congruence].
Qed.
Definition tag_of (c : bool) : string := (if c then "CHECKPOINT" else "SIG")%string.
Definition signalled (w : world) (c : bool) (text : option string) (id : Z) (h : string) (o : out) : out :=
  mkOut (add_event (tag_of c +:+ (if w_signal_fails w h then "_ERROR" else "_SUCCESS")) id (add_event "CHECKPOINT" id (o_db o)))
    (o_exits o ++ [if w_signal_fails w h then 3 else 0]) (o_sent o) (o_signals o ++ [mkSent h id (signal_name c) text]).
Lemma signal_one_cases w u c us text id o : is_text us text ->
  (keeps u (o_db o) id = false /\ exists v, v <> 0 /\ signal_one w u c us id o = (add_exit v o, None)) \/
  (keeps u (o_db o) id = true /\ exists j, get_job (o_db o) id = Some j /\
     ((exists h, signal_host w j = Ok h /\ signal_one w u c us id o = (signalled w c text id h o, None)) \/
      (exists x, signal_host w j = Err x /\ signal_one w u c us id o = (on_db (add_event "CHECKPOINT" id) o, Some x)))).
Proof.
  intros ->. unfold signal_one, ask_checkpoint, keeps. destruct (get_job (o_db o) id) as [j|] eqn:E; [|left; split; [done|]; exists 1; done].
  destruct (bool_decide (j_type j = "INTERACTIVE"%string)); [left; split; [done|]; exists 7; done|]. destruct (bool_decide (u = j_user j) || admin u); [|left; split; [done|]; exists 1; done].
  destruct (bool_decide (j_state j = "Running"%string)); [|left; split; [done|]; exists 5; done]. right. split; [done|]. exists j. split; [done|].
  rewrite bool_decide_false by (by destruct c). cbn [Z.ltb Z.compare].
  assert (Eg : get_job (add_event "CHECKPOINT" id (o_db o)) id = Some j) by exact E. rewrite Eg. destruct (signal_host w j) as [h|x]; [left; exists h|right; exists x]; (split; [done|]).
  - destruct text as [s|]; unfold signalled, tag_of; destruct (w_signal_fails w h); reflexivity.
  - reflexivity.
Qed.
Lemma only_events_refl d : only_events d d.
Proof. split; [done|]. split; [done|]. exists []. by rewrite app_nil_r. Qed.
Lemma only_events_add t id d d' : only_events d d' -> only_events d (add_event t id d').
Proof. intros [S [F [evs E]]]. split; [exact S|]. split; [exact F|]. exists (evs ++ [mkEv t id "YES"]). cbn. rewrite E. by rewrite app_assoc. Qed.
Lemma only_events_trans d d1 d2 : only_events d d1 -> only_events d1 d2 -> only_events d d2.
Proof.
  intros [(A1 & A2 & A3 & A4) [F [evs E]]] [(B1 & B2 & B3 & B4) [F' [evs' E']]]. split; [split; [congruence|split; [congruence|split; congruence]]|]. split; [congruence|]. exists (evs ++ evs'). by rewrite E', E, app_assoc.
Qed.
Lemma keeps_jobs u d d' id : jobs d' = jobs d -> keeps u d' id = keeps u d id.
Proof. intros H. unfold keeps, get_job. by rewrite H. Qed.
Lemma signal_each w u c us text ids : is_text us text -> forall o o' e, each (signal_one w u c us) ids o = (o', e) ->
  only_events (o_db o) (o_db o') /\ o_sent o' = o_sent o /\
  exists gs, o_signals o' = o_signals o ++ gs /\
    (forall g, g ∈ gs -> g_job g ∈ ids /\ keeps u (o_db o) (g_job g) = true /\ g_signal g = signal_name c /\ g_user g = text /\ exists j, get_job (o_db o) (g_job g) = Some j /\ signal_host w j = Ok (g_host g)) /\
    (exists r, List.filter (keeps u (o_db o)) ids = (g_job <$> gs) ++ r /\ (e = None -> r = [])) /\
    (e = None <-> forall id j, id ∈ ids -> keeps u (o_db o) id = true -> get_job (o_db o) id = Some j -> exists h, signal_host w j = Ok h) /\
    (e = None -> Forall (fun v => v = 0) (o_exits o') <-> Forall (fun v => v = 0) (o_exits o) /\ (forall id, id ∈ ids -> keeps u (o_db o) id = true) /\ forall g, g ∈ gs -> w_signal_fails w (g_host g) = false) /\
    (forall v, v ∈ events (o_db o') -> v ∈ events (o_db o) \/ (e_job v ∈ ids /\ keeps u (o_db o) (e_job v) = true)) /\
    (forall v, v ∈ events (o_db o) -> v ∈ events (o_db o')) /\
    (forall g, g ∈ gs -> mkEv "CHECKPOINT" (g_job g) "YES" ∈ events (o_db o') /\
                         mkEv (tag_of c +:+ (if w_signal_fails w (g_host g) then "_ERROR" else "_SUCCESS")) (g_job g) "YES" ∈ events (o_db o')).
Proof.
  intros Ht. induction ids as [|id ids IH]; intros o o' e E; cbn [each] in E.
  - assert (o' = o) as -> by congruence. assert (e = None) as -> by congruence. split; [apply only_events_refl|]. split; [done|]. exists []. rewrite app_nil_r.
    split; [done|]. split; [intros g Hg; by apply elem_of_nil in Hg|]. split; [by exists []|]. split; [split; [|done]; intros _ id j Hid; by apply elem_of_nil in Hid|].
    split; [intros _; split; [intros H; split; [done|]; split; [intros id Hid; by apply elem_of_nil in Hid|intros g Hg; by apply elem_of_nil in Hg]|tauto]|]. split; [tauto|]. split; [tauto|]. intros g Hg; by apply elem_of_nil in Hg.
  - destruct (signal_one_cases w u c us text id o Ht) as [(Hk & v & Hv & E1)|(Hk & j & Hj & [(h & Hh & E1)|(x & Hh & E1)])]; rewrite E1 in E; cbv beta iota in E.
    + destruct (IH _ _ _ E) as (S & H1 & gs & H2 & H3 & (r & H4 & H4') & H5 & H6 & H7 & H8 & H9). clear E E1 IH. change (o_db (add_exit v o)) with (o_db o) in *. change (o_sent (add_exit v o)) with (o_sent o) in *. change (o_signals (add_exit v o)) with (o_signals o) in *.
      split; [exact S|]. split; [exact H1|]. exists gs. split; [exact H2|]. split; [|split; [|split; [|split; [|split; [|split]]]]].
      * intros g Hg. destruct (H3 g Hg) as (A & B). split; [by right|exact B].
      * exists r. cbn [List.filter]. rewrite Hk. done.
      * rewrite H5. split.
        -- intros H id' j' Hi. apply elem_of_cons in Hi as [->|Hi]; [congruence|]. by apply H.
        -- intros H id' j' Hi. apply H. by right.
      * intros He. rewrite (H6 He), exits_add. split; [intros [[_ H] _]; done|]. intros (_ & H & _). assert (Hc : keeps u (o_db o) id = true) by (apply H; left). congruence.
      * intros v' Hv'. destruct (H7 v' Hv') as [H|[A B]]; [by left|right; split; [by right|done]].
      * exact H8.
      * exact H9.
    + destruct (IH _ _ _ E) as (S & H1 & gs & H2 & H3 & (r & H4 & H4') & H5 & H6 & H7 & H8 & H9). clear E E1 IH.
      set (o1 := signalled w c text id h o) in *. assert (J1 : jobs (o_db o1) = jobs (o_db o)) by reflexivity.
      assert (K1 : forall i, keeps u (o_db o1) i = keeps u (o_db o) i) by (intros i; by apply keeps_jobs).
      assert (G1 : forall i, get_job (o_db o1) i = get_job (o_db o) i) by reflexivity.
      assert (V1 : events (o_db o1) = (events (o_db o) ++ [mkEv "CHECKPOINT" id "YES"]) ++ [mkEv (tag_of c +:+ (if w_signal_fails w h then "_ERROR" else "_SUCCESS")) id "YES"]) by reflexivity.
      assert (S1 : only_events (o_db o) (o_db o1)) by (by apply only_events_add, only_events_add, only_events_refl).
      assert (X1 : o_exits o1 = o_exits o ++ [if w_signal_fails w h then 3 else 0]) by reflexivity.
      assert (T1 : o_sent o1 = o_sent o) by reflexivity. assert (Q1 : o_signals o1 = o_signals o ++ [mkSent h id (signal_name c) text]) by reflexivity.
      clearbody o1. split; [by eapply only_events_trans|]. split; [congruence|]. exists (mkSent h id (signal_name c) text :: gs). split; [rewrite H2, Q1, <- app_assoc; done|]. split; [|split; [|split; [|split; [|split; [|split]]]]].
      * intros g Hg. apply elem_of_cons in Hg as [->|Hg]; [cbn; split; [left|]; split; [done|]; split; [done|]; split; [done|]; by exists j|]. destruct (H3 g Hg) as (A & B & B1 & B2 & j' & B3 & B4). rewrite K1 in B. rewrite G1 in B3. split; [by right|]. split; [done|]. split; [done|]. split; [done|]. by exists j'.
      * exists r. cbn [List.filter]. rewrite Hk. rewrite fmap_cons. cbn [g_job]. rewrite <- app_comm_cons, <- H4. split; [|done]. f_equal. clear -K1. induction ids as [|a l IH]; [done|]. cbn. rewrite K1. by destruct (keeps u (o_db o) a); rewrite IH.
      * rewrite H5. split.
        -- intros H id' j' Hi. apply elem_of_cons in Hi as [->|Hi]; [intros _ Hj'; exists h; congruence|]. rewrite <- K1, <- G1. by apply H.
        -- intros H id' j' Hi. rewrite K1, G1. apply H. by right.
      * intros He. rewrite (H6 He), X1, Forall_app, Forall_singleton. split.
        -- intros ([A B] & C & D). split; [done|]. split; [intros i Hi; apply elem_of_cons in Hi as [->|Hi]; [done|]; rewrite <- K1; by apply C|]. intros g Hg. apply elem_of_cons in Hg as [->|Hg]; [cbn; by destruct (w_signal_fails w h)|by apply D].
        -- intros (A & C & D). assert (Hf : w_signal_fails w h = false) by (apply (D (mkSent h id (signal_name c) text)); left). rewrite Hf. split; [done|]. split; [intros i Hi; rewrite K1; apply C; by right|]. intros g Hg. apply D. by right.
      * intros v' Hv'. destruct (H7 v' Hv') as [H|[A B]]; [|right; rewrite <- K1; split; [by right|done]]. rewrite V1 in H. apply elem_of_app in H as [H|H]; [apply elem_of_app in H as [H|H]; [by left|]|]; apply elem_of_list_singleton in H as ->; right; (split; [left|done]).
      * intros v' Hv'. apply H8. rewrite V1. apply elem_of_app. left. apply elem_of_app. by left.
      * intros g Hg. apply elem_of_cons in Hg as [->|Hg]; [|by apply H9]. cbn [g_job g_host]. split; apply H8; rewrite V1; apply elem_of_app; [left; apply elem_of_app; right|right]; by apply elem_of_list_singleton.
    + assert (o' = on_db (add_event "CHECKPOINT" id) o) as -> by congruence. assert (e = Some x) as -> by congruence. clear E E1 IH. split; [by apply only_events_add, only_events_refl|]. split; [done|]. exists []. rewrite app_nil_r. split; [done|].
      split; [intros g Hg; by apply elem_of_nil in Hg|]. split; [exists (List.filter (keeps u (o_db o)) (id :: ids)); split; [done|discriminate]|]. split.
      { split; [discriminate|]. intros H. destruct (H id j) as (h & Hh'); [left|done|done|congruence]. }
      split; [discriminate|]. cbn [on_db o_db events add_event with_events]. split.
      { intros v Hv. apply elem_of_app in Hv as [Hv|Hv]; [by left|]. apply elem_of_list_singleton in Hv as ->. right. split; [left|done]. }
      split; [intros v Hv; apply elem_of_app; by left|]. intros g Hg. by apply elem_of_nil in Hg.
Qed.
(** What oardel -c (no text) and oardel -s (a text) do. *)
Theorem C213_signals w u c text ids d o e : proper_jobs d -> ids <> [] -> c = true \/ is_Some text ->
  oardel w u ids 0 None (mkDel c (match text with Some s => Some (SText s) | None => None end) false false) d = (o, e) ->
  only_events d (o_db o) /\ o_sent o = [] /\
  Forall (good_signal w u d (if c then "SIGUSR2" else "SIGURG") text ids) (o_signals o) /\
  (exists keep, (forall id, keep id = true <-> exists j, signalable u d j /\ j_id j = id) /\ exists r, List.filter keep ids = (g_job <$> o_signals o) ++ r /\ (e = None -> r = [])) /\
  (e = None <-> forall j, signalable u d j -> j_id j ∈ ids -> exists h, host_of w j h) /\
  (e = None -> exit_status o = 0 <-> (forall id, id ∈ ids -> exists j, signalable u d j /\ j_id j = id) /\ forall g, g ∈ o_signals o -> w_signal_fails w (g_host g) = false) /\
  (forall v, v ∈ events (o_db o) -> v ∈ events d \/ exists j, signalable u d j /\ j_id j = e_job v /\ e_job v ∈ ids).
Proof.
  intros HU Hne Hc E. unfold oardel, select in E. rewrite bool_decide_false in E by done. cbn [andb Z.eqb d_checkpoint d_signal d_besteffort d_force] in E.
  assert (Hb : c || bool_decide (is_Some (match text with Some s => Some (SText s) | None => None end)) = true).
  { destruct Hc as [->|[s ->]]; [done|]. rewrite bool_decide_true by (by eexists). apply orb_true_r. }
  rewrite Hb in E. clear Hb Hc. unfold signal_jobs in E. destruct (signal_each w u c _ text ids eq_refl _ _ _ E) as (S & H1 & gs & H2 & H3 & (r & H4 & H4') & H5 & H6 & H7 & H8 & H9). cbn [start_of o_db o_sent o_signals o_exits app] in *. rewrite H2.
  split; [exact S|]. split; [exact H1|]. split; [|split; [|split; [|split]]].
  - apply Forall_forall. intros g Hg. destruct (H3 g Hg) as (A & B & B1 & B2 & j & B3 & B4). split; [done|]. split; [by destruct c|]. split; [done|]. apply keeps_spec in B as (j' & Hs & Hid); [|done]. exists j'. split; [done|]. split; [done|].
    rewrite (the_job d _ j j' HU B3 (proj1 Hs) Hid). by apply signal_host_ok.
  - exists (keeps u d). split; [intros id; by apply keeps_spec|]. by exists r.
  - rewrite H5. split.
    + intros H j Hs Hi. destruct (H (j_id j) j Hi) as (h & Hh); [apply keeps_spec; [done|by exists j]|apply get_job_of; [done|apply Hs]|]. exists h. by apply signal_host_ok.
    + intros H id j Hi Hk Hj. apply keeps_spec in Hk as (j' & Hs & Hid); [|done]. assert (j' = j) as -> by (by eapply the_job; [| |apply Hs|]). destruct (H j Hs) as (h & Hh); [by rewrite Hid|]. exists h. by apply signal_host_ok.
  - intros He. rewrite exit_zero, (H6 He). split.
    + intros (_ & A & B). split; [|done]. intros id Hi. by apply keeps_spec, A.
    + intros (A & B). split; [by apply Forall_nil|]. split; [|done]. intros id Hi. apply keeps_spec; [done|]. by apply A.
  - intros v Hv. destruct (H7 v Hv) as [H|[A B]]; [by left|]. right. apply keeps_spec in B as (j & Hs & Hid); [|done]. by exists j.
Qed.
(** The signal of the user is recorded in the events as a checkpoint. *)
Theorem C213_event_refuted w u s ids d o e g : proper_jobs d -> ids <> [] -> oardel w u ids 0 None (mkDel false (Some (SText s)) false false) d = (o, e) -> g ∈ o_signals o -> mkEv "CHECKPOINT" (g_job g) "YES" ∈ events (o_db o).
Proof.
  intros HU Hne E Hg. unfold oardel, select in E. rewrite bool_decide_false in E by done. cbn [andb Z.eqb d_checkpoint d_signal d_besteffort d_force orb] in E. rewrite bool_decide_true in E by (by eexists). cbv beta iota in E.
  unfold signal_jobs in E. destruct (signal_each w u false (Some (SText s)) (Some s) ids eq_refl _ _ _ E) as (S & H1 & gs & H2 & H3 & _ & H5 & H6 & H7 & H8 & H9). cbn [start_of o_signals] in H2. rewrite app_nil_l in H2. rewrite H2 in Hg. by apply H9.
Qed.
(** The API cannot send a signal: with a number other than 0 the request fails after the event, and no signal is sent. *)
Theorem C213_api_refuted w u id n d j h : proper_jobs d -> n <> 0 -> signalable u d j -> j_id j = id -> host_of w j h ->
  api_signal w u id (Some n) d = (mkOut (add_event "CHECKPOINT" id d) [] [] [], Some EType).
Proof.
  intros HU Hn (Hj & Hm & Hs & Ht) Hid Hh. unfold api_signal.
  assert (E : oardel w u [id] 0 None (mkDel false (Some (SNumber n)) false false) d = (mkOut (add_event "CHECKPOINT" id d) [] [] [], Some EType)).
  { unfold oardel, select. rewrite bool_decide_false by done. cbn [andb Z.eqb d_checkpoint d_signal orb]. rewrite bool_decide_true by (by eexists). unfold signal_jobs. cbn [each]. unfold signal_one, ask_checkpoint. cbn [start_of o_db].
    assert (Eg : get_job d id = Some j) by (rewrite <- Hid; by apply get_job_of). rewrite Eg. rewrite (bool_decide_false (j_type j = _)) by done. apply may_spec in Hm. rewrite Hm. rewrite (bool_decide_true (j_state j = _)) by done.
    cbn [signal_name]. rewrite bool_decide_false by done. cbn [Z.ltb Z.compare].
    assert (Eg' : get_job (add_event "CHECKPOINT" id d) id = Some j) by exact Eg. rewrite Eg'. apply signal_host_ok in Hh. rewrite Hh. reflexivity. }
  destruct n; [done|exact E|exact E].
Qed.
(** Without a number, or with 0: the checkpoint of the job. *)
Theorem C213_api_checkpoint w u id d n : n = None \/ n = Some 0 -> api_signal w u id n d = oardel w u [id] 0 None (mkDel true None false false) d.
Proof. intros [->| ->]; reflexivity. Qed.

(** * C214: the text of the signal *)
(** The text that the user gives is part of the command that runs on the host, as it is. *)
Theorem C214_injection_refuted file sigfile signal : exists pre post, forall s, remote_command file sigfile signal (Some (SText s)) = Ok (pre +:+ s +:+ post)%string.
Proof. eexists "bash -c 'echo "%string, _. intros s. unfold remote_command. reflexivity. Qed.
(** Any text is accepted for a job of the user. *)
Theorem C214_any_refuted w u j d h s : proper_jobs d -> signalable u d j -> host_of w j h -> exists o,
  oardel w u [j_id j] 0 None (mkDel false (Some (SText s)) false false) d = (o, None) /\ o_signals o = [mkSent h (j_id j) "SIGURG" (Some s)].
Proof.
  intros HU Hs Hh. destruct (oardel w u [j_id j] 0 None (mkDel false (Some (SText s)) false false) d) as [o e] eqn:E.
  destruct (C213_signals w u false (Some s) [j_id j] d o e HU) as (S & H1 & H2 & (keep & Hk & r & H3 & H3') & H4 & _); [done|right; by eexists|exact E|].
  assert (e = None) as ->. { apply H4. intros j' Hs' Hi. apply elem_of_list_singleton in Hi. assert (j' = j) as -> by (apply (uniq_eq d); [done|apply Hs'|apply Hs|done]). by exists h. }
  exists o. split; [done|]. rewrite (H3' eq_refl), app_nil_r in H3. cbn [List.filter] in H3. assert (Hkj : keep (j_id j) = true) by (apply Hk; by exists j). rewrite Hkj in H3.
  destruct (o_signals o) as [|g [|g' l]] eqn:Eo; [done| |done]. cbn in H3. apply Forall_singleton in H2 as (A & B & C & j' & D & F & G). assert (Hg : g_job g = j_id j) by congruence. assert (j' = j) as -> by (apply (uniq_eq d); [done|apply D|apply Hs|congruence]).
  assert (g_host g = h) as Eh. { apply signal_host_ok in G, Hh. congruence. } destruct g as [gh gj gs gu]. cbn in *. subst. done.
Qed.

(** * C215: the options of the administrators *)
Theorem C215_rights w u ids f b d : ~ administrator u -> ids <> [] -> f = true \/ b = true -> exists o,
  oardel w u ids 0 None (mkDel false None b f) d = (o, None) /\ o_db o = d /\ o_sent o = [] /\ o_signals o = [] /\ exit_status o = 8.
Proof.
  intros Hu Hne Hfb. exists (add_exit 8 (start_of d)). split; [|split; [done|split; [done|split; [done|reflexivity]]]]. unfold oardel, select. rewrite bool_decide_false by done. cbn [andb Z.eqb d_checkpoint d_signal d_besteffort d_force orb]. rewrite bool_decide_false by (by intros [? ?]).
  assert (Ha : admin u = false) by (apply not_true_iff_false; by rewrite admin_spec). unfold admin_jobs. rewrite Ha. destruct f; [done|]. destruct b; [done|]. by destruct Hfb.
Qed.
Definition forces (w : world) (d : db) (id : Z) : bool :=
  match get_job d id with None => false | Some j => bool_decide (j_state j = "Finishing"%string) && (w_max w <? duration_in_state (w_now w) id "Finishing" d) end.
Lemma forces_spec w d id : proper_jobs d -> forces w d id = true <-> stuck w d id.
Proof.
  intros HU. unfold forces, stuck. destruct (find_job d id HU) as [(j & E & Hj & Hid)|[-> Hn]].
  - rewrite E. rewrite andb_true_iff, bool_decide_eq_true, Z.ltb_lt. split; [intros [H1 H2]; by exists j|]. intros (j' & H1 & H2 & H3 & H4). rewrite (the_job d id j j' HU E H1 H2) in *. done.
  - split; [done|]. intros (j & Hj & Hid & _). by apply (Hn j) in Hj.
Qed.
Lemma force_each w ids : forall o o' e, each (force_one w) ids o = (o', e) ->
  same_jobs (o_db o) (o_db o') /\ frags (o_db o') = frags (o_db o) /\ o_sent o' = o_sent o /\ o_signals o' = o_signals o /\
  (e = None <-> forall id, id ∈ ids -> is_Some (get_job (o_db o) id)) /\
  (exists l r, ids = l ++ r /\ (e = None -> r = []) /\ events (o_db o') = events (o_db o) ++ ((fun id => mkEv "FORCE_TERMINATE_FINISHING_JOB" id "YES") <$> List.filter (forces w (o_db o)) l)) /\
  (e = None -> Forall (fun v => v = 0) (o_exits o') <-> Forall (fun v => v = 0) (o_exits o) /\ forall id, id ∈ ids -> forces w (o_db o) id = true).
Proof.
  induction ids as [|id ids IH]; intros o o' e E; cbn [each] in E.
  - assert (o' = o) as -> by congruence. assert (e = None) as -> by congruence. split; [done|]. split; [done|]. split; [done|]. split; [done|]. split; [split; [|done]; intros _ id Hid; by apply elem_of_nil in Hid|].
    split; [exists [], []; cbn; rewrite app_nil_r; done|]. intros _. split; [intros H; split; [done|]; intros id Hid; by apply elem_of_nil in Hid|by intros [H _]].
  - unfold force_one in E at 1. destruct (get_job (o_db o) id) as [j|] eqn:Ej.
    2: { assert (o' = o) as -> by congruence. assert (e = Some EKey) as -> by congruence. split; [done|]. split; [done|]. split; [done|]. split; [done|]. split; [split; [done|]; intros H; destruct (H id) as [j Hj]; [left|congruence]|].
         split; [exists [], (id :: ids); cbn; rewrite app_nil_r; done|done]. }
    assert (Hf : forces w (o_db o) id = bool_decide (j_state j = "Finishing"%string) && (w_max w <? duration_in_state (w_now w) id "Finishing" (o_db o))) by (unfold forces; by rewrite Ej).
    assert (Hstep : exists o1, each (force_one w) ids o1 = (o', e) /\ same_jobs (o_db o) (o_db o1) /\ frags (o_db o1) = frags (o_db o) /\ o_sent o1 = o_sent o /\ o_signals o1 = o_signals o /\
              ((forces w (o_db o) id = true /\ o_exits o1 = o_exits o ++ [0] /\ events (o_db o1) = events (o_db o) ++ [mkEv "FORCE_TERMINATE_FINISHING_JOB" id "YES"]) \/
               (forces w (o_db o) id = false /\ exists v, v <> 0 /\ o_exits o1 = o_exits o ++ [v] /\ events (o_db o1) = events (o_db o)))).
    { rewrite Hf. destruct (bool_decide (j_state j = "Finishing"%string)); [destruct (w_max w <? duration_in_state (w_now w) id "Finishing" (o_db o))|]; eexists; (split; [exact E|]); (split; [done|]); (split; [done|]); (split; [done|]); (split; [done|]).
      - left. done.
      - right. split; [done|]. exists 11. done.
      - right. split; [done|]. exists 10. done. }
    clear E Hf. destruct Hstep as (o1 & E & S1 & F1 & T1 & Q1 & Hc). destruct (IH _ _ _ E) as (S & H1 & H2 & H3 & H4 & (l & r & H5 & H5' & H6) & H7). clear IH E.
    assert (J1 : forall i, get_job (o_db o1) i = get_job (o_db o) i) by (intros i; unfold get_job; by rewrite (proj1 S1)).
    assert (D1 : forall i, forces w (o_db o1) i = forces w (o_db o) i) by (intros i; unfold forces, duration_in_state; rewrite J1, (proj1 (proj2 S1)); done).
    assert (L1 : List.filter (forces w (o_db o1)) l = List.filter (forces w (o_db o)) l) by (clear -D1; induction l as [|a l IH]; [done|]; cbn; rewrite D1; by destruct (forces w (o_db o) a); rewrite IH).
    split; [destruct S1 as (A1 & A2 & A3 & A4), S as (B1 & B2 & B3 & B4); repeat split; congruence|]. split; [congruence|]. split; [congruence|]. split; [congruence|]. split; [|split].
    + rewrite H4. split; [intros H i Hi; apply elem_of_cons in Hi as [->|Hi]; [by eexists|]; rewrite <- J1; by apply H|]. intros H i Hi. rewrite J1. apply H. by right.
    + exists (id :: l), r. split; [by rewrite H5|]. split; [done|]. rewrite H6, L1. cbn [List.filter]. destruct Hc as [(-> & _ & ->)|(-> & v & _ & _ & ->)]; [|done]. by rewrite <- app_assoc.
    + intros He. rewrite (H7 He). destruct Hc as [(Hk & -> & _)|(Hk & v & Hv & -> & _)]; rewrite Forall_app, Forall_singleton.
      * split; [intros [[A _] B]; split; [done|]; intros i Hi; apply elem_of_cons in Hi as [->|Hi]; [done|]; rewrite <- D1; by apply B|]. intros [A B]. split; [done|]. intros i Hi. rewrite D1. apply B. by right.
      * split; [intros [[_ A] _]; done|]. intros [_ B]. assert (forces w (o_db o) id = true) by (apply B; left). congruence.
Qed.
(** oardel --force-terminate-finishing-job *)
Theorem C215_force w u ids b d o e : proper_jobs d -> administrator u -> ids <> [] -> oardel w u ids 0 None (mkDel false None b true) d = (o, e) ->
  only_events d (o_db o) /\ o_signals o = [] /\ (e = None <-> forall id, id ∈ ids -> exists j, j ∈ jobs d /\ j_id j = id) /\
  (exists keep, (forall id, keep id = true <-> stuck w d id) /\ exists l r, ids = l ++ r /\ (e = None -> r = []) /\
     events (o_db o) = events d ++ ((fun id => mkEv "FORCE_TERMINATE_FINISHING_JOB" id "YES") <$> List.filter keep l)) /\
  (e = None -> (exit_status o = 0 <-> w_reach w = true /\ forall id, id ∈ ids -> stuck w d id) /\ o_sent o = if w_reach w then ["ChState"%string] else []).
Proof.
  intros HU Hu Hne E. unfold oardel, select in E. rewrite bool_decide_false in E by done. cbn [andb Z.eqb d_checkpoint d_signal d_besteffort d_force orb] in E. rewrite bool_decide_false in E by (by intros [? ?]).
  unfold admin_jobs in E. apply admin_spec in Hu. rewrite Hu in E. destruct (each (force_one w) ids (start_of d)) as [o1 e1] eqn:Ee.
  destruct (force_each w ids _ _ _ Ee) as (S & H1 & H2 & H3 & H4 & (l & r & H5 & H5' & H6) & H7). cbn [start_of o_db o_sent o_signals o_exits] in *. clear Ee.
  assert (He : e1 = e) by (destruct e1; congruence). subst e1.
  assert (Hd : o_db o = o_db o1 /\ o_signals o = o_signals o1 /\ (e = None -> o = notify_state w o1)).
  { destruct e; [assert (o = o1) as -> by congruence; done|]. assert (o = notify_state w o1) as -> by congruence. unfold notify_state. by destruct (w_reach w). }
  destruct Hd as (-> & -> & Ho). split; [split; [done|]; split; [done|]; by eexists|]. split; [done|]. split; [|split].
  - rewrite H4. split; intros H id Hid.
    + destruct (H id Hid) as [j Hj]. exists j. by apply get_job_in.
    + destruct (H id Hid) as (j & Hj & <-). exists j. by apply get_job_of.
  - exists (forces w d). split; [intros id; by apply forces_spec|]. by exists l, r.
  - intros He. rewrite (Ho He). specialize (H7 He).
    assert (HF : (forall id, id ∈ ids -> forces w d id = true) <-> forall id, id ∈ ids -> stuck w d id) by (split; intros H id Hid; apply forces_spec; auto).
    unfold notify_state. destruct (w_reach w).
    + rewrite exit_zero. cbn [o_exits o_sent]. rewrite H7, H2, HF. split; [|done]. split; [tauto|]. intros [_ H]. split; [by apply Forall_nil|done].
    + rewrite exit_zero, exits_add. cbn [add_exit o_sent]. rewrite H2. split; [|done]. split; [intros [_ ?]; done|intros [? _]; done].
Qed.
(** oardel -b: the type of each running job of the list. *)
Lemma toggle_jobs d id j t f (b : bool) : proper_jobs d -> get_job d id = Some j -> 
  (forall x, x ∈ f (j_types j) <-> (if b then x ∈ j_types j \/ x = "besteffort"%string else x ∈ j_types j /\ x <> "besteffort"%string)) -> ("besteffort"%string ∈ j_types j <-> b = false) ->
  Forall2 (fun i i' => if decide (j_id i = id) then toggled i i' else i' = i) (jobs d) (jobs (add_event t id (set_types f id d))).
Proof.
  intros HU Hj Hf Hb. unfold set_types, add_event, with_events, with_jobs, upd. cbn [jobs]. apply Forall2_fmap_r. assert (Hall : Forall (fun i => j_id i = id -> i = j) (jobs d)) by (apply Forall_forall; intros i Hi Hid; by eapply the_job).
  apply Forall2_same_length_lookup. split; [done|]. intros n x y Hx Hy. assert (y = x) as -> by congruence. cbv beta. unfold compose. destruct (decide (j_id x = id)) as [Hid|_]; [|reflexivity].
  assert (x = j) as -> by (rewrite Forall_forall in Hall; apply Hall; [by eapply elem_of_list_lookup_2|done]). split; [by destruct j|]. cbn [with_types j_types]. split.
  - rewrite Hf. destruct b; [|destruct Hb as [Hb1 Hb2]; specialize (Hb2 eq_refl); split; [intros [_ ?]; done|done]]. split; [intros _ H; by apply Hb in H|intros _; by right].
  - intros x Hx'. rewrite Hf. destruct b; [|tauto]. split; [intros [?|?]; done|by left].
Qed.
Lemma besteffort_step w id o : proper_jobs (o_db o) -> (exists j, get_job (o_db o) id = Some j) ->
  exists o1, besteffort_one w id o = (o1, None) /\ o_sent o1 = o_sent o /\ o_signals o1 = o_signals o /\ (Forall (fun v => v = 0) (o_exits o) -> Forall (fun v => v = 0) (o_exits o1)) /\
    frags (o_db o1) = frags (o_db o) /\ logs (o_db o1) = logs (o_db o) /\
    Forall2 (fun i i' => if decide (j_id i = id /\ j_state i = "Running"%string) then toggled i i' else i' = i) (jobs (o_db o)) (jobs (o_db o1)).
Proof.
  intros HU [j Hj]. unfold besteffort_one. rewrite Hj.
  assert (Hrun : forall i i' : job, i ∈ jobs (o_db o) -> (if decide (j_id i = id) then toggled i i' else i' = i) -> j_state j = "Running"%string -> if decide (j_id i = id /\ j_state i = "Running"%string) then toggled i i' else i' = i).
  { intros i i' Hi H Hs. destruct (decide (j_id i = id)) as [Hid|Hn]; [|by rewrite decide_False by tauto]. assert (i = j) as -> by (by eapply the_job). by rewrite decide_True by done. }
  assert (Hmono : forall l', j_state j = "Running"%string -> Forall2 (fun i i' => if decide (j_id i = id) then toggled i i' else i' = i) (jobs (o_db o)) l' -> Forall2 (fun i i' => if decide (j_id i = id /\ j_state i = "Running"%string) then toggled i i' else i' = i) (jobs (o_db o)) l').
  { intros l' Hs H. apply Forall2_same_length_lookup in H as [H1 H2]. apply Forall2_same_length_lookup. split; [done|]. intros n x y Hx Hy. apply Hrun; [by eapply elem_of_list_lookup_2|by eapply H2|done]. }
  destruct (decide (j_state j = "Running"%string)) as [Hs|Hs].
  - rewrite (bool_decide_true (j_state j = _)) by done. destruct (decide ("besteffort"%string ∈ j_types j)) as [Hb|Hb].
    + rewrite (bool_decide_true ("besteffort"%string ∈ _)) by done. eexists. split; [reflexivity|]. cbn [on_db o_db o_sent o_signals o_exits]. split; [done|]. split; [done|]. split; [done|]. split; [done|]. split; [done|]. apply Hmono; [done|].
      apply (toggle_jobs (o_db o) id j _ _ false HU Hj); [|tauto]. intros x. rewrite elem_of_list_filter. tauto.
    + rewrite (bool_decide_false ("besteffort"%string ∈ _)) by done. eexists. split; [reflexivity|]. cbn [on_db o_db o_sent o_signals o_exits]. split; [done|]. split; [done|]. split; [done|]. split; [done|]. split; [done|]. apply Hmono; [done|].
      apply (toggle_jobs (o_db o) id j _ _ true HU Hj); [|split; done]. intros x. rewrite elem_of_app, elem_of_list_singleton. done.
  - rewrite (bool_decide_false (j_state j = _)) by done. eexists. split; [reflexivity|]. cbn [add_exit o_db o_sent o_signals o_exits]. split; [done|]. split; [done|]. split; [intros H; apply Forall_app; split; [done|by apply Forall_singleton]|]. split; [done|]. split; [done|].
    apply Forall2_same_length_lookup. split; [done|]. intros n x y Hx Hy. assert (y = x) as -> by congruence. destruct (decide _) as [[Hid Hs']|_]; [|done]. assert (x = j) as -> by (eapply the_job; [done|done|by eapply elem_of_list_lookup_2|done]). done.
Qed.
Lemma besteffort_each w ids : NoDup ids -> forall o o' e, proper_jobs (o_db o) -> (forall id, id ∈ ids -> exists j, j ∈ jobs (o_db o) /\ j_id j = id) -> each (besteffort_one w) ids o = (o', e) ->
  e = None /\ o_sent o' = o_sent o /\ o_signals o' = o_signals o /\ (Forall (fun v => v = 0) (o_exits o) -> Forall (fun v => v = 0) (o_exits o')) /\ frags (o_db o') = frags (o_db o) /\ logs (o_db o') = logs (o_db o) /\
  Forall2 (fun i i' => if decide (j_id i ∈ ids /\ j_state i = "Running"%string) then toggled i i' else i' = i) (jobs (o_db o)) (jobs (o_db o')).
Proof.
  intros HN. induction HN as [|id ids Hn HN IH]; intros o o' e HU Hex E; cbn [each] in E.
  - assert (o' = o) as -> by congruence. split; [congruence|]. split; [done|]. split; [done|]. split; [done|]. split; [done|]. split; [done|]. apply Forall2_same_length_lookup. split; [done|]. intros n x y Hx Hy. assert (y = x) as -> by congruence. rewrite decide_False; [done|]. intros [H _]. by apply elem_of_nil in H.
  - destruct (besteffort_step w id o HU) as (o1 & E1 & H1 & H2 & H3 & H4 & H4' & H5). { destruct (Hex id) as (j & Hj & <-); [left|]. exists j. by apply get_job_of. }
    rewrite E1 in E. cbv beta iota in E.
    assert (Hid : Forall2 (fun i i' => j_id i' = j_id i /\ j_state i' = j_state i) (jobs (o_db o)) (jobs (o_db o1))).
    { eapply Forall2_impl; [exact H5|]. intros i i' H. cbv beta in H. destruct (decide _) in H; [|by subst]. destruct H as [-> _]. done. }
    assert (Hids : j_id <$> jobs (o_db o1) = j_id <$> jobs (o_db o)). { clear -Hid. induction Hid as [|i i' l l' [H _] _ IH]; [done|]. rewrite !fmap_cons, IH, H. done. }
    destruct (IH o1 o' e) as (K1 & K2 & K3 & K4 & K5 & K5' & K6); [unfold proper_jobs in *; by rewrite Hids| |exact E|].
    { intros i Hi. destruct (Hex i) as (j & Hj & Hji); [by right|]. assert (Hin : i ∈ j_id <$> jobs (o_db o1)) by (rewrite Hids; apply elem_of_list_fmap; by exists j). apply elem_of_list_fmap in Hin as (j' & -> & Hj'). by exists j'. }
    split; [done|]. split; [congruence|]. split; [congruence|]. split; [auto|]. split; [congruence|]. split; [congruence|].
    apply Forall2_same_length_lookup in H5 as [L1 H5]. apply Forall2_same_length_lookup in K6 as [L2 K6]. apply Forall2_same_length_lookup in Hid as [_ Hid]. apply Forall2_same_length_lookup. split; [congruence|]. intros n x z Hx Hz.
    destruct (lookup_lt_is_Some_2 (jobs (o_db o1)) n) as [y Hy]; [rewrite <- L1; by eapply lookup_lt_Some|]. specialize (H5 n x y Hx Hy). specialize (K6 n y z Hy Hz). destruct (Hid n x y Hx Hy) as [Hi1 Hi2]. rewrite Hi1, Hi2 in K6.
    destruct (decide (j_id x = id /\ j_state x = "Running"%string)) as [[A B]|A].
    + rewrite decide_False in K6 by (rewrite A; tauto). subst z. rewrite decide_True; [done|]. rewrite A. split; [left|done].
    + subst y. destruct (decide (j_id x ∈ ids /\ j_state x = "Running"%string)) as [[B C]|B]; [rewrite decide_True; [done|]; split; [by right|done]|]. subst z. rewrite decide_False; [done|]. rewrite elem_of_cons. tauto.
Qed.
Theorem C215_besteffort w u ids d o e : proper_jobs d -> administrator u -> ids <> [] -> NoDup ids -> (forall id, id ∈ ids -> exists j, j ∈ jobs d /\ j_id j = id) -> oardel w u ids 0 None (mkDel false None true false) d = (o, e) ->
  e = None /\ o_signals o = [] /\ frags (o_db o) = frags d /\ o_sent o = (if w_reach w then ["ChState"%string] else []) /\ exit_status o = (if w_reach w then 0 else 2) /\
  Forall2 (fun i i' => if decide (j_id i ∈ ids /\ j_state i = "Running"%string) then toggled i i' else i' = i) (jobs d) (jobs (o_db o)).
Proof.
  intros HU Hu Hne HN Hex E. unfold oardel, select in E. rewrite bool_decide_false in E by done. cbn [andb Z.eqb d_checkpoint d_signal d_besteffort d_force orb] in E. rewrite bool_decide_false in E by (by intros [? ?]).
  unfold admin_jobs in E. apply admin_spec in Hu. rewrite Hu in E. destruct (each (besteffort_one w) ids (start_of d)) as [o1 e1] eqn:Ee.
  destruct (besteffort_each w ids HN (start_of d) _ _ HU Hex Ee) as (-> & H1 & H2 & H3 & H4 & H5 & H6). cbn [start_of o_db o_sent o_signals o_exits] in *. assert (e = None) as -> by congruence. assert (o = notify_state w o1) as -> by congruence.
  specialize (H3 (Forall_nil_2 _)). split; [done|]. unfold notify_state. destruct (w_reach w); cbn [add_exit o_db o_sent o_signals].
  - rewrite H1. split; [done|]. split; [done|]. split; [done|]. split; [by apply exit_zero|done].
  - split; [done|]. split; [done|]. split; [done|]. split; [|done]. unfold exit_status, AdminModel.get_exit_value. cbn [AdminModel.final_exit AdminModel.exit_values add_exit o_exits]. rewrite Z.eqb_refl. clear -H3.
    assert (Hx : fst (AdminModel.exits (o_exits o1 ++ [2]) 0 0) = 2) by (induction H3 as [|v l -> _ IH]; [reflexivity|exact IH]). by destruct (AdminModel.exits (o_exits o1 ++ [2]) 0 0).
Qed.
(** Refuted: a job that does not exist ends oardel -b and --force with an exception, the jobs before it are changed and the server is not told. *)
Theorem C215_unknown_refuted w u id id' d : proper_jobs d -> administrator u -> stuck w d id -> (forall j, j ∈ jobs d -> j_id j <> id') ->
  exists o, oardel w u [id; id'] 0 None (mkDel false None false true) d = (o, Some EKey) /\ o_db o = add_event "FORCE_TERMINATE_FINISHING_JOB" id d /\ o_sent o = [].
Proof.
  intros HU Hu Hs Hno. exists (mkOut (add_event "FORCE_TERMINATE_FINISHING_JOB" id d) [0] [] []). split; [|done]. unfold oardel, select. rewrite bool_decide_false by done. cbn [andb Z.eqb d_checkpoint d_signal d_besteffort d_force orb]. rewrite bool_decide_false by (by intros [? ?]).
  unfold admin_jobs. apply admin_spec in Hu. rewrite Hu. cbn [each]. destruct Hs as (j & Hj & Hid & Hst & Hdur). unfold force_one at 1. cbn [start_of o_db].
  assert (Eg : get_job d id = Some j) by (rewrite <- Hid; by apply get_job_of). rewrite Eg, bool_decide_true by done. replace (w_max w <? _) with true by lia. unfold force_one. cbn [add_exit on_db o_db].
  destruct (find_job d id' HU) as [(j' & _ & Hj' & Hid')|[En _]]; [by apply (Hno j') in Hj'|]. assert (En' : get_job (add_event "FORCE_TERMINATE_FINISHING_JOB" id d) id' = None) by exact En. cbn [start_of o_db]. rewrite En'. reflexivity.
Qed.
(** Refuted: oardel -b on a job that is not running changes nothing and says that all is well. *)
Theorem C215_not_running_refuted w u j d : proper_jobs d -> administrator u -> w_reach w = true -> j ∈ jobs d -> j_state j <> "Running"%string ->
  exists o, oardel w u [j_id j] 0 None (mkDel false None true false) d = (o, None) /\ o_db o = d /\ exit_status o = 0.
Proof.
  intros HU Hu Hw Hj Hs. exists (mkOut d [0] ["ChState"%string] []). split; [|done]. unfold oardel, select. rewrite bool_decide_false by done. cbn [andb Z.eqb d_checkpoint d_signal d_besteffort d_force orb]. rewrite bool_decide_false by (by intros [? ?]).
  unfold admin_jobs. apply admin_spec in Hu. rewrite Hu. cbn [each]. unfold besteffort_one. cbn [start_of o_db]. rewrite (get_job_of d j HU Hj), bool_decide_false by done. unfold notify_state. rewrite Hw. done.
Qed.

(** * C216: oarhold, oarresume *)
Definition holds (allowed cpuset running : bool) (u : string) (d : db) (id : Z) : bool :=
  negb (running && (negb cpuset || bool_decide ("cosystem"%string ∈ job_types d id) || bool_decide ("deploy"%string ∈ job_types d id))) && (fst (hold_job allowed running u id d) =? 0).
Lemma hold_zero allowed running u id d : proper_jobs d -> fst (hold_job allowed running u id d) = 0 <-> holdable allowed running u d id.
Proof.
  intros HU. unfold hold_job, holdable. destruct (find_job d id HU) as [(j & E & Hj & Hid)|[-> Hn]].
  2: { split; [done|]. intros (j & Hj & Hid & _). by apply (Hn j) in Hj. }
  rewrite E. assert (Hone : forall P : job -> Prop, (exists j0, j0 ∈ jobs d /\ j_id j0 = id /\ P j0) <-> P j).
  { intros P. split; [|intros H; by exists j]. intros (j0 & H0 & H1 & H2). by rewrite (the_job d id j j0 HU E H0 H1) in H2. }
  rewrite (Hone (fun j => may u j /\ _)). rewrite <- may_spec, <- admin_spec. destruct (bool_decide (u = j_user j) || admin u) eqn:Em; destruct (admin u) eqn:Ea.
  all: destruct running, allowed; cbn [andb negb]; try (rewrite orb_true_r in Em; discriminate).
  all: try (split; [discriminate|]; intros (_ & H & _); destruct (H eq_refl); discriminate).
  all: try (split; [discriminate|]; intros (? & _); discriminate).
  all: try rewrite orb_false_r.
  all: match goal with |- context [if ?b then (0, _) else _] => destruct b eqn:Eb end; cbn [fst].
  all: rewrite ?orb_true_iff, ?orb_false_iff, ?bool_decide_eq_true, ?bool_decide_eq_false in Eb; split; try done; intros H; assert (Hft : false <> true) by discriminate; tauto.
Qed.
Lemma holds_spec allowed cpuset running u d id : proper_jobs d -> holds allowed cpuset running u d id = true <-> holdable allowed running u d id /\ suspendable cpuset running d id.
Proof.
  intros HU. unfold holds. rewrite andb_true_iff, Z.eqb_eq, (hold_zero _ _ _ _ _ HU), negb_true_iff. unfold suspendable. destruct running; cbn [andb]; [|split; [intros [_ H]; by split|intros [H _]; by split]].
  rewrite !orb_false_iff, negb_false_iff, !bool_decide_eq_false. split.
  - intros [[[H1 H2] H3] H4]. split; [done|]. intros _. split; [done|]. intros j Hj Hid. unfold job_types in *. rewrite <- Hid, (get_job_of d j HU Hj) in *. done.
  - intros [H1 H2]. destruct (H2 eq_refl) as [H3 H4]. split; [|done]. destruct H1 as (j & Hj & Hid & _). destruct (H4 j Hj Hid) as [H5 H6]. unfold job_types. rewrite <- Hid, (get_job_of d j HU Hj). done.
Qed.
Lemma hold_event allowed running u id d : fst (hold_job allowed running u id d) = 0 -> hold_job allowed running u id d = (0, add_event (if running then "HOLD_RUNNING_JOB" else "HOLD_WAITING_JOB") id d).
Proof. unfold hold_job. destruct (get_job d id); [|done]. destruct (running && negb allowed && negb (admin u)); [done|]. destruct (bool_decide _ || admin u); [|done]. destruct (_ || _ || _); done. Qed.
Lemma holds_jobs allowed cpuset running u d d' id : jobs d' = jobs d -> holds allowed cpuset running u d' id = holds allowed cpuset running u d id.
Proof. intros H. unfold holds, job_types, hold_job, get_job. rewrite H. destruct (filter _ (jobs d)) as [|j [|? ?]]; [done| |done]. f_equal. destruct (running && negb allowed && negb (admin u)); [done|]. destruct (bool_decide (u = _) || admin u); [|done]. by destruct (_ || _ || _). Qed.
(** The loops of the two commands. *)
Lemma loop_spec (f : list Z -> out -> out * bool) (ok : db -> Z -> bool) (event : string) :
  (forall o, f [] o = (o, true)) -> (forall d d' id, jobs d' = jobs d -> ok d' id = ok d id) ->
  (forall id ids o, (ok (o_db o) id = true /\ f (id :: ids) o = f ids (add_exit 0 (on_db (add_event event id) o))) \/ (ok (o_db o) id = false /\ exists v, v <> 0 /\ f (id :: ids) o = (add_exit v o, false))) ->
  forall ids o o' all, f ids o = (o', all) -> Forall (fun v => v = 0) (o_exits o) -> exists l r, ids = l ++ r /\ only_events (o_db o) (o_db o') /\ events (o_db o') = events (o_db o) ++ ((fun id => mkEv event id "YES") <$> l) /\
    Forall (fun id => ok (o_db o) id = true) l /\ o_signals o' = o_signals o /\ o_sent o' = o_sent o /\
    ((r = [] /\ all = true /\ Forall (fun v => v = 0) (o_exits o')) \/ (all = false /\ ~ Forall (fun v => v = 0) (o_exits o') /\ exists id r', r = id :: r' /\ ok (o_db o) id = false)).
Proof.
  intros Hnil Hjobs Hcons ids. induction ids as [|id ids IH]; intros o o' all E Hz.
  - rewrite Hnil in E. assert (o' = o) as -> by congruence. exists [], []. split; [done|]. split; [apply only_events_refl|]. split; [by rewrite app_nil_r|]. split; [by apply Forall_nil|]. split; [done|]. split; [done|]. left. split; [done|]. split; [congruence|done].
  - destruct (Hcons id ids o) as [[Hk Ef]|(Hk & v & Hv & Ef)]; rewrite Ef in E.
    + destruct (IH _ _ _ E) as (l & r & -> & H1 & H2 & H3 & H4 & H5 & H6); [by apply exits_add|]. clear IH E Ef. set (d1 := o_db (add_exit 0 (on_db (add_event event id) o))) in *.
      assert (J : forall i, ok d1 i = ok (o_db o) i) by (intros i; by apply Hjobs). assert (V : events d1 = events (o_db o) ++ [mkEv event id "YES"]) by done. assert (O : only_events (o_db o) d1) by (by apply only_events_add, only_events_refl). clearbody d1.
      exists (id :: l), r. split; [done|]. split; [by eapply only_events_trans|]. split; [rewrite H2, V, fmap_cons, <- app_assoc; done|]. split; [apply Forall_cons; split; [done|]; eapply Forall_impl; [exact H3|]; intros i Hi; cbv beta in *; by rewrite <- J|].
      split; [exact H4|]. split; [exact H5|]. destruct H6 as [H6|(A & B & i & r' & C & D)]; [by left|]. right. split; [done|]. split; [done|]. exists i, r'. split; [done|]. by rewrite <- J.
    + assert (o' = add_exit v o) as -> by congruence. exists [], (id :: ids). split; [done|]. split; [apply only_events_refl|]. split; [by rewrite app_nil_r|]. split; [by apply Forall_nil|]. split; [done|]. split; [done|]. right. split; [congruence|]. split; [intros H; by apply exits_add in H as [_ H]|]. by exists id, ids.
Qed.
Lemma hold_step allowed cpuset running u id ids o :
  (holds allowed cpuset running u (o_db o) id = true /\ hold_jobs allowed cpuset running u (id :: ids) o = hold_jobs allowed cpuset running u ids (add_exit 0 (on_db (add_event (if running then "HOLD_RUNNING_JOB" else "HOLD_WAITING_JOB") id) o))) \/
  (holds allowed cpuset running u (o_db o) id = false /\ exists v, v <> 0 /\ hold_jobs allowed cpuset running u (id :: ids) o = (add_exit v o, false)).
Proof.
  unfold holds. cbn [hold_jobs]. destruct (running && _); [right; split; [done|]; exists 2; done|]. destruct (Z.eqb_spec (fst (hold_job allowed running u id (o_db o))) 0) as [Hz|Hz].
  - left. split; [done|]. rewrite (hold_event _ _ _ _ _ Hz). done.
  - right. split; [done|]. exists 1. split; [done|]. destruct (hold_job allowed running u id (o_db o)) as [e d']. cbn [fst] in Hz. destruct (Z.eqb_spec e 0); done.
Qed.
Definition resumes (allowed : bool) (u : string) (d : db) (id : Z) : bool := fst (resume_job allowed u id d) =? 0.
Lemma resumes_spec allowed u d id : proper_jobs d -> resumes allowed u d id = true <-> resumable allowed u d id.
Proof.
  intros HU. unfold resumes, resume_job, resumable. rewrite Z.eqb_eq. destruct (find_job d id HU) as [(j & E & Hj & Hid)|[-> Hn]].
  2: { split; [done|]. intros (j & Hj & Hid & _). by apply (Hn j) in Hj. }
  rewrite E. assert (Hone : forall P : job -> Prop, (exists j0, j0 ∈ jobs d /\ j_id j0 = id /\ P j0) <-> P j).
  { intros P. split; [|intros H; by exists j]. intros (j0 & H0 & H1 & H2). by rewrite (the_job d id j j0 HU E H0 H1) in H2. }
  rewrite (Hone (fun j => may u j /\ _)). rewrite <- may_spec, <- admin_spec. destruct (decide (j_state j = "Suspended"%string)) as [Hs|Hs].
  - rewrite (bool_decide_true (j_state j = "Suspended"%string)) by done. rewrite orb_true_r. cbn [andb]. assert (Hh : j_state j <> "Hold"%string) by (rewrite Hs; discriminate).
    destruct allowed; cbn [negb andb]; [destruct (bool_decide (u = j_user j) || admin u); cbn [fst]; split; try done; [intros _; split; [done|]; right; split; [done|by left]|intros [? _]; done]|].
    destruct (admin u) eqn:Ea; cbn [negb fst]; [rewrite orb_true_r; cbn [fst]; split; [intros _; split; [done|]; right; split; [done|by right]|done]|]. split; [done|]. intros [_ [H|[_ [H|H]]]]; done.
  - rewrite (bool_decide_false (j_state j = "Suspended"%string)) by done. rewrite orb_false_r. cbn [andb]. destruct (bool_decide (u = j_user j) || admin u); [|split; [done|intros [? _]; done]].
    destruct (decide (j_state j = "Hold"%string)) as [Hh|Hh]; [rewrite bool_decide_true by done; cbn [fst]; split; [intros _; split; [done|by left]|done]|]. rewrite bool_decide_false by done. cbn [fst]. split; [done|]. intros [_ [H|[H _]]]; done.
Qed.
Lemma resumes_jobs allowed u d d' id : jobs d' = jobs d -> resumes allowed u d' id = resumes allowed u d id.
Proof. intros H. unfold resumes, resume_job, get_job. rewrite H. destruct (filter _ (jobs d)) as [|j [|? ?]]; [done| |done]. f_equal. destruct (_ && _ && _); [done|]. destruct (bool_decide (u = _) || admin u); [|done]. by destruct (_ || _). Qed.
Lemma resume_step allowed u id ids o :
  (resumes allowed u (o_db o) id = true /\ resume_jobs allowed u (id :: ids) o = resume_jobs allowed u ids (add_exit 0 (on_db (add_event "RESUME_JOB" id) o))) \/
  (resumes allowed u (o_db o) id = false /\ exists v, v <> 0 /\ resume_jobs allowed u (id :: ids) o = (add_exit v o, false)).
Proof.
  unfold resumes. cbn [resume_jobs].
  assert (He : fst (resume_job allowed u id (o_db o)) = 0 -> resume_job allowed u id (o_db o) = (0, add_event "RESUME_JOB" id (o_db o))).
  { unfold resume_job. destruct (get_job (o_db o) id); [|done]. destruct (_ && _ && _); [done|]. destruct (bool_decide (u = _) || admin u); [|done]. by destruct (_ || _). }
  destruct (Z.eqb_spec (fst (resume_job allowed u id (o_db o))) 0) as [Hz|Hz].
  - left. split; [done|]. rewrite (He Hz). done.
  - right. split; [done|]. exists 1. split; [done|]. destruct (resume_job allowed u id (o_db o)) as [e d']. cbn [fst] in Hz. destruct (Z.eqb_spec e 0); done.
Qed.
Lemma finish_loop w (ok : Z -> bool) (OK : Z -> Prop) event ids d o' (all : bool) : (forall id, ok id = true <-> OK id) ->
  (exists l r, ids = l ++ r /\ only_events d (o_db o') /\ events (o_db o') = events d ++ ((fun id => mkEv event id "YES") <$> l) /\ Forall (fun id => ok id = true) l /\ o_signals o' = [] /\ o_sent o' = [] /\
    ((r = [] /\ all = true /\ Forall (fun v => v = 0) (o_exits o')) \/ (all = false /\ ~ Forall (fun v => v = 0) (o_exits o') /\ exists id r', r = id :: r' /\ ok id = false))) ->
  stops_at_first w OK event ids d (if all then tell_state w o' else o').
Proof.
  intros Hok (l & r & -> & H1 & H2 & H3 & H4 & H5 & H6).
  assert (Ht : forall b : bool, o_db (if b then tell_state w o' else o') = o_db o' /\ o_signals (if b then tell_state w o' else o') = [] /\ o_exits (if b then tell_state w o' else o') = o_exits o') by (intros []; [unfold tell_state; by destruct (w_reach w)|done]).
  destruct (Ht all) as (E1 & E2 & E3). exists l, r. split; [done|]. rewrite E1. split; [done|]. split; [done|]. split; [eapply Forall_impl; [exact H3|]; intros i; apply Hok|]. split; [done|]. rewrite exit_zero, E3. destruct H6 as [(-> & -> & H6)|(-> & H6 & id & r' & -> & H7)].
  - left. split; [done|]. split; [done|]. unfold tell_state. destruct (w_reach w); [cbn [o_sent]; by rewrite H5|done].
  - right. exists id, r'. split; [done|]. split; [rewrite <- Hok; congruence|]. split; [by rewrite exit_zero|done].
Qed.
Theorem C216_hold w allowed cpuset running u ids d : proper_jobs d -> ids <> [] ->
  stops_at_first w (fun id => holdable allowed running u d id /\ suspendable cpuset running d id) (if running then "HOLD_RUNNING_JOB" else "HOLD_WAITING_JOB") ids d (oarhold w allowed cpuset running u ids 0 None d).
Proof.
  intros HU Hne. unfold oarhold, select. rewrite bool_decide_false by done. cbn [andb Z.eqb]. destruct (hold_jobs allowed cpuset running u ids (start_of d)) as [o' all] eqn:E.
  apply (finish_loop w (holds allowed cpuset running u d)); [intros id; by apply holds_spec|].
  apply (loop_spec (hold_jobs allowed cpuset running u) (holds allowed cpuset running u) _ (fun _ => eq_refl) (holds_jobs allowed cpuset running u) (hold_step allowed cpuset running u) ids (start_of d) o' all E). by apply Forall_nil.
Qed.
Theorem C216_resume w allowed u ids d : proper_jobs d -> ids <> [] -> stops_at_first w (resumable allowed u d) "RESUME_JOB" ids d (oarresume w allowed u ids 0 None d).
Proof.
  intros HU Hne. unfold oarresume. rewrite bool_decide_false by done. cbn [andb Z.eqb]. destruct (resume_jobs allowed u ids (start_of d)) as [o' all] eqn:E.
  apply (finish_loop w (resumes allowed u d)); [intros id; by apply resumes_spec|].
  apply (loop_spec (resume_jobs allowed u) (resumes allowed u) _ (fun _ => eq_refl) (resumes_jobs allowed u) (resume_step allowed u) ids (start_of d) o' all E). by apply Forall_nil.
Qed.
(** Refuted: a refusal hides the requests that were recorded before it; the server is not told of them. *)
Theorem C216_refusal_refuted w allowed cpuset u id id' d : proper_jobs d -> holdable allowed false u d id -> (forall j, j ∈ jobs d -> j_id j <> id') ->
  let o := oarhold w allowed cpuset false u [id; id'] 0 None d in events (o_db o) = events d ++ [mkEv "HOLD_WAITING_JOB" id "YES"] /\ o_sent o = [] /\ exit_status o <> 0.
Proof.
  intros HU Hh Hno o. destruct (C216_hold w allowed cpuset false u [id; id'] d HU ltac:(done)) as (l & r & El & _ & Ev & Hl & _ & Hc). fold o in Ev, Hc. clearbody o.
  assert (Hn : ~ holdable allowed false u d id') by (intros (j & Hj & Hid & _); by apply (Hno j) in Hj). assert (Hi : suspendable cpuset false d id) by (intros ?; discriminate).
  destruct l as [|a [|b l]].
  - destruct Hc as [(-> & _)|(x & r' & -> & Hx & _)]; [cbn in El; discriminate|]. assert (x = id) as -> by (cbn in El; congruence). by destruct Hx.
  - assert (a = id) as -> by (cbn in El; congruence). destruct Hc as [(-> & _)|(x & r' & _ & _ & H1 & H2)]; [cbn in El; discriminate|]. done.
  - assert (b = id') as -> by (cbn in El; congruence). apply Forall_cons in Hl as [_ Hl]. apply Forall_cons in Hl as [[Hl _] _]. done.
Qed.
(** Refuted: in the API every word except rhold is a hold. *)
Theorem C216_api_refuted w allowed cpuset u word id d : word <> "rhold"%string -> api_hold w allowed cpuset u word id d = oarhold w allowed cpuset false u [id] 0 None d.
Proof. intros H. unfold api_hold. by rewrite bool_decide_false. Qed.
Theorem C216_api_rhold w allowed cpuset u id d : api_hold w allowed cpuset u "rhold" id d = oarhold w allowed cpuset true u [id] 0 None d.
Proof. reflexivity. Qed.

(** * Cases *)
Definition ex_job (id : Z) (user state type : string) (types : list string) : job := JobModel.mkJob id user state type "default" 100 0 "NO" id "None" types.
Definition ex_db : db := mkDb [ex_job 1 "bob" "Running" "PASSIVE" []; ex_job 2 "bob" "Waiting" "PASSIVE" ["deploy"%string]; ex_job 3 "eve" "Finishing" "PASSIVE" ["besteffort"%string]; ex_job 4 "bob" "Hold" "PASSIVE" []; ex_job 5 "eve" "Running" "INTERACTIVE" []]
  [mkLog 3 "Running" 100 200; mkLog 3 "Finishing" 200 0] [mkFrag 5 150 "LEON"] [] [] [].
Definition ex_world : world := mkWorld (fun a => if a =? 7 then [1; 2] else []) (fun _ => []) (fun id => if id =? 1 then ["node1"; "node2"]%string else []) true (fun _ => false) "front" "front" 100 500.
Lemma ex_proper : proper_jobs ex_db.
Proof. unfold proper_jobs. vm_compute. by_dec. Qed.
Theorem C211_case : proper_jobs ex_db /\ deletable "bob" ex_db 1 /\ ~ deletable "bob" ex_db 3 /\ ~ deletable "root" ex_db 5 /\
  exit_status (fst (oardel ex_world "bob" [1; 2] 0 None (mkDel false None false false) ex_db)) = 0 /\ exit_status (fst (oardel ex_world "bob" [1; 3] 0 None (mkDel false None false false) ex_db)) = 1 /\
  o_sent (fst (oardel ex_world "bob" [1; 3] 0 None (mkDel false None false false) ex_db)) = ["ChState"; "Qdel"]%string.
Proof.
  split; [apply ex_proper|]. split; [split; [exists (ex_job 1 "bob" "Running" "PASSIVE" []); split; [left|]; split; [done|by left]|]; intros f Hf; apply elem_of_list_singleton in Hf as ->; done|].
  split; [intros [(j & Hj & Hid & Hm) _]; assert (j = ex_job 3 "eve" "Finishing" "PASSIVE" ["besteffort"%string]) as -> by (eapply (uniq_eq ex_db); [apply ex_proper|done|right; right; left|done]); destruct Hm as [H|[H|H]]; discriminate|].
  split; [intros [_ H]; apply (H (mkFrag 5 150 "LEON")); [left|done]|]. split; [vm_compute; reflexivity|]. split; vm_compute; reflexivity.
Qed.
Theorem C212_case : w_array ex_world 7 = [1; 2] /\ w_array ex_world 8 = [] /\ exit_status (fst (oardel ex_world "bob" [1] 8 None (mkDel false None false false) ex_db)) = 0.
Proof. split; [done|]. split; [done|vm_compute; reflexivity]. Qed.
Theorem C213_case : signalable "bob" ex_db (ex_job 1 "bob" "Running" "PASSIVE" []) /\ host_of ex_world (ex_job 1 "bob" "Running" "PASSIVE" []) "node1" /\
  o_signals (fst (oardel ex_world "bob" [1; 2] 0 None (mkDel true None false false) ex_db)) = [mkSent "node1" 1 "SIGUSR2" None] /\ exit_status (fst (oardel ex_world "bob" [1; 2] 0 None (mkDel true None false false) ex_db)) = 5.
Proof. split; [split; [left|]; split; [by left|]; split; done|]. split; [right; right; split; [apply not_elem_of_nil|]; split; [apply not_elem_of_nil|]; by exists ["node2"%string]|]. split; vm_compute; reflexivity. Qed.
Theorem C214_case : remote_command "f" "g" "SIGURG" (Some (SText "10; rm -rf x;")) = Ok "bash -c 'echo 10; rm -rf x; > g && test -e f && PROC=$(cat f) && kill -s CONT $PROC && kill -s SIGURG $PROC'"%string.
Proof. vm_compute. reflexivity. Qed.
Theorem C215_case : administrator "root" /\ ~ administrator "bob" /\ stuck ex_world ex_db 3 /\ ~ stuck ex_world ex_db 1 /\
  ((fun j => (j_id j, j_types j)) <$> jobs (o_db (fst (oardel ex_world "root" [1; 3] 0 None (mkDel false None true false) ex_db)))) = [(1, ["besteffort"]); (2, ["deploy"]); (3, ["besteffort"]); (4, []); (5, [])]%string.
Proof.
  split; [by right|]. split; [intros [H|H]; discriminate|]. split; [exists (ex_job 3 "eve" "Finishing" "PASSIVE" ["besteffort"%string]); split; [right; right; left|]; split; [done|]; split; [done|]; vm_compute; reflexivity|].
  split; [|vm_compute; reflexivity]. intros (j & Hj & Hid & Hs & _). assert (j = ex_job 1 "bob" "Running" "PASSIVE" []) as -> by (eapply (uniq_eq ex_db); [apply ex_proper|done|left|done]). discriminate.
Qed.
Theorem C216_case : holdable false false "bob" ex_db 2 /\ ~ holdable false true "bob" ex_db 1 /\ holdable true true "bob" ex_db 1 /\ suspendable true true ex_db 1 /\ resumable false "bob" ex_db 4 /\
  exit_status (oarhold ex_world false true false "bob" [2; 3] 0 None ex_db) = 1 /\ exit_status (oarresume ex_world false "bob" [4] 0 None ex_db) = 0.
Proof.
  split; [exists (ex_job 2 "bob" "Waiting" "PASSIVE" ["deploy"%string]); split; [right; left|]; split; [done|]; split; [by left|]; split; [done|by left]|].
  split; [intros (j & Hj & Hid & _ & H & _); destruct (H eq_refl) as [?|[?|?]]; discriminate|].
  split; [exists (ex_job 1 "bob" "Running" "PASSIVE" []); split; [left|]; split; [done|]; split; [by left|]; split; [by left|]; right; right; split; [done|]; right; by right|].
  split; [intros _; split; [done|]; intros j Hj Hid; assert (j = ex_job 1 "bob" "Running" "PASSIVE" []) as -> by (eapply (uniq_eq ex_db); [apply ex_proper|done|left|done]); split; apply not_elem_of_nil|].
  split; [exists (ex_job 4 "bob" "Hold" "PASSIVE" []); split; [right; right; right; left|]; split; [done|]; split; [by left|by left]|]. split; vm_compute; reflexivity.
Qed.
Print Assumptions C211_delete.
Print Assumptions C212_array.
Print Assumptions C212_condition.
Print Assumptions C212_usage.
Print Assumptions C212_named_refuted.
Print Assumptions C212_empty_refuted.
Print Assumptions C213_signals.
Print Assumptions C213_event_refuted.
Print Assumptions C213_api_refuted.
Print Assumptions C213_api_checkpoint.
Print Assumptions C214_injection_refuted.
Print Assumptions C214_any_refuted.
Print Assumptions C215_rights.
Print Assumptions C215_force.
Print Assumptions C215_besteffort.
Print Assumptions C215_unknown_refuted.
Print Assumptions C215_not_running_refuted.
Print Assumptions C216_hold.
Print Assumptions C216_resume.
Print Assumptions C216_refusal_refuted.
Print Assumptions C216_api_refuted.
Print Assumptions C216_api_rhold.
Print Assumptions C211_case.
Print Assumptions C212_case.
Print Assumptions C213_case.
Print Assumptions C214_case.
Print Assumptions C215_case.
Print Assumptions C216_case.
