(** oarnodes: C220-C225. *)
From Coq Require Import Ascii.
From stdpp Require Import sorting.
From Verif Require Import Base NodesModel NodesSpec.

(** ** The queries *)
#[local] Instance id_total : Total id_order. Proof. intros a b. unfold id_order. lia. Qed.
#[local] Instance id_trans : Transitive id_order. Proof. intros a b c. unfold id_order. lia. Qed.
#[local] Instance late_total : Total latest_first. Proof. intros a b. unfold latest_first. lia. Qed.
#[local] Instance late_trans : Transitive latest_first. Proof. intros a b c. unfold latest_first. lia. Qed.
Lemma nodup_sub (P : nres -> Prop) `{!forall r, Decision (P r)} l : NoDup (n_id <$> l) -> NoDup (n_id <$> filter P l).
Proof.
  induction l as [|a l IH]; intros Hl; [done|]. rewrite fmap_cons in Hl. apply NoDup_cons in Hl as [Ha Hl]. rewrite filter_cons. destruct (decide (P a)); [|by apply IH].
  rewrite fmap_cons. apply NoDup_cons. split; [|by apply IH]. intros Hin. apply Ha. apply elem_of_list_fmap in Hin as (b & E & Hb). apply elem_of_list_filter in Hb as [_ Hb]. rewrite E. by apply elem_of_list_fmap_1.
Qed.
Lemma sorted_strict l : StronglySorted id_order l -> NoDup (n_id <$> l) -> StronglySorted (fun a b => n_id a < n_id b) l.
Proof.
  induction 1 as [|a l Hs IH Hf]; intros Hn; [constructor|]. rewrite fmap_cons in Hn. apply NoDup_cons in Hn as [Ha Hn]. constructor; [by apply IH|].
  apply Forall_forall. intros b Hb. rewrite Forall_forall in Hf. specialize (Hf b Hb). unfold id_order in Hf. assert (n_id a <> n_id b); [|lia]. intros E. apply Ha. rewrite E. by apply elem_of_list_fmap_1.
Qed.
Lemma sorted_exactly (P : nres -> Prop) `{!forall r, Decision (P r)} d : proper_res d -> exactly P d (merge_sort id_order (filter P (n_res d))).
Proof.
  intros HD. split.
  - apply sorted_strict; [exact (StronglySorted_merge_sort id_order _)|]. rewrite merge_sort_Permutation. by apply nodup_sub.
  - intros r. rewrite merge_sort_Permutation, elem_of_list_filter. tauto.
Qed.
Lemma of_hosts_exactly hs d : proper_res d -> exactly (fun r => n_host r ∈ hs) d (of_hosts hs d).
Proof. intros HD. by apply (sorted_exactly (fun r => n_host r ∈ hs)). Qed.
Lemma of_ids_exactly ids d : proper_res d -> exactly (fun r => n_id r ∈ ids) d (of_ids ids d).
Proof. intros HD. by apply (sorted_exactly (fun r => n_id r ∈ ids)). Qed.
Lemma of_hosts_elem h d r : r ∈ of_hosts [h] d <-> r ∈ n_res d /\ n_host r = h.
Proof. unfold of_hosts. rewrite merge_sort_Permutation, elem_of_list_filter, elem_of_list_singleton. tauto. Qed.
Lemma jobs_on_spec d r id : id ∈ jobs_on d r <-> runs_on d id r.
Proof.
  unfold jobs_on, runs_on. rewrite elem_of_list_bind. split.
  - intros (j & H & Hj). apply elem_of_list_filter in Hj as [Hs Hj]. apply elem_of_list_bind in H as (a & H & Ha). apply elem_of_list_filter in Ha as [-> Ha]. apply elem_of_list_singleton in H as ->. by exists j.
  - intros (j & Hj & <- & Hs & Ha). exists j. split; [|by apply elem_of_list_filter]. apply elem_of_list_bind. exists (q_mld j, r). split; [by left|]. by apply elem_of_list_filter.
Qed.
Lemma jobs_on_nil d r : jobs_on d r = [] <-> forall id, ~ runs_on d id r.
Proof.
  split.
  - intros E id H. apply jobs_on_spec in H. rewrite E in H. by apply elem_of_nil in H.
  - intros H. destruct (jobs_on d r) as [|id l] eqn:E; [done|]. exfalso. apply (H id), jobs_on_spec. rewrite E. left.
Qed.
Lemma count_filter {A} (P : A -> Prop) `{!forall x, Decision (P x)} l : count P l (Z.of_nat (length (filter P l))).
Proof.
  induction l as [|x l IH]; [constructor|]. rewrite filter_cons. destruct (decide (P x)).
  - replace (Z.of_nat (length (x :: filter P l))) with (Z.of_nat (length (filter P l)) + 1) by (cbn [length]; lia). by constructor.
  - by constructor.
Qed.
Lemma count_iff {A} (P Q : A -> Prop) l n : (forall x, P x <-> Q x) -> count P l n -> count Q l n.
Proof. intros H. induction 1; [constructor|constructor; [by apply H|done]|constructor; [by rewrite <- H|done]]. Qed.
Lemma three_ways {A} (l : list A) (P Q : A -> Prop) `{!forall x, Decision (P x)} `{!forall x, Decision (Q x)} :
  Z.of_nat (length l) - Z.of_nat (length (filter (fun x => ~ P x) l)) - Z.of_nat (length (filter (fun x => P x /\ ~ Q x) l)) = Z.of_nat (length (filter (fun x => P x /\ Q x) l)).
Proof.
  induction l as [|x l IH]; [done|]. rewrite !filter_cons. destruct (decide (~ P x)), (decide (P x /\ ~ Q x)), (decide (P x /\ Q x)); try tauto; try (destruct (decide (P x)), (decide (Q x)); tauto); cbn [length]; lia.
Qed.
Lemma filter_perm_length {A} (P : A -> Prop) `{!forall x, Decision (P x)} (l l' : list A) : l ≡ₚ l' -> length (filter P l) = length (filter P l').
Proof. intros Hl. by rewrite Hl. Qed.
Lemma filter_two {A} (P Q : A -> Prop) `{!forall x, Decision (P x)} `{!forall x, Decision (Q x)} (l : list A) : filter P (filter Q l) = filter (fun x => Q x /\ P x) l.
Proof. rewrite list_filter_filter. apply list_filter_iff. intros x. tauto. Qed.

(** ** C220. The summary *)
Lemma line_spec now d h l : summary_line now d h = Some l -> l_host l = h /\
  count (fun r => n_host r = h) (n_res d) (l_total l) /\ count (fun r => n_host r = h /\ free d r) (n_res d) (l_free l) /\
  NoDup (l_jobs l) /\ (forall id, id ∈ l_jobs l <-> exists r, r ∈ n_res d /\ n_host r = h /\ runs_on d id (n_id r)) /\
  exists first, first ∈ n_res d /\ n_host first = h /\ (forall r, r ∈ n_res d -> n_host r = h -> n_id first <= n_id r) /\ l_state l = shown_state now first.
Proof.
  intros H. unfold summary_line in H. destruct (of_hosts [h] d) as [|first rest] eqn:E; [done|]. set (rs := first :: rest) in *.
  assert (rs ≡ₚ filter (fun r => n_host r = h) (n_res d)) as Hp.
  { rewrite <- E. unfold of_hosts. rewrite merge_sort_Permutation. erewrite list_filter_iff; [reflexivity|]. intros r. by rewrite elem_of_list_singleton. }
  assert (forall r, r ∈ rs <-> r ∈ n_res d /\ n_host r = h) as Hr by (intros r; rewrite <- E; apply of_hosts_elem).
  assert (StronglySorted id_order rs) as Hs by (rewrite <- E; exact (StronglySorted_merge_sort id_order _)).
  assert (l = mkLine h (shown_state now first) (remove_dups (rs ≫= fun r => jobs_on d (n_id r)))
     (Z.of_nat (length rs) - Z.of_nat (length (filter (fun r => jobs_on d (n_id r) <> []) rs)) - Z.of_nat (length (filter (fun r => jobs_on d (n_id r) = [] /\ n_state r <> "Alive"%string) rs))) (Z.of_nat (length rs))) as -> by (apply (inj Some); symmetry; exact H).
  clear H. cbn [l_host l_state l_jobs l_free l_total]. split; [done|]. split; [|split; [|split; [|split]]].
  - replace (Z.of_nat (length rs)) with (Z.of_nat (length (filter (fun r => n_host r = h) (n_res d)))) by (by rewrite Hp). apply count_filter.
  - rewrite (three_ways rs (fun r => jobs_on d (n_id r) = []) (fun r => n_state r = "Alive"%string)). rewrite (filter_perm_length _ _ _ Hp), filter_two.
    eapply count_iff; [|apply count_filter]. intros r. unfold free. rewrite <- jobs_on_nil. tauto.
  - apply NoDup_remove_dups.
  - intros id. rewrite elem_of_remove_dups, elem_of_list_bind. split.
    + intros (r & Hj & Hin). apply Hr in Hin as [H1 H2]. apply jobs_on_spec in Hj. by exists r.
    + intros (r & H1 & H2 & Hj). exists r. apply jobs_on_spec in Hj. split; [done|]. by apply Hr.
  - assert (first ∈ rs) as Hf by left. apply Hr in Hf as [H1 H2]. exists first. split; [done|]. split; [done|]. split; [|done]. intros r Hr1 Hr2.
    assert (r ∈ rs) as Hin by (by apply Hr). apply elem_of_cons in Hin as [->|Hin]; [lia|]. inversion Hs as [|? ? _ Hall]; subst. rewrite Forall_forall in Hall. exact (Hall r Hin).
Qed.
Lemma line_some now d h : is_Some (summary_line now d h) <-> exists r, r ∈ n_res d /\ n_host r = h.
Proof.
  unfold summary_line. destruct (of_hosts [h] d) as [|first rest] eqn:E.
  - split; [by intros [? ?]|]. intros (r & H). apply of_hosts_elem in H. rewrite E in H. by apply elem_of_nil in H.
  - split; [intros _|by eexists]. exists first. apply of_hosts_elem. rewrite E. left.
Qed.
(** A line per host with resources, with its resources, those that are free, and its running jobs. *)
Theorem C220_lines now d hosts :
  NoDup (l_host <$> summary now d hosts) /\
  (forall h, h ∈ (l_host <$> summary now d hosts) <-> h ∈ hosts /\ exists r, r ∈ n_res d /\ n_host r = h) /\
  (forall l, l ∈ summary now d hosts ->
     count (fun r => n_host r = l_host l) (n_res d) (l_total l) /\ count (fun r => n_host r = l_host l /\ free d r) (n_res d) (l_free l) /\
     NoDup (l_jobs l) /\ (forall id, id ∈ l_jobs l <-> exists r, r ∈ n_res d /\ n_host r = l_host l /\ runs_on d id (n_id r))).
Proof.
  unfold summary. assert (Hmem : forall l, l ∈ omap (summary_line now d) (remove_dups hosts) -> summary_line now d (l_host l) = Some l /\ l_host l ∈ hosts).
  { intros l Hl. apply elem_of_list_omap in Hl as (h & Hh & E). destruct (line_spec _ _ _ _ E) as [Eh _]. rewrite Eh. rewrite elem_of_remove_dups in Hh. split; [exact E|exact Hh]. }
  split; [|split].
  - pose proof (NoDup_remove_dups hosts) as Hn. revert Hn. generalize (remove_dups hosts). intros hs. induction hs as [|h hs IH]; intros Hn; [constructor|]. apply NoDup_cons in Hn as [Hh Hn]. cbn [omap list_omap].
    destruct (summary_line now d h) as [l|] eqn:E; [|by apply IH]. rewrite fmap_cons. apply NoDup_cons. split; [|by apply IH]. intros Hin. apply elem_of_list_fmap in Hin as (l' & Heq & Hl').
    apply elem_of_list_omap in Hl' as (h' & Hh' & E'). destruct (line_spec _ _ _ _ E) as [Eh _]. destruct (line_spec _ _ _ _ E') as [Eh' _]. apply Hh. rewrite <- Eh, Heq, Eh'. done.
  - intros h. rewrite elem_of_list_fmap. split.
    + intros (l & -> & Hl). destruct (Hmem l Hl) as [E Hin]. split; [done|]. apply (line_some now). by eexists.
    + intros [Hh Hr]. apply (line_some now) in Hr as [l E]. exists l. destruct (line_spec _ _ _ _ E) as [Eh _]. split; [done|]. apply elem_of_list_omap. exists h. rewrite elem_of_remove_dups. done.
  - intros l Hl. destruct (Hmem l Hl) as [E _]. destruct (line_spec _ _ _ _ E) as (_ & H1 & H2 & H3 & H4 & _). done.
Qed.
(** The state of a host whose resources are all in the same state. *)
Theorem C220_state_partial now d hosts l s : l ∈ summary now d hosts -> (forall r, r ∈ n_res d -> n_host r = l_host l -> n_state r = s) ->
  (s <> "Absent"%string -> l_state l = s) /\
  (s = "Absent"%string -> (forall r, r ∈ n_res d -> n_host r = l_host l -> now <= n_upto r) -> l_state l = "Standby"%string) /\
  (s = "Absent"%string -> (forall r, r ∈ n_res d -> n_host r = l_host l -> n_upto r < now) -> l_state l = "Absent"%string).
Proof.
  intros Hl Hs. unfold summary in Hl. apply elem_of_list_omap in Hl as (h & _ & E). destruct (line_spec _ _ _ _ E) as (<- & _ & _ & _ & _ & f & Hf & Hh & _ & ->). specialize (Hs f Hf Hh). unfold shown_state. rewrite Hs. split; [|split].
  - intros Hn. by rewrite bool_decide_false.
  - intros -> H. specialize (H f Hf Hh). rewrite bool_decide_true by done. replace (now <=? n_upto f) with true by lia. done.
  - intros -> H. specialize (H f Hf Hh). replace (now <=? n_upto f) with false by lia. by rewrite andb_false_r.
Qed.
(** Refuted otherwise: the state is that of the resource with the smallest number, whatever the others. *)
Theorem C220_state_refuted : exists d l, proper_res d /\ summary 100 d ["n1"%string] = [l] /\ l_state l = "Alive"%string /\ l_free l = 1 /\ l_total l = 3 /\ count (fun r => n_state r = "Dead"%string) (n_res d) 2.
Proof.
  exists (mkNdb [mkN 3 "n1" "Dead" 0; mkN 1 "n1" "Alive" 0; mkN 2 "n1" "Dead" 0] [] [] []). eexists. split; [unfold proper_res; by_dec|]. split; [vm_compute; reflexivity|]. split; [reflexivity|]. split; [reflexivity|]. split; [reflexivity|].
  cbn [n_res]. apply count_yes with (n := 1); [done|]. apply count_no; [done|]. apply count_yes with (n := 0); [done|]. constructor.
Qed.

(** ** C221. Which resources are shown *)
Theorem C221_hosts now sql nodes d : proper_res d -> nodes <> [] -> exists l, oarnodes now sql (plain_options nodes) d = (STable l, 0) /\ exactly (fun r => n_host r ∈ nodes) d l.
Proof.
  intros HD Hn. exists (of_hosts nodes d). split; [|by apply of_hosts_exactly]. unfold oarnodes, plain_options. cbn [o_nodes o_ids o_sql o_state o_summary o_list o_events o_format].
  rewrite (bool_decide_false (nodes = [])) by done. cbn. destruct nodes; done.
Qed.
Theorem C221_all now sql d : proper_res d -> n_res d <> [] -> exists l, oarnodes now sql (plain_options []) d = (STable l, 0) /\ exactly (fun _ => True) d l.
Proof.
  intros HD Hn. exists (of_hosts (all_hosts d) d). assert (forall r, r ∈ n_res d -> n_host r ∈ all_hosts d) as Hin by (intros r Hr; unfold all_hosts; rewrite elem_of_remove_dups; by apply elem_of_list_fmap_1). split.
  - unfold oarnodes, plain_options. cbn. destruct (all_hosts d) as [|h hs] eqn:E; [|done]. exfalso. destruct (n_res d) as [|r rs]; [done|]. specialize (Hin r ltac:(left)). by apply elem_of_nil in Hin.
  - destruct (of_hosts_exactly (all_hosts d) d HD) as [H1 H2]. split; [done|]. intros r. rewrite H2. split; [tauto|]. intros [Hr _]. split; [done|]. by apply Hin.
Qed.
Theorem C221_ids now sql ids q d : proper_res d -> (ids <> [] \/ q <> None) ->
  exists l, oarnodes now sql (mkOpts [] ids q false false false None false) d = (STable l, 0) /\ exactly (fun r => n_id r ∈ ids \/ exists c, q = Some c /\ n_id r ∈ sql c) d l.
Proof.
  intros HD Hn. set (all := ids ++ match q with Some c => sql c | None => [] end). exists (of_ids all d). split.
  - unfold oarnodes. cbn [o_nodes o_ids o_sql o_state o_summary o_list o_events o_format]. fold all. assert (negb (bool_decide (all = [])) || negb (bool_decide (q = None)) = true) as ->; [|done].
    destruct Hn as [Hn|Hn]; [|rewrite (bool_decide_false (q = None)) by done; apply orb_true_r]. rewrite (bool_decide_false (all = [])); [done|]. subst all. destruct ids; done.
  - destruct (of_ids_exactly all d HD) as [H1 H2]. split; [done|]. intros r. rewrite H2. subst all. rewrite elem_of_app. split; intros [Hr H]; (split; [done|]).
    + destruct H as [H|H]; [by left|right]. destruct q as [c|]; [by exists c|by apply elem_of_nil in H].
    + destruct H as [H|(c & -> & H)]; auto.
Qed.
(** Refuted: with -r or --sql the hosts given are not shown; with --sql the summary is empty whatever the condition selects. *)
Theorem C221_mixed_refuted now sql nodes ids d : ids <> [] -> oarnodes now sql (mkOpts nodes ids None false false false None false) d = oarnodes now sql (mkOpts [] ids None false false false None false) d.
Proof.
  intros Hi. unfold oarnodes. cbn [o_nodes o_ids o_sql o_state o_summary o_list o_events o_format]. rewrite app_nil_r. rewrite (bool_decide_false (ids = [])) by done. cbn. done.
Qed.
Theorem C221_summary_refuted now sql q d : oarnodes now sql (mkOpts [] [] (Some q) false true false None false) d = (SSummary [], 0).
Proof. reflexivity. Qed.

(** ** C222. The status says whether the hosts are known *)
(** Refuted: it is 0 whatever the options and the hosts. *)
Theorem C222_refuted now sql o d : snd (oarnodes now sql o d) = 0.
Proof. reflexivity. Qed.
Theorem C222_unknown_refuted now sql h d : (forall r, r ∈ n_res d -> n_host r <> h) -> oarnodes now sql (plain_options [h]) d = (STable [], 0).
Proof.
  intros H. unfold oarnodes, plain_options. cbn. assert (of_hosts [h] d = []) as ->; [|done]. destruct (of_hosts [h] d) as [|r l] eqn:E; [done|]. exfalso.
  assert (r ∈ of_hosts [h] d) as Hr by (rewrite E; left). apply of_hosts_elem in Hr as [H1 H2]. by apply (H r).
Qed.

(** ** C223. The states (-s) *)
Definition state_options (nodes : list string) (ids : list Z) (format : bool) : options := mkOpts nodes ids None true false false None format.
(** By resource, and by host with a format: a resource that is absent for a while is Standby. *)
Lemma states_spec now d ids i s : proper_res d -> (i, s) ∈ states now d ids <-> i ∈ ids /\ exists r, r ∈ n_res d /\ n_id r = i /\ ((n_state r = "Absent"%string /\ now <= n_upto r /\ s = "Standby"%string) \/ (~ (n_state r = "Absent"%string /\ now <= n_upto r) /\ s = n_state r)).
Proof.
  intros HD. unfold states. rewrite elem_of_list_fmap. destruct (of_ids_exactly ids d HD) as [_ Hm].
  assert (Hst : forall r s, s = shown_state now r <-> ((n_state r = "Absent"%string /\ now <= n_upto r /\ s = "Standby"%string) \/ (~ (n_state r = "Absent"%string /\ now <= n_upto r) /\ s = n_state r))).
  { intros r s0. unfold shown_state. destruct (bool_decide (n_state r = "Absent"%string) && (now <=? n_upto r)) eqn:E.
    - apply andb_true_iff in E as [E1 E2]. apply bool_decide_eq_true in E1. apply Z.leb_le in E2. tauto.
    - assert (~ (n_state r = "Absent"%string /\ now <= n_upto r)); [|tauto]. intros [H1 H2]. rewrite bool_decide_true in E by done. cbn in E. lia. }
  split.
  - intros (r & E & Hr). apply Hm in Hr as [Hr Hi]. assert (i = n_id r) by congruence. assert (s = shown_state now r) as Es by congruence. subst i. split; [done|]. exists r. split; [done|]. split; [done|]. by apply Hst.
  - intros (Hi & r & Hr & <- & H). apply Hst in H as ->. exists r. split; [done|]. by apply Hm.
Qed.
Theorem C223_by_id now sql nodes ids format d : proper_res d -> ids <> [] ->
  exists l, oarnodes now sql (state_options nodes ids format) d = (SStates l, 0) /\
    forall i s, (i, s) ∈ l <-> i ∈ ids /\ exists r, r ∈ n_res d /\ n_id r = i /\ ((n_state r = "Absent"%string /\ now <= n_upto r /\ s = "Standby"%string) \/ (~ (n_state r = "Absent"%string /\ now <= n_upto r) /\ s = n_state r)).
Proof.
  intros HD Hi. exists (states now d ids). split; [|intros i s; by apply states_spec]. unfold oarnodes, state_options. cbn. rewrite app_nil_r. destruct ids; done.
Qed.
Theorem C223_by_host now sql nodes d : proper_res d -> nodes <> [] ->
  exists l, oarnodes now sql (state_options nodes [] true) d = (SHosts l, 0) /\ fst <$> l = nodes /\
    forall h x i s, (h, x) ∈ l -> (i, s) ∈ x <-> exists r, r ∈ n_res d /\ n_host r = h /\ n_id r = i /\ ((n_state r = "Absent"%string /\ now <= n_upto r /\ s = "Standby"%string) \/ (~ (n_state r = "Absent"%string /\ now <= n_upto r) /\ s = n_state r)).
Proof.
  intros HD Hn. exists ((fun h => (h, host_states now d h)) <$> nodes). split; [|split].
  - unfold oarnodes, state_options. cbn. destruct nodes; done.
  - rewrite <- list_fmap_compose. unfold compose. cbn. apply list_fmap_id.
  - intros h x i s Hx. apply elem_of_list_fmap in Hx as (h' & E & _). assert (h' = h) as Eh by congruence. subst h'. assert (x = host_states now d h) as -> by congruence. unfold host_states. rewrite states_spec by done. split.
    + intros (Hi & r & Hr & Hri & H). apply elem_of_list_fmap in Hi as (r' & Hr' & Hin). apply of_hosts_elem in Hin as [Hin Hh]. exists r. split; [done|]. split; [|done].
      assert (r' = r) as <-; [|done]. assert (n_id r' = n_id r) as Eid by congruence. clear H Hr' Hri. unfold proper_res in HD. revert HD Hin Hr Eid. clear. induction (n_res d) as [|a l IH]; intros HD H1 H2 E; [by apply elem_of_nil in H1|].
      rewrite fmap_cons in HD. apply NoDup_cons in HD as [Ha HD]. apply elem_of_cons in H1 as [->|H1]; apply elem_of_cons in H2 as [->|H2]; [done|..|by apply IH]; exfalso; apply Ha; [rewrite E|rewrite <- E]; by apply elem_of_list_fmap_1.
    + intros (r & Hr & Hh & Hi & H). split; [|by exists r]. rewrite <- Hi. apply elem_of_list_fmap_1. by apply of_hosts_elem.
Qed.
(** Refuted: without a format the same command says Absent for a resource in standby. *)
Theorem C223_format_refuted : exists d, proper_res d /\
  oarnodes 100 (fun _ => []) (state_options ["n1"%string] [] true) d = (SHosts [("n1"%string, [(1, "Standby"%string); (2, "Alive"%string)])], 0) /\
  oarnodes 100 (fun _ => []) (state_options ["n1"%string] [] false) d = (SHosts [("n1"%string, [(1, "Absent"%string); (2, "Alive"%string)])], 0).
Proof. exists (mkNdb [mkN 2 "n1" "Alive" 0; mkN 1 "n1" "Absent" 500] [] [] []). split; [unfold proper_res; by_dec|]. split; vm_compute; reflexivity. Qed.

(** ** C224. The events of the hosts (-e) *)
Definition events_options (nodes : list string) (date : option Z) : options := mkOpts nodes [] None false false false (Some date) false.
Theorem C224_since now sql nodes t d : nodes <> [] ->
  exists l, oarnodes now sql (events_options nodes (Some t)) d = (SEvents l, 0) /\ fst <$> l = nodes /\
    forall h x, (h, x) ∈ l -> StronglySorted (fun a b => e_date b <= e_date a) x /\ x ≡ₚ filter (fun e => e_host e = h /\ t <= e_date e) (n_evs d).
Proof.
  intros Hn. exists ((fun h => (h, events_of d h (Some t))) <$> nodes). split; [|split].
  - unfold oarnodes, events_options. cbn. destruct nodes; done.
  - rewrite <- list_fmap_compose. unfold compose. cbn. apply list_fmap_id.
  - intros h x Hx. apply elem_of_list_fmap in Hx as (h' & E & _). assert (h' = h) as Eh by congruence. subst h'. assert (x = events_of d h (Some t)) as -> by congruence. unfold events_of. split.
    + exact (StronglySorted_merge_sort latest_first _).
    + rewrite merge_sort_Permutation. by rewrite filter_two.
Qed.
Theorem C224_last now sql nodes d : nodes <> [] ->
  exists l, oarnodes now sql (events_options nodes None) d = (SEvents l, 0) /\ fst <$> l = nodes /\
    forall h x, (h, x) ∈ l -> StronglySorted (fun a b => e_date b <= e_date a) x /\
      exists older, x ++ older ≡ₚ filter (fun e => e_host e = h) (n_evs d) /\ (older <> [] -> length x = 30%nat) /\ (length x <= 30)%nat /\ forall a b, a ∈ x -> b ∈ older -> e_date b <= e_date a.
Proof.
  intros Hn. exists ((fun h => (h, events_of d h None)) <$> nodes). split; [|split].
  - unfold oarnodes, events_options. cbn. destruct nodes; done.
  - rewrite <- list_fmap_compose. unfold compose. cbn. apply list_fmap_id.
  - intros h x Hx. apply elem_of_list_fmap in Hx as (h' & E & _). assert (h' = h) as Eh by congruence. subst h'. assert (x = events_of d h None) as -> by congruence. clear E. unfold events_of.
    set (all := filter (fun e => e_host e = h) (n_evs d)). set (s := merge_sort latest_first all).
    assert (StronglySorted latest_first s) as Hs by exact (StronglySorted_merge_sort latest_first _). assert (s ≡ₚ all) as Hp by apply merge_sort_Permutation. clearbody s all.
    rewrite <- (take_drop 30 s) in Hs. pose proof (StronglySorted_app_inv_l _ _ _ Hs) as H1. split; [done|]. exists (drop 30 s). rewrite take_drop. split; [done|]. split; [|split; [rewrite take_length; lia|]].
    + intros Hd. rewrite take_length. destruct (decide (length s < 30)%nat); [|lia]. exfalso. apply Hd. apply drop_ge. lia.
    + intros a b Ha Hb. exact (elem_of_StronglySorted_app latest_first _ _ a b Hs Ha Hb).
Qed.

(** ** C225. Options that may have no value *)
Definition no_value (s : string) : Prop := dashed s.
Lemma dashed_spec c r : bool_decide (c = "-"%char) = true <-> dashed (String c r).
Proof. rewrite bool_decide_eq_true. split; [intros ->; by exists r|]. intros (r' & E). congruence. Qed.
Lemma flag_cons names marker a b r : flag_or_string names marker (a :: b :: r) =
  if bool_decide (a ∈ names) then
    match b with
    | EmptyString => Err EIndex
    | String c _ => out <-- flag_or_string names marker (b :: r) ;; Ok (a :: (if bool_decide (c = "-"%char) then marker :: out else out))
    end
  else out <-- flag_or_string names marker (b :: r) ;; Ok (a :: out).
Proof. by destruct b. Qed.
Lemma first_kept names marker argv out : flag_or_string names marker argv = Ok out -> exists a r r', argv = a :: r /\ out = a :: r'.
Proof.
  destruct argv as [|a [|b r]]; [done|cbn [flag_or_string]|rewrite flag_cons].
  - intros H. exists a, []. case_bool_decide; injection H as <-; by eexists.
  - intros H. exists a, (b :: r). case_bool_decide.
    + destruct b as [|c b]; [done|]. apply rbind_Ok in H as (o & _ & H). injection H as <-. by eexists.
    + apply rbind_Ok in H as (o & _ & H). injection H as <-. by eexists.
Qed.
(** The arguments are kept; after each of the options there is a value. *)
Theorem C225_values names marker argv out : (forall n, n ∈ names -> dashed n) -> ~ dashed marker -> marker ∉ argv -> flag_or_string names marker argv = Ok out ->
  filter (fun a => a <> marker) out = argv /\ followed (fun a => a ∈ names) (fun v => v <> ""%string /\ ~ dashed v \/ v = marker) out.
Proof.
  intros Hnames Hm. revert out. induction argv as [|a r IH]; intros out Hni H; [done|]. apply not_elem_of_cons in Hni as [Ha Hr].
  destruct r as [|b r].
  - cbn [flag_or_string] in H. case_bool_decide as Ea; injection H as <-.
    + split.
      * rewrite filter_cons_True by congruence. rewrite filter_cons_False by tauto. done.
      * cbn [followed]. split; [intros _; exists marker, []; split; [done|by right]|]. split; [|done]. intros Hin. exfalso. by apply Hm, Hnames.
    + split; [by rewrite filter_cons_True by congruence|]. cbn [followed]. done.
  - rewrite flag_cons in H. destruct (bool_decide (a ∈ names)) eqn:Eb; [apply bool_decide_eq_true in Eb as Ea|apply bool_decide_eq_false in Eb as Ea].
    + destruct b as [|c b]; [done|]. apply rbind_Ok in H as (o & Ho & H). specialize (IH o Hr Ho) as [IH1 IH2]. destruct (first_kept _ _ _ _ Ho) as (a' & r0 & r' & E & ->). injection E as <- _.
      destruct (bool_decide (c = "-"%char)) eqn:Ec; injection H as <-.
      * split; [rewrite filter_cons_True by congruence; rewrite filter_cons_False by tauto; by rewrite IH1|]. cbn [followed]. split; [intros _; eexists _, _; split; [done|by right]|]. split; [intros Hin; exfalso; by apply Hm, Hnames|exact IH2].
      * split; [rewrite filter_cons_True by congruence; by rewrite IH1|]. cbn [followed]. split; [|exact IH2]. intros _. eexists _, _. split; [done|]. left. split; [done|]. rewrite <- dashed_spec. by rewrite Ec.
    + apply rbind_Ok in H as (o & Ho & H). specialize (IH o Hr Ho) as [IH1 IH2]. injection H as <-. split; [rewrite filter_cons_True by congruence; by rewrite IH1|]. cbn [followed]. split; [|exact IH2]. done.
Qed.
(** Nothing is added after an option that has a value, or elsewhere. *)
Theorem C225_added names marker argv out : marker ∉ argv -> (forall n, n ∈ names -> dashed n) -> flag_or_string names marker argv = Ok out ->
  followed (fun a => a ∈ names) (fun v => v <> ""%string /\ ~ dashed v) argv -> out = argv.
Proof.
  intros Hni Hnames. revert out Hni. induction argv as [|a r IH]; intros out Hni H HF; [done|]. apply not_elem_of_cons in Hni as [Ha Hr]. cbn [followed] in HF. destruct HF as [Hf HF].
  destruct r as [|b r].
  - cbn [flag_or_string] in H. case_bool_decide as Ea; injection H as <-; [|done]. destruct (Hf Ea) as (? & ? & ? & _). done.
  - rewrite flag_cons in H. destruct (bool_decide (a ∈ names)) eqn:Eb; [apply bool_decide_eq_true in Eb as Ea|apply bool_decide_eq_false in Eb as Ea].
    + destruct (Hf Ea) as (b' & r' & E & [Hb1 Hb2]). injection E as <- <-. destruct b as [|c b]; [done|]. apply rbind_Ok in H as (o & Ho & H). specialize (IH o Hr Ho HF).
      destruct (bool_decide (c = "-"%char)) eqn:Ec; [by apply (dashed_spec c b) in Ec|]. injection H as <-. by rewrite IH.
    + apply rbind_Ok in H as (o & Ho & H). specialize (IH o Hr Ho HF). injection H as <-. by rewrite IH.
Qed.
(** It fails only on an option followed by an empty text. *)
Theorem C225_fails_partial names marker argv : argv <> [] -> followed (fun a => a ∈ names) (fun v => v <> ""%string) (argv ++ ["x"%string]) -> exists out, flag_or_string names marker argv = Ok out.
Proof.
  induction argv as [|a r IH]; intros Hne HF; [done|]. cbn [followed app] in HF. destruct HF as [Hf HF]. destruct r as [|b r]; [by eexists|]. destruct (IH ltac:(done) HF) as (o & Ho). rewrite flag_cons.
  case_bool_decide as Ea.
  - destruct (Hf Ea) as (b' & r' & E & Hb). injection E as <- _. destruct b as [|c b]; [done|]. rewrite Ho. cbn. by eexists.
  - rewrite Ho. by eexists.
Qed.
Theorem C225_empty_refuted : flag_or_string ["-u"; "--user"]%string "_this_user_" ["oarstat"; "-u"; ""]%string = Err EIndex.
Proof. reflexivity. Qed.
(** Refuted for the hosts: -e before a host takes it for the date. *)
Theorem C225_host_refuted h : ~ dashed h -> h <> ""%string -> h ∉ ["-e"; "--events"]%string -> flag_or_string ["-e"; "--events"]%string "_events_without_date_" ["oarnodes"; "-e"; h]%string = Ok ["oarnodes"; "-e"; h]%string.
Proof.
  intros Hd He Hn. destruct h as [|c h]; [done|]. cbn [flag_or_string]. rewrite (bool_decide_false ("oarnodes"%string ∈ _)) by by_dec. rewrite (bool_decide_true ("-e"%string ∈ _)) by by_dec. rewrite (bool_decide_false (String c h ∈ _)) by done.
  destruct (bool_decide (c = "-"%char)) eqn:E; [by apply (dashed_spec c h) in E|]. done.
Qed.
Theorem C225_case : flag_or_string ["-u"; "--user"]%string "_this_user_" ["oarstat"; "-u"; "--accounting"; "x"; "-u"]%string = Ok ["oarstat"; "-u"; "_this_user_"; "--accounting"; "x"; "-u"; "_this_user_"]%string /\
  flag_or_string ["-u"; "--user"]%string "_this_user_" ["oarstat"; "-u"; "bob"; "-f"]%string = Ok ["oarstat"; "-u"; "bob"; "-f"]%string.
Proof. vm_compute. done. Qed.
Definition nodes_db : ndb :=
  mkNdb [mkN 3 "n2" "Alive" 0; mkN 1 "n1" "Alive" 0; mkN 2 "n1" "Alive" 0; mkN 4 "n2" "Absent" 500] [mkNj 7 "Running" 70; mkNj 8 "Waiting" 80] [(70, 2); (80, 1); (70, 3)] [mkNe 1 "n1" 10; mkNe 2 "n1" 20; mkNe 3 "n2" 15].
Theorem C220_case : proper_res nodes_db /\ summary 100 nodes_db ["n2"; "n1"; "n9"; "n1"]%string = [mkLine "n2" "Alive" [7] 0 2; mkLine "n1" "Alive" [7] 1 2].
Proof. split; [unfold proper_res; by_dec|vm_compute; reflexivity]. Qed.
Theorem C221_case : oarnodes 100 (fun _ => [4]) (plain_options ["n2"%string]) nodes_db = (STable [mkN 3 "n2" "Alive" 0; mkN 4 "n2" "Absent" 500], 0) /\
  oarnodes 100 (fun _ => [4]) (mkOpts [] [1] (Some "q"%string) false false false None false) nodes_db = (STable [mkN 1 "n1" "Alive" 0; mkN 4 "n2" "Absent" 500], 0) /\
  oarnodes 100 (fun _ => []) (events_options ["n1"%string] None) nodes_db = (SEvents [("n1"%string, [mkNe 2 "n1" 20; mkNe 1 "n1" 10])], 0) /\
  oarnodes 100 (fun _ => []) (events_options ["n1"%string] (Some 20)) nodes_db = (SEvents [("n1"%string, [mkNe 2 "n1" 20])], 0).
Proof. split; [vm_compute; reflexivity|]. split; [vm_compute; reflexivity|]. split; vm_compute; reflexivity. Qed.
Print Assumptions C220_lines.
Print Assumptions C220_state_partial.
Print Assumptions C220_state_refuted.
Print Assumptions C221_hosts.
Print Assumptions C221_all.
Print Assumptions C221_ids.
Print Assumptions C221_mixed_refuted.
Print Assumptions C221_summary_refuted.
Print Assumptions C222_refuted.
Print Assumptions C222_unknown_refuted.
Print Assumptions C223_by_id.
Print Assumptions C223_by_host.
Print Assumptions C223_format_refuted.
Print Assumptions C224_since.
Print Assumptions C224_last.
Print Assumptions C225_values.
Print Assumptions C225_added.
Print Assumptions C225_fails_partial.
Print Assumptions C225_empty_refuted.
Print Assumptions C225_host_refuted.
Print Assumptions C225_case.
Print Assumptions C220_case.
Print Assumptions C221_case.
