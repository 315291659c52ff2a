(** C147-C151: proofs. *)
From Verif Require Import Base ListModel ListSpec.

Lemma existsb_in {A} (f : A -> bool) l : existsb f l = true <-> exists x, x ∈ l /\ f x = true.
Proof. rewrite existsb_exists. split; intros (x & H & E); exists x; split; try done; by apply elem_of_list_In. Qed.
Lemma nonempty_spec {A} (l : list A) : nonempty l = true <-> l <> [].
Proof. by destruct l. Qed.
Lemma nonempty_not {A} (l : list A) : nonempty l = false <-> l = [].
Proof. by destruct l. Qed.
Lemma commons_spec q j : commons q j = true <-> asked q j /\ (q_states q = [] -> states_of q <> [] -> j_state j ∈ states_of q).
Proof.
  unfold commons. rewrite !andb_true_iff, !orb_true_iff, !bool_decide_eq_true, !negb_true_iff, !Z.eqb_eq, !nonempty_not.
  assert (HS : states_of q = [] \/ j_state j ∈ states_of q <-> (q_states q <> [] -> j_state j ∈ q_states q) /\ (q_states q = [] -> states_of q <> [] -> j_state j ∈ states_of q)).
  { destruct (q_states q) as [|s l] eqn:E.
    - split; [intros H; split; [done|]; intros _ Hn; by destruct H|]. intros [_ H]. destruct (states_of q) as [|s' l']; [by left|right; by apply H].
    - unfold states_of. rewrite E. cbn [nonempty negb andb]. split; [intros [?|?]; [done|]; by split|intros [H _]; right; by apply H]. }
  split.
  - intros ((((H1 & H2) & H3) & H4) & H5). apply HS in H2 as [H2 H6]. split; [|done]. constructor.
    + intros Hn. by destruct H1.
    + done.
    + intros Hn. by destruct H3.
    + intros Hn. by destruct H4.
    + intros c Hc. by rewrite Hc in H5.
  - intros [[H1 H2 H3 H4 H5] H6]. split; [split; [split; [split|]|]|].
    + destruct (decide (q_user q = ""%string)); [by left|right; by apply H1].
    + apply HS. by split.
    + destruct (decide (q_array q = 0)); [by left|right; by apply H3].
    + destruct (decide (q_ids q = [])); [by left|right; by apply H4].
    + destruct (q_cond q); [by apply H5|done].
Qed.
Lemma by_key_spec q : by_key q = false <-> q_ids q = [] /\ q_array q = 0.
Proof. unfold by_key. rewrite orb_false_iff, nonempty_not, negb_false_iff, Z.eqb_eq. done. Qed.
Global Instance by_id_total : Total by_id.
Proof. intros a b. unfold by_id. lia. Qed.
Global Instance by_id_trans : Transitive by_id.
Proof. intros a b c. unfold by_id. lia. Qed.
Lemma list_in d q j : j ∈ list_jobs d q <-> j ∈ jobs d /\ (q1 d q j = true \/ q2 d q j = true \/ q3 q j = true).
Proof. unfold list_jobs. rewrite merge_sort_Permutation, elem_of_list_filter, !orb_true_iff. tauto. Qed.
Lemma filter_ids (P : job -> Prop) {Pd : forall x, Decision (P x)} l : NoDup (j_id <$> l) -> NoDup (j_id <$> filter P l).
Proof.
  induction l as [|a l IH]; [done|]. rewrite fmap_cons. intros [Ha HN]%NoDup_cons. rewrite filter_cons. destruct (decide (P a)); [|by apply IH].
  rewrite fmap_cons. apply NoDup_cons. split; [|by apply IH]. intros (x & E & Hx)%elem_of_list_fmap. apply Ha. apply elem_of_list_filter in Hx as [_ Hx].
  apply elem_of_list_fmap. by exists x.
Qed.
Lemma strict l : NoDup (j_id <$> l) -> StronglySorted by_id l -> ascending l.
Proof.
  induction l as [|a l IH]; [constructor|]. rewrite fmap_cons. intros [Ha HN]%NoDup_cons HS. inversion HS as [|? ? HS' HF]; subst. constructor; [by apply IH|].
  rewrite Forall_forall in *. intros b Hb. pose proof (HF b Hb) as H. unfold by_id in H.
  assert (j_id a <> j_id b); [|lia]. intros E. apply Ha. rewrite E. apply elem_of_list_fmap. by exists b.
Qed.
(** The three reasons, in the vocabulary of the specification. *)
Definition ran (d : db) (q : req) (j : job) : Prop :=
  (exists a, a ∈ asgs d /\ a_mld a = j_mld j /\ a_index a ∈ indexes_of q) /\
  exists m, m ∈ mlds d /\ m_job m = j_id j /\
    (forall t, q_from q = Some t -> t <= j_stop j \/ (j_stop j = 0 /\ ((j_state j = "Running"%string /\ t <= j_start j + m_wall m) \/ j_state j ∈ ["Suspended"; "Resuming"]%string))) /\
    (forall t, q_to q = Some t -> j_start j < t).
Lemma if_given_spec t f : if_given t f = true <-> forall z, t = Some z -> f z = true.
Proof. destruct t as [z|]; cbn; [split; [intros H ? [= <-]; done|intros H; by apply H]|done]. Qed.
Lemma q1_spec d q j : wf d -> q1 d q j = true <-> commons q j = true /\ ran d q j.
Proof.
  intros [_ HW]. unfold q1. rewrite andb_true_iff, existsb_in. split.
  - intros [(a & Ha & H) HC]. split; [done|]. apply existsb_in in H as (m & Hm & H).
    rewrite !andb_true_iff, !orb_true_iff, !Z.eqb_eq, bool_decide_eq_true, !if_given_spec in H. destruct H as ((((H1 & H2) & H3) & H4) & H5).
    split.
    + exists a. split; [done|]. split; [done|]. destruct H2 as [?|H2]; [done|]. exfalso. apply (HW a Ha). lia.
    + exists m. split; [done|]. split; [done|]. split.
      * intros t Ht. apply H4 in Ht. rewrite orb_true_iff, andb_true_iff, orb_true_iff, andb_true_iff, !bool_decide_eq_true, Z.eqb_eq, !Z.leb_le in Ht. done.
      * intros t Ht. apply H5 in Ht. by apply Z.ltb_lt.
  - intros [HC [(a & Ha & H1 & H2) (m & Hm & H3 & H4 & H5)]]. split; [|done]. exists a. split; [done|]. apply existsb_in. exists m. split; [done|].
    rewrite !andb_true_iff, !orb_true_iff, !Z.eqb_eq, bool_decide_eq_true, !if_given_spec. repeat split; try done; [by left| |].
    + intros t Ht. apply H4 in Ht. rewrite orb_true_iff, andb_true_iff, orb_true_iff, andb_true_iff, !bool_decide_eq_true, Z.eqb_eq, !Z.leb_le. done.
    + intros t Ht. apply H5 in Ht. by apply Z.ltb_lt.
Qed.
Definition in_plan (d : db) (q : req) (j : job) : Prop :=
  exists s w, planned d j s w /\ (forall t, q_from q = Some t -> t <= s + w) /\ (forall t, q_to q = Some t -> s < t).
Lemma q2_spec d q j : q2 d q j = true <-> commons q j = true /\ in_plan d q j.
Proof.
  unfold q2. rewrite andb_true_iff, existsb_in. split.
  - intros [([mm s] & Hp & H) HC]. split; [done|]. apply existsb_in in H as (m & Hm & H). cbn [fst snd] in H.
    rewrite !andb_true_iff, existsb_in, !Z.eqb_eq, !if_given_spec in H. destruct H as ((((H1 & H2) & H3) & H4) & H5).
    destruct H1 as ([m2 r] & Hr & E). apply Z.eqb_eq in E. cbn in E. subst. exists s, (m_wall m). split; [|split].
    + exists m, r. done.
    + intros t Ht. apply H4 in Ht. by apply Z.leb_le.
    + intros t Ht. apply H5 in Ht. by apply Z.ltb_lt.
  - intros [HC (s & w & (m & r & Hm & H1 & H2 & H3 & ->) & H4 & H5)]. split; [|done]. exists (m_id m, s). split; [done|]. apply existsb_in. exists m. split; [done|].
    cbn [fst snd]. rewrite !andb_true_iff, existsb_in, !Z.eqb_eq, !if_given_spec. repeat split; try done.
    + exists (m_id m, r). split; [done|]. by apply Z.eqb_eq.
    + intros t Ht. apply Z.leb_le. by apply H4.
    + intros t Ht. apply Z.ltb_lt. by apply H5.
Qed.
Lemma q3_spec q j : q3 q j = true <-> commons q j = true /\ j_stop j = 0 /\ (forall t, q_from q = Some t -> t <= j_sub j) /\ (forall t, q_to q = Some t -> j_sub j <= t).
Proof.
  unfold q3. rewrite !andb_true_iff, Z.eqb_eq, !if_given_spec. split.
  - intros [[[H1 H2] H3] H4]. repeat split; try done; intros t Ht; apply Z.leb_le; [by apply H2|by apply H3].
  - intros (H1 & H2 & H3 & H4). repeat split; try done; intros t Ht; apply Z.leb_le; [by apply H3|by apply H4].
Qed.
Lemma listed d q j : wf d -> j ∈ list_jobs d q <-> j ∈ jobs d /\ commons q j = true /\
  (ran d q j \/ in_plan d q j \/ (j_stop j = 0 /\ (forall t, q_from q = Some t -> t <= j_sub j) /\ (forall t, q_to q = Some t -> j_sub j <= t))).
Proof. intros HW. rewrite list_in, q1_spec, q2_spec, q3_spec by done. tauto. Qed.

Lemma shown_nine s : shown s <-> s ∈ nine_states.
Proof.
  unfold shown. split.
  - intros (H & H1 & H2 & H3). repeat (apply elem_of_cons in H as [->|H]; [try done; by_dec|]). by apply elem_of_nil in H.
  - intros H. repeat (apply elem_of_cons in H as [->|H]; [split; [by_dec|]; repeat split; discriminate|]). by apply elem_of_nil in H.
Qed.
(** * The theorems *)
Theorem C147_list d q : wf d -> ascending (list_jobs d q) /\ forall j, j ∈ list_jobs d q -> j ∈ jobs d /\ asked q j.
Proof.
  intros HW. split.
  - apply strict.
    + unfold list_jobs. rewrite merge_sort_Permutation. apply filter_ids. apply HW.
    + apply (StronglySorted_merge_sort by_id).
  - intros j Hj. apply listed in Hj as (H1 & H2 & _); [|done]. split; [done|]. by apply commons_spec in H2 as [? _].
Qed.
Theorem C147_states d q j : wf d -> q_states q = [] -> q_ids q = [] -> q_array q = 0 -> j ∈ list_jobs d q ->
  shown (j_state j) \/ (j_state j ∈ ["Terminated"; "Error"]%string /\ ~ plain q).
Proof.
  rewrite shown_nine. intros HW E1 E2 E3 Hj. apply listed in Hj as (_ & H & _); [|done]. apply commons_spec in H as [_ H]. specialize (H E1).
  unfold states_of in H. rewrite (proj2 (by_key_spec q)) in H by done. rewrite E1 in H. cbn [nonempty negb andb] in H.
  assert (H' : j_state j ∈ nine_states ++ (if given (q_from q) || given (q_to q) then ["Terminated"; "Error"]%string else [])) by (by apply H).
  apply elem_of_app in H' as [H'|H']; [by left|]. destruct (given (q_from q) || given (q_to q)) eqn:E; [|by apply elem_of_nil in H'].
  right. split; [done|]. intros [P1 P2]. rewrite P1, P2 in E. done.
Qed.
Lemma commons_ids ids j : commons (only_ids ids) j = true <-> (ids <> [] -> j_id j ∈ ids) /\ (ids = [] -> j_state j ∈ nine_states).
Proof.
  rewrite commons_spec. destruct ids as [|i l].
  - split; [intros [_ H]; split; [done|]; intros _; by apply H|]. intros [_ H]. split; [by constructor|]. intros _ _. by apply H.
  - split; [intros [H _]; split; [|done]; intros _; by apply (as_ids _ _ H)|]. intros [H _]. split; [by constructor|done].
Qed.
Theorem C148_by_id d ids j : wf d -> ids <> [] -> j ∈ list_jobs d (only_ids ids) <->
  j ∈ jobs d /\ j_id j ∈ ids /\ (j_stop j = 0 \/ has_resources d j ["CURRENT"; "LOG"]%string \/ exists s w, planned d j s w).
Proof.
  intros HW Hn. rewrite listed, commons_ids by done.
  assert (HR : ran d (only_ids ids) j <-> has_resources d j ["CURRENT"; "LOG"]%string).
  { unfold ran, has_resources, indexes_of, by_key. cbn [q_ids only_ids q_array q_from q_to]. rewrite (proj2 (nonempty_spec ids)) by done. cbn [orb].
    split; [intros [H (m & H1 & H2 & _)]|intros [H (m & H1 & H2)]]; (split; [done|]; exists m; done). }
  assert (HP : in_plan d (only_ids ids) j <-> exists s w, planned d j s w).
  { split; [intros (s & w & H & _); by exists s, w|intros (s & w & H); exists s, w; done]. }
  rewrite HR, HP. cbn [q_from q_to only_ids]. split.
  - intros (H1 & [H2 _] & H3). split; [done|]. split; [by apply H2|]. destruct H3 as [?|[?|[? _]]]; tauto.
  - intros (H1 & H2 & H3). split; [done|]. split; [split; done|]. destruct H3 as [?|[?|?]]; [right; right; done|by left|by right; left].
Qed.
(** A reservation refused, or deleted before its start, once out of the plan: its row exists, it is shown to nobody. *)
Theorem C148_refused_refuted d j : wf d -> j ∈ jobs d -> j_state j = "Error"%string -> j_stop j <> 0 ->
  (forall a, a ∈ asgs d -> a_mld a <> j_mld j) -> (forall s w, ~ planned d j s w) -> forall q, j ∉ list_jobs d q.
Proof.
  intros HW Hj _ Hs HA HP q H. apply listed in H as (_ & _ & H); [|done]. destruct H as [[(a & H & E & _) _]|[(s & w & H & _)|[H _]]].
  - by apply (HA a).
  - by apply (HP s w).
  - done.
Qed.
Theorem C149_default d j : wf d -> j ∈ list_jobs d no_option <->
  j ∈ jobs d /\ shown (j_state j) /\ (j_stop j = 0 \/ has_resources d j ["CURRENT"%string] \/ exists s w, planned d j s w).
Proof.
  rewrite shown_nine.
  intros HW. change no_option with (only_ids []). rewrite listed, commons_ids by done.
  assert (HR : ran d (only_ids []) j <-> has_resources d j ["CURRENT"%string]).
  { unfold ran, has_resources, indexes_of, by_key. cbn.
    split; [intros [H (m & H1 & H2 & _)]|intros [H (m & H1 & H2)]]; (split; [done|]; exists m; done). }
  assert (HP : in_plan d (only_ids []) j <-> exists s w, planned d j s w).
  { split; [intros (s & w & H & _); by exists s, w|intros (s & w & H); exists s, w; done]. }
  rewrite HR, HP. cbn [q_from q_to only_ids]. split.
  - intros (H1 & [_ H2] & H3). split; [done|]. split; [by apply H2|]. destruct H3 as [?|[?|[? _]]]; tauto.
  - intros (H1 & H2 & H3). split; [done|]. split; [split; done|]. destruct H3 as [?|[?|?]]; [right; right; done|by left|by right; left].
Qed.
Theorem C149_to_error_refuted d j : wf d -> j_state j = "toError"%string -> j ∉ list_jobs d no_option.
Proof.
  intros HW E H. apply C149_default in H as (_ & (_ & H & _) & _); [|done]. by rewrite E in H.
Qed.
Lemma window_commons a b j : a <> 0 \/ b <> 0 -> commons (window a b) j = true <-> j_state j ∈ nine_states ++ ["Terminated"; "Error"]%string.
Proof.
  intros Hab. rewrite commons_spec. unfold states_of, by_key. cbn [window q_states q_ids q_array nonempty negb andb orb Z.eqb q_from q_to].
  assert (given (Some a) || given (Some b) = true) as ->.
  { cbn. apply orb_true_iff. rewrite !negb_true_iff, !Z.eqb_neq. done. }
  split; [intros [_ H]; by apply H|]. intros H. split; [by constructor|done].
Qed.
Lemma window_indexes a b : a <> 0 \/ b <> 0 -> indexes_of (window a b) = ["CURRENT"; "LOG"]%string.
Proof.
  intros Hab. unfold indexes_of, by_key. cbn [window q_states q_ids q_array nonempty negb andb orb Z.eqb q_from q_to].
  assert (given (Some a) || given (Some b) = true) as ->; [|done].
  cbn. apply orb_true_iff. rewrite !negb_true_iff, !Z.eqb_neq. done.
Qed.
(** Everything listed for a period concerns it: the job ran before its end and not only before its beginning, or is
    planned so, or was submitted in it and is not over. *)
Theorem C150_concerned d a b j : wf d -> a <> 0 \/ b <> 0 -> j ∈ list_jobs d (window a b) ->
  (has_resources d j ["CURRENT"; "LOG"]%string /\ j_start j < b /\ (a <= j_stop j \/ j_stop j = 0)) \/
  (exists s w, planned d j s w /\ s < b /\ a <= s + w) \/ (j_stop j = 0 /\ a <= j_sub j <= b).
Proof.
  intros HW Hab Hj. apply listed in Hj as (_ & _ & H); [|done]. destruct H as [[(x & H1 & H2 & H3) (m & H4 & H5 & H6 & H7)]|[(s & w & H & H1 & H2)|(H & H1 & H2)]].
  - left. rewrite window_indexes in H3 by done. split; [split; [by exists x|by exists m]|]. split; [by apply H7|]. destruct (H6 a eq_refl) as [?|[? _]]; tauto.
  - right; left. exists s, w. split; [done|]. split; [by apply H2|by apply H1].
  - right; right. split; [done|]. split; [by apply H1|by apply H2].
Qed.
Theorem C150_ended d a b j : wf d -> a <> 0 \/ b <> 0 -> j ∈ jobs d -> j_state j ∈ ["Terminated"; "Error"]%string -> j_stop j <> 0 ->
  has_resources d j ["CURRENT"; "LOG"]%string -> (forall s w, ~ planned d j s w) ->
  j ∈ list_jobs d (window a b) <-> j_start j < b /\ a <= j_stop j.
Proof.
  intros HW Hab Hj Hst Hs HR HP. split.
  - intros H. apply C150_concerned in H as [(_ & H1 & [H2|H2])|[(s & w & H & _)|[H _]]]; try done. by apply HP in H.
  - intros [H1 H2]. apply listed; [done|]. split; [done|]. split; [apply window_commons; [done|]; apply elem_of_app; by right|]. left.
    destruct HR as [(x & X1 & X2 & X3) (m & M1 & M2)]. split; [exists x; by rewrite window_indexes|]. exists m. split; [done|]. split; [done|].
    cbn. split; intros t [= <-]; [by left|done].
Qed.
Theorem C150_running d a b j : wf d -> a <> 0 \/ b <> 0 -> j ∈ jobs d -> j_state j = "Running"%string ->
  has_resources d j ["CURRENT"; "LOG"]%string -> j_start j < b ->
  (exists m, m ∈ mlds d /\ m_id m = j_mld j /\ m_job m = j_id j /\ a <= j_start j + m_wall m) -> j_stop j = 0 ->
  j ∈ list_jobs d (window a b).
Proof.
  intros HW Hab Hj Hst [(x & X1 & X2 & X3) _] H1 (m & M1 & _ & M2 & M3) Hs. apply listed; [done|]. split; [done|].
  split; [apply window_commons; [done|]; rewrite Hst; by_dec|]. left. split; [exists x; by rewrite window_indexes|]. exists m. split; [done|]. split; [done|].
  cbn. split; intros t [= <-]; [right; split; [done|]; by left|done].
Qed.
(** A job waiting since before the period, not planned, is not listed although it waits during the period. *)
Theorem C150_waiting_refuted d a b j : wf d -> a <> 0 \/ b <> 0 -> j_state j = "Waiting"%string -> j_mld j = 0 -> (forall s w, ~ planned d j s w) ->
  j_sub j < a -> j ∉ list_jobs d (window a b).
Proof.
  intros HW Hab _ Hm HP Hs H. apply C150_concerned in H as [([(x & H1 & H2 & _) _] & _)|[(s & w & H & _)|[_ H]]]; try done.
  - destruct HW as [_ HW]. apply (HW x H1). congruence.
  - by apply HP in H.
  - lia.
Qed.
(** ** Resources of a job through the API *)
Theorem C151_details d id r : r ∈ job_resources d id <->
  exists j a, j ∈ jobs d /\ j_id j = id /\ a ∈ asgs d /\ a_mld a = j_mld j /\ r ∈ rs d /\ r.1 = a_res a.
Proof.
  unfold job_resources, rows_of. rewrite elem_of_list_fmap. split.
  - intros ([i r'] & -> & H). apply elem_of_list_filter in H as [E H]. cbn in E. apply elem_of_list_bind in H as (j & H & Hj).
    apply elem_of_list_bind in H as (a & H & Ha). apply elem_of_list_bind in H as (x & H & Hx).
    apply elem_of_list_singleton in H. injection H as -> ->. apply elem_of_list_filter in Ha as [? ?], Hx as [? ?]. by exists j, a.
  - intros (j & a & Hj & <- & Ha & Ea & Hr & Er). exists (j_id j, r). split; [done|]. apply elem_of_list_filter. split; [done|].
    apply elem_of_list_bind. exists j. split; [|done]. apply elem_of_list_bind. exists a. split; [|by apply elem_of_list_filter].
    apply elem_of_list_bind. exists r. split; [|by apply elem_of_list_filter]. by apply elem_of_list_singleton.
Qed.
Lemma add_nodes l : forall acc, NoDup acc -> NoDup (fold_left add_node l acc) /\ forall n, n ∈ fold_left add_node l acc <-> n ∈ acc \/ n ∈ l.
Proof.
  induction l as [|x l IH]; intros acc HN; cbn [fold_left].
  - split; [done|]. intros n. split; [by left|]. intros [?|H]; [done|by apply elem_of_nil in H].
  - unfold add_node at 2 4. case_bool_decide as E.
    + destruct (IH acc HN) as [H1 H2]. split; [done|]. intros n. rewrite H2, elem_of_cons. split; [tauto|]. intros [?|[->|?]]; tauto.
    + destruct (IH (acc ++ [x])) as [H1 H2].
      * apply NoDup_app. split; [done|]. split; [|apply NoDup_singleton]. intros y Hy H. apply elem_of_list_singleton in H. by subst.
      * split; [done|]. intros n. rewrite H2, elem_of_app, elem_of_list_singleton, elem_of_cons. tauto.
Qed.
Theorem C151_nodes d id : NoDup (job_nodes d id) /\ forall n, n ∈ job_nodes d id <-> exists r, (r, n) ∈ job_resources d id.
Proof.
  unfold job_nodes. destruct (add_nodes (job_resources d id).*2 [] (NoDup_nil_2)) as [H1 H2]. split; [done|]. intros n. rewrite H2, elem_of_list_fmap. split.
  - intros [H|([r n'] & -> & H)]; [by apply elem_of_nil in H|by exists r].
  - intros (r & H). right. by exists (r, n).
Qed.
Theorem C151_others_refuted d id id' : one_job_resources d id = one_job_resources d id' /\
  forall r, r ∈ job_resources d id' -> r ∈ one_job_resources d id.
Proof.
  split; [done|]. intros r H. unfold job_resources in H. apply elem_of_list_fmap in H as (x & -> & H). apply elem_of_list_filter in H as [_ H].
  apply elem_of_list_fmap. by exists x.
Qed.
Theorem C151_unknown_refuted d id : (forall j, j ∈ jobs d -> j_id j <> id) -> show d id = (500, None).
Proof.
  intros H. unfold show. destruct (filter _ _) as [|j l] eqn:E; [done|]. exfalso.
  assert (Hj : j ∈ filter (fun j => j_id j = id) (jobs d)) by (rewrite E; apply elem_of_cons; by left).
  apply elem_of_list_filter in Hj as [H1 H2]. by apply (H j).
Qed.
Theorem C151_known d j : wf d -> j ∈ jobs d -> show d (j_id j) = (200, Some j).
Proof.
  intros [HN _] Hj. unfold show. destruct (filter _ _) as [|j' l] eqn:E.
  - exfalso. assert (H : j ∈ filter (fun x => j_id x = j_id j) (jobs d)) by (by apply elem_of_list_filter). rewrite E in H. by apply elem_of_nil in H.
  - assert (H : j' ∈ filter (fun x => j_id x = j_id j) (jobs d)) by (rewrite E; apply elem_of_cons; by left).
    apply elem_of_list_filter in H as [H1 H2]. assert (j' = j) as ->; [|done].
    apply elem_of_list_lookup in H2 as [i Hi]. apply elem_of_list_lookup in Hj as [k Hk].
    assert (i = k) as <-; [|congruence]. eapply NoDup_lookup; [exact HN| |]; rewrite list_lookup_fmap; [rewrite Hi|rewrite Hk]; cbn; [done|by rewrite H1].
Qed.

(** ** Examples *)
Definition ex_db : db := mkDb
  [mkJob 4 "bob" "Running" 4 1000 0 900 40; mkJob 2 "alice" "Terminated" 2 500 800 400 20; mkJob 3 "alice" "Waiting" 3 0 0 1100 0;
   mkJob 5 "bob" "Error" 5 2000 2000 950 0; mkJob 6 "bob" "toError" 6 0 0 990 0]
  [mkMld 20 2 600; mkMld 30 3 100; mkMld 40 4 3600; mkMld 50 5 60; mkMld 60 6 60]
  [mkAsg 20 1 "LOG"; mkAsg 40 2 "CURRENT"] [(30, 4600)] [(30, 2)] [(1, "n1"%string); (2, "n2"%string)].
Lemma ex_wf : wf ex_db.
Proof. split; [by_dec|]. intros a Ha. apply elem_of_cons in Ha as [->|Ha]; [done|]. apply elem_of_cons in Ha as [->|Ha]; [done|]. by apply elem_of_nil in Ha. Qed.
Theorem C147_example : wf ex_db /\ j_id <$> list_jobs ex_db no_option = [3; 4] /\ j_id <$> list_jobs ex_db (only_ids [5; 4; 2; 6]) = [2; 4; 6] /\
  j_id <$> list_jobs ex_db (window 700 890) = [2] /\ j_id <$> list_jobs ex_db (window 700 1001) = [2; 4] /\
  j_id <$> list_jobs ex_db (window 1200 4601) = [3; 4].
Proof. split; [exact ex_wf|]. repeat split; vm_compute; reflexivity. Qed.
Theorem C151_example : job_resources ex_db 2 = [(1, "n1"%string)] /\ one_job_resources ex_db 2 = [(2, "n2"%string); (1, "n1"%string)] /\ job_nodes ex_db 4 = ["n2"%string].
Proof. repeat split; vm_compute; reflexivity. Qed.
(** Asking for the state explicitly loses a running job, when the plan shown to the users is not up to date. *)
Theorem C150_state_refuted : j_id <$> list_jobs ex_db (mkReq "" (Some 1200) (Some 1300) ["Running"%string] [] 0 None) = [] /\
  j_id <$> list_jobs ex_db (window 1200 1300) = [4].
Proof. split; vm_compute; reflexivity. Qed.
(** Job 5 of the example meets the hypotheses of C148_refused_refuted: nobody sees it, whatever is asked. *)
Lemma not_planned j s w : j_id j <> 3 -> ~ planned ex_db j s w.
Proof.
  intros Hn (m & r & Hm & E & H & _). cbn [visu_p ex_db] in H. apply elem_of_list_singleton in H. injection H as H _.
  repeat (apply elem_of_cons in Hm as [->|Hm]; [cbn in *; congruence|]). by apply elem_of_nil in Hm.
Qed.
Theorem C148_refused_example : exists j, j ∈ jobs ex_db /\ j_id j = 5 /\ forall q, j ∉ list_jobs ex_db q.
Proof.
  exists (mkJob 5 "bob" "Error" 5 2000 2000 950 0). assert (HJ : mkJob 5 "bob" "Error" 5 2000 2000 950 0 ∈ jobs ex_db) by (do 3 (apply elem_of_cons; right); apply elem_of_cons; by left).
  split; [exact HJ|]. split; [done|].
  apply C148_refused_refuted; [exact ex_wf|exact HJ|done|done| |intros s w; by apply not_planned].
  intros a Ha. apply elem_of_cons in Ha as [->|Ha]; [done|]. apply elem_of_cons in Ha as [->|Ha]; [done|]. by apply elem_of_nil in Ha.
Qed.
Print Assumptions C147_list.
Print Assumptions C147_states.
Print Assumptions C148_by_id.
Print Assumptions C148_refused_refuted.
Print Assumptions C149_default.
Print Assumptions C149_to_error_refuted.
Print Assumptions C150_concerned.
Print Assumptions C150_ended.
Print Assumptions C150_running.
Print Assumptions C150_waiting_refuted.
Print Assumptions C151_details.
Print Assumptions C151_nodes.
Print Assumptions C151_others_refuted.
Print Assumptions C151_unknown_refuted.
Print Assumptions C151_known.
Print Assumptions C147_example.
Print Assumptions C151_example.
Print Assumptions C150_state_refuted.
Print Assumptions C148_refused_example.
