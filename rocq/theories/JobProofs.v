From Verif Require Import Base JobModel.

Lemma upd_elem {A} (P : A -> Prop) `{!forall x, Decision (P x)} f l y :
  y ∈ upd P f l <-> exists x, x ∈ l /\ y = if decide (P x) then f x else x.
Proof.
  unfold upd. rewrite elem_of_list_fmap. split; intros (x & H1 & H2); eauto.
Qed.
Lemma upd_length {A} (P : A -> Prop) `{!forall x, Decision (P x)} f l : length (upd P f l) = length l.
Proof. apply fmap_length. Qed.
Lemma upd_fmap_id {A B} (P : A -> Prop) `{!forall x, Decision (P x)} f l (g : A -> B) :
  (forall x, x ∈ l -> P x -> g (f x) = g x) -> g <$> upd P f l = g <$> l.
Proof.
  intros Hf. unfold upd. rewrite <- list_fmap_compose. induction l as [|x l IH]; [done|]. cbn [fmap list_fmap].
  rewrite IH by (intros; apply Hf; [by right|done]). f_equal. unfold compose. destruct (decide (P x)); [apply Hf; [left|done]|done].
Qed.
Lemma upd_none {A} (P : A -> Prop) `{!forall x, Decision (P x)} f l : (forall x, x ∈ l -> ~ P x) -> upd P f l = l.
Proof.
  intros Hf. unfold upd. induction l as [|x l IH]; [done|]. cbn [fmap list_fmap]. rewrite IH by (intros; apply Hf; by right).
  rewrite decide_False by (apply Hf; left). done.
Qed.

Definition uniq (d : db) : Prop := NoDup (j_id <$> jobs d).
Lemma uniq_eq d i j : uniq d -> i ∈ jobs d -> j ∈ jobs d -> j_id i = j_id j -> i = j.
Proof.
  intros HU Hi Hj E. apply elem_of_list_lookup in Hi as [a Ha]. apply elem_of_list_lookup in Hj as [b Hb].
  assert (a = b) as ->; [|congruence]. apply (NoDup_lookup _ a b (j_id j) HU); rewrite list_lookup_fmap, ?Ha, ?Hb; cbn; congruence.
Qed.
Lemma filter_le_one (l : list job) (P : job -> Prop) `{!forall x, Decision (P x)} : NoDup (j_id <$> l) ->
  (forall x y, x ∈ l -> y ∈ l -> P x -> P y -> j_id x = j_id y) -> forall j, j ∈ l -> P j -> filter P l = [j].
Proof.
  induction l as [|x l IH]; intros HN HP j Hj Pj; [by apply elem_of_nil in Hj|].
  cbn [fmap list_fmap] in HN. apply NoDup_cons in HN as [H1 H2]. apply elem_of_cons in Hj as [->|Hj].
  - rewrite filter_cons_True by done. f_equal. destruct (filter P l) as [|y l'] eqn:F; [done|]. exfalso. apply H1.
    assert (y ∈ filter P l) as Hy by (rewrite F; left). apply elem_of_list_filter in Hy as [Py Hy].
    apply elem_of_list_fmap. exists y. split; [|done]. apply HP; [left|by right|done|done].
  - rewrite filter_cons_False.
    + apply IH; try done. intros. apply HP; [by right|by right|done|done].
    + intros Px. apply H1. apply elem_of_list_fmap. exists j. split; [|done]. apply HP; [left|by right|done|done].
Qed.
Lemma get_job_in d id j : get_job d id = Some j -> j ∈ jobs d /\ j_id j = id.
Proof.
  unfold get_job. destruct (filter _ (jobs d)) as [|x [|]] eqn:E; try done. intros [= ->].
  assert (j ∈ filter (fun j => j_id j = id) (jobs d)) as H by (rewrite E; left). apply elem_of_list_filter in H as [? ?]. done.
Qed.
Lemma get_job_of d j : uniq d -> j ∈ jobs d -> get_job d (j_id j) = Some j.
Proof.
  intros HU Hj. unfold get_job. erewrite (filter_le_one (jobs d) (fun x => j_id x = j_id j)); try done. intros; congruence.
Qed.

(** ** set_job_state *)
Lemma accepted_one d j id s : uniq d -> j ∈ jobs d -> accepts id s j -> filter (accepts id s) (jobs d) = [j].
Proof. intros HU Hj Ha. apply filter_le_one; try done. intros x y _ _ (H1 & _) (H2 & _). congruence. Qed.
Lemma accepted_none d id s : (forall j, j ∈ jobs d -> ~ accepts id s j) -> filter (accepts id s) (jobs d) = [].
Proof.
  intros H. destruct (filter _ _) as [|x l] eqn:E; [done|]. exfalso.
  assert (x ∈ filter (accepts id s) (jobs d)) as Hx by (rewrite E; left). apply elem_of_list_filter in Hx as [? Hx]. by apply (H x).
Qed.
Lemma set_state_refused date id s d : (forall j, j ∈ jobs d -> ~ accepts id s j) -> set_job_state date id s d = d.
Proof.
  intros H. unfold set_job_state. rewrite accepted_none by done. cbn [length]. rewrite bool_decide_eq_false_2 by done.
  unfold with_jobs. rewrite upd_none by done. by destruct d.
Qed.
(** The job of the request after the change. *)
Definition final_stop (s : string) (j : job) : job :=
  if is_final s then (if j_stop j <? j_start j then with_stop (j_start j) j else j) else j.
Lemma set_state_jobs date id s d : uniq d ->
  jobs (set_job_state date id s d) = (fun j => if decide (accepts id s j) then final_stop s (with_state s j) else j) <$> jobs d.
Proof.
  intros HU. unfold set_job_state.
  destruct (decide (Exists (accepts id s) (jobs d))) as [(j & Hj & Ha)%Exists_exists|Hno'].
  - rewrite (accepted_one d j id s HU Hj Ha). cbn [length]. rewrite bool_decide_eq_true_2 by done.
    assert (Honly : forall x, x ∈ jobs d -> j_id x = id -> x = j).
    { intros x Hx Hid. apply (uniq_eq d); try done. destruct Ha. congruence. }
    unfold final_stop. destruct (is_final s); cbn [jobs with_jobs with_logs]; [|by unfold upd].
    unfold upd. rewrite <- list_fmap_compose. apply list_fmap_ext. intros i x Hx. apply elem_of_list_lookup_2 in Hx. unfold compose.
    destruct (decide (accepts id s x)) as [Hax|Hax].
    + cbn [j_id j_stop j_start with_state]. destruct Hax as [Hid _]. destruct (j_stop x <? j_start x) eqn:E.
      * rewrite decide_True by (split; [done|lia]). done.
      * rewrite decide_False by lia. done.
    + rewrite decide_False; [done|]. intros [Hid _]. apply Hax. by rewrite (Honly x Hx Hid).
  - assert (Hno : ~ exists j, j ∈ jobs d /\ accepts id s j) by (intros Hx; apply Hno', Exists_exists, Hx). clear Hno'.
    rewrite accepted_none by (intros j Hj Ha; apply Hno; eauto). cbn [length]. rewrite bool_decide_eq_false_2 by done.
    cbn [jobs with_jobs]. unfold upd. apply list_fmap_ext. intros i x Hx. apply elem_of_list_lookup_2 in Hx.
    rewrite !decide_False; [done|..]; intros Ha; apply Hno; eauto.
Qed.
Lemma final_stop_id s j : j_id (final_stop s j) = j_id j.
Proof. unfold final_stop. destruct (is_final s), (j_stop j <? j_start j); done. Qed.
Lemma final_stop_state s j : j_state (final_stop s j) = j_state j.
Proof. unfold final_stop. destruct (is_final s), (j_stop j <? j_start j); done. Qed.
Lemma set_state_ids date id s d : uniq d -> j_id <$> jobs (set_job_state date id s d) = j_id <$> jobs d.
Proof.
  intros HU. rewrite set_state_jobs by done. rewrite <- list_fmap_compose. apply list_fmap_ext. intros i x _. unfold compose.
  destruct (decide _); [|done]. by rewrite final_stop_id.
Qed.
Lemma set_state_uniq date id s d : uniq d -> uniq (set_job_state date id s d).
Proof. intros HU. unfold uniq. rewrite set_state_ids; done. Qed.
Lemma set_state_frags date id s d : frags (set_job_state date id s d) = frags d.
Proof. unfold set_job_state. case_bool_decide; [|done]. destruct (is_final s); done. Qed.
Lemma set_state_events date id s d : events (set_job_state date id s d) = events d.
Proof. unfold set_job_state. case_bool_decide; [|done]. destruct (is_final s); done. Qed.
Lemma set_state_mlds date id s d : mlds (set_job_state date id s d) = mlds d.
Proof. unfold set_job_state. case_bool_decide; [|done]. destruct (is_final s); done. Qed.
Lemma set_state_wtcs date id s d : wtcs (set_job_state date id s d) = wtcs d.
Proof. unfold set_job_state. case_bool_decide; [|done]. destruct (is_final s); done. Qed.
Lemma set_state_logs date id s d : uniq d ->
  (exists j, j ∈ jobs d /\ accepts id s j) -> logs (set_job_state date id s d) = close_log date id (logs d) ++ [mkLog id s date 0].
Proof.
  intros HU (j & Hj & Ha). unfold set_job_state. rewrite (accepted_one d j id s HU Hj Ha). cbn [length].
  rewrite bool_decide_eq_true_2 by done. destruct (is_final s); done.
Qed.
(** Another job is left alone. *)
Lemma set_state_other date id s d j : uniq d -> j ∈ jobs d -> ~ accepts id s j -> j ∈ jobs (set_job_state date id s d).
Proof.
  intros HU Hj Hn. rewrite set_state_jobs by done. apply elem_of_list_fmap. exists j. split; [|done]. by rewrite decide_False.
Qed.
Lemma final_not_live s : s = "Terminated"%string \/ s = "Error"%string -> s ∉ live_states.
Proof. intros [-> | ->]; by_dec. Qed.

(** ** frag rows *)
Lemma set_frag_jobs s id d : jobs (set_frag s id d) = jobs d.
Proof. done. Qed.
Lemma set_frag_ids s id d : f_job <$> frags (set_frag s id d) = f_job <$> frags d.
Proof. cbn [frags set_frag with_frags]. by apply upd_fmap_id. Qed.
