(** oarstat: C233 to C240. *)
From Verif Require Import Base TimeModel TimeProps ReqModel ReqSpec ReqProps FrontModel FrontSpec FrontProofs ConfModel AdmModel AcctRepModel AcctRepProps StatModel StatSpec.
From Coq Require Import Ascii.

Lemma str_inj a b : str a = str b -> a = b.
Proof. intros H. assert (E : TimeModel.int_of (str a) = TimeModel.int_of (str b)) by (by rewrite H). rewrite !int_of_str in E. congruence. Qed.

(** ** The jobs asked for *)
Global Instance id_le_trans : Transitive id_le. Proof. intros a b c. unfold id_le. lia. Qed.
Global Instance id_le_total : Total id_le. Proof. intros a b. unfold id_le. lia. Qed.
Global Instance res_le_trans : Transitive res_le. Proof. intros a b c. unfold res_le. lia. Qed.
Global Instance res_le_total : Total res_le. Proof. intros a b. unfold res_le. lia. Qed.

Lemma nodup_filter_map {X K} (f : X -> K) (P : X -> Prop) `{!forall x, Decision (P x)} (l : list X) : NoDup (f <$> l) -> NoDup (f <$> filter P l).
Proof.
  induction l as [|x l IH]; intros Hn; [done|]. rewrite fmap_cons in Hn. apply NoDup_cons in Hn as [H1 H2].
  destruct (decide (P x)) as [HP|HP]; [rewrite filter_cons_True by done|rewrite filter_cons_False by done; by apply IH].
  rewrite fmap_cons. apply NoDup_cons. split; [|by apply IH]. intros (y & E & [_ Hy]%elem_of_list_filter)%elem_of_list_fmap. apply H1. rewrite E. apply elem_of_list_fmap. by exists y.
Qed.
Lemma array_ids_spec d a id : id ∈ array_ids d a <-> exists j, j ∈ s_jobs d /\ o_id j = id /\ o_array j = a.
Proof.
  unfold array_ids. rewrite elem_of_list_fmap. split.
  - intros (j & -> & Hj). rewrite merge_sort_Permutation in Hj. apply elem_of_list_filter in Hj as [H1 H2]. by exists j.
  - intros (j & H1 & <- & H2). exists j. split; [done|]. rewrite merge_sort_Permutation. by apply elem_of_list_filter.
Qed.
Lemma ids_of_spec d ids a id : id ∈ ids_of d ids a <-> asked d ids a id.
Proof.
  unfold ids_of, asked. destruct (decide (a = 0)) as [-> |H]; [done|]. apply Z.eqb_neq in H. rewrite H. apply array_ids_spec.
Qed.
Lemma array_ids_nodup d a : jobs_ok d -> NoDup (array_ids d a).
Proof. intros H. unfold array_ids. rewrite (fmap_Permutation o_id _ _ (merge_sort_Permutation id_le _)). by apply nodup_filter_map. Qed.
Lemma with_ids_said {A} ids (f : list Z -> A) x : with_ids ids f = Said x -> ids <> [] /\ x = f ids.
Proof. destruct ids; [done|]. intros [= <-]. done. Qed.
Lemma with_ids_none {A} ids (f : list Z -> A) : with_ids ids f = NoIds -> ids = [].
Proof. by destruct ids. Qed.
Lemma none_asked d ids a : ids_of d ids a = [] -> forall id, ~ asked d ids a id.
Proof. intros E id H. apply ids_of_spec in H. rewrite E in H. by apply elem_of_nil in H. Qed.
Lemma sorted_fmap {X Y} (R : X -> X -> Prop) (S : Y -> Y -> Prop) (f : X -> Y) (l : list X) : (forall a b, R a b -> S (f a) (f b)) -> StronglySorted R l -> StronglySorted S (f <$> l).
Proof.
  intros HR. induction 1 as [|x l Hl IH Hx]; [constructor|]. rewrite fmap_cons. constructor; [done|]. apply Forall_fmap. eapply Forall_impl; [exact Hx|]. intros y. apply HR.
Qed.
Lemma jobs_state_in d ids id st : (id, st) ∈ jobs_state d ids <-> id ∈ ids /\ exists j, j ∈ s_jobs d /\ o_id j = id /\ o_state j = st.
Proof.
  unfold jobs_state. rewrite elem_of_list_fmap. split.
  - intros (j & [= -> ->] & Hj). rewrite merge_sort_Permutation in Hj. apply elem_of_list_filter in Hj as [H1 H2]. split; [done|]. by exists j.
  - intros (Hi & j & Hj & <- & <-). exists j. split; [done|]. rewrite merge_sort_Permutation. by apply elem_of_list_filter.
Qed.
Lemma jobs_state_keys d ids : jobs_ok d -> NoDup (jobs_state d ids).*1.
Proof.
  intros H. unfold jobs_state. rewrite <- list_fmap_compose. change (NoDup (o_id <$> merge_sort id_le (filter (fun j => o_id j ∈ ids) (s_jobs d)))).
  rewrite (fmap_Permutation o_id _ _ (merge_sort_Permutation id_le _)). by apply nodup_filter_map.
Qed.

(** ** C233: -s shows the jobs asked for that exist, each once, with its state *)
Theorem C233_partial d ids a : jobs_ok d ->
  match print_state d ids a with
  | Said ls => NoDup ls.*1 /\ StronglySorted Z.le ls.*1 /\
      forall id st, (id, st) ∈ ls <-> asked d ids a id /\ exists j, j ∈ s_jobs d /\ o_id j = id /\ o_state j = st
  | NoIds => forall id, ~ asked d ids a id end.
Proof.
  intros Hd. unfold print_state. destruct (with_ids _ _) as [|ls] eqn:E; [apply with_ids_none in E; by apply none_asked|].
  apply with_ids_said in E as [_ ->]. split_and!.
  - by apply jobs_state_keys.
  - unfold jobs_state. rewrite <- list_fmap_compose. apply (sorted_fmap id_le); [|exact (StronglySorted_merge_sort id_le _)]. done.
  - intros id st. rewrite jobs_state_in, ids_of_spec. done.
Qed.
(** The dictionary of JSON and YAML holds the same. *)
Theorem C233_formats d ids a : jobs_ok d ->
  match state_dict d ids a with
  | Said m => forall id st, look (str id) m = Some st <-> asked d ids a id /\ exists j, j ∈ s_jobs d /\ o_id j = id /\ o_state j = st
  | NoIds => forall id, ~ asked d ids a id end.
Proof.
  intros Hd. unfold state_dict. destruct (with_ids _ _) as [|m] eqn:E; [apply with_ids_none in E; by apply none_asked|].
  apply with_ids_said in E as [_ ->]. intros id st. rewrite <- ids_of_spec, <- jobs_state_in. set (L := jobs_state d (ids_of d ids a)).
  change (look (str id) (grouped (fun x : Z * string => str x.1) (fun _ x => x.2) L) = Some st <-> (id, st) ∈ L). rewrite look_grouped.
  assert (Hk : NoDup L.*1) by (by apply jobs_state_keys). clearbody L. clear -Hk.
  assert (E : filter (fun x : Z * string => str x.1 = str id) L = filter (fun x => x.1 = id) L).
  { apply list_filter_iff. intros x. split; [apply str_inj|by intros ->]. }
  rewrite E. clear E. induction L as [|[i s] L IH]; [split; [done|intros H; by apply elem_of_nil in H]|].
  rewrite fmap_cons in Hk. apply NoDup_cons in Hk as [H1 H2]. cbn [fst] in H1. destruct (decide (i = id)) as [-> |Hne].
  - rewrite filter_cons_True by done. rewrite filter_none.
    + cbn. rewrite elem_of_cons. split; [intros [= ->]; by left|]. intros [[= ->]|H]; [done|]. exfalso. apply H1. apply elem_of_list_fmap. by exists (id, st).
    + intros x Hx <-. apply H1. apply elem_of_list_fmap. by exists x.
  - rewrite filter_cons_False by done. rewrite IH by done. rewrite elem_of_cons. split; [by right|]. intros [[= -> _]|H]; done.
Qed.
(** A job asked for that does not exist is left out without a word; and the status is 0. *)
Definition stat_db : sdb := mkSdb
  [mkSjob 1 "bob" "Terminated" 100 160 1 1 (Some 768); mkSjob 2 "bob" "Running" 150 0 2 2 None; mkSjob 3 "eve" "Suspended" 120 0 3 2 None]
  [mkSevent 2 160 "CHECKPOINT" ""; mkSevent 1 110 "FRAG_JOB_REQUEST" "user"; mkSevent 2 155 "WALLTIME" ""]
  [(1, 1); (1, 2); (2, 2); (3, 3)]
  [mkSres 1 "n1" [("state", "Alive"); ("cpu", "1")]; mkSres 2 "n1" [("cpu", "2")]; mkSres 3 "n2" [("cpu", "3"); ("expiry_date", "0")]].
Definition stat_opts : sopts := mkSopts [] 0 false false false false false None "".
Theorem C233_refuted : jobs_ok stat_db /\ asked stat_db [2; 9] 0 9 /\ (forall order cell cols df now sel,
  oarstat order cell cols df now stat_db sel (mkSopts [2; 9] 0 false false true false false None "") = Ok (States (Said [(2, "Running"%string)])) /\
  oarstat order cell cols df now stat_db sel (mkSopts [9] 0 false false true false false None "") = Ok (States (Said [])) /\
  sout_status (States (Said [])) = 0).
Proof.
  split_and!.
  - unfold jobs_ok. by_dec.
  - unfold asked. rewrite decide_True by done. right. left.
  - intros. split_and!; reflexivity.
Qed.

(** ** C234: -e shows the events of the jobs asked for, by job, then by date *)
Theorem C234_events order d ids a : by_job_and_date order ->
  match print_events order d ids a with
  | Said l => StronglySorted event_before l /\ forall id,
      (asked d ids a id -> filter (fun e => v_job e = id) l ≡ₚ filter (fun e => v_job e = id) (s_events d)) /\
      (~ asked d ids a id -> filter (fun e => v_job e = id) l = [])
  | NoIds => forall id, ~ asked d ids a id end.
Proof.
  intros Ho. unfold print_events. destruct (with_ids _ _) as [|l] eqn:E; [apply with_ids_none in E; by apply none_asked|].
  apply with_ids_said in E as [_ ->]. unfold jobs_events. destruct (Ho (filter (fun e => v_job e ∈ ids_of d ids a) (s_events d))) as [Hp Hs]. split; [done|]. intros id. split; intros Hid.
  - etrans; [apply filter_Permutation, Hp|]. rewrite (filter_both _ _ (fun e => v_job e = id)); [done|]. intros e _. split; [|by intros [? _]].
    intros <-. split; [done|]. by apply ids_of_spec.
  - apply filter_none. intros e He. rewrite Hp in He. apply elem_of_list_filter in He as [He _]. intros <-. apply Hid. by apply ids_of_spec.
Qed.
Definition event_entry (e : sevent) : Z * string * string := (v_date e, v_type e, v_desc e).
(** The dictionary of JSON and YAML: for each job with events its events, in the same order. *)
Lemma gathered_all {X Y} (f : X -> Y) (l : list X) :
  gathered (fun (o : option (list Y)) x => (match o with Some l => l | None => [] end) ++ [f x]) l = match l with [] => None | _ => Some (f <$> l) end.
Proof.
  induction l as [|x l IH] using rev_ind; [done|]. unfold gathered in *. rewrite foldl_app. cbn [foldl]. rewrite IH. destruct l as [|y l]; [done|].
  change ((y :: l) ++ [x]) with (y :: l ++ [x]). cbv beta iota. f_equal. change (y :: l ++ [x]) with ((y :: l) ++ [x]). by rewrite fmap_app.
Qed.
Theorem C234_formats order d ids a :
  match print_events order d ids a, events_dict order d ids a with
  | Said l, Said m => NoDup m.*1 /\ (forall k, k ∈ m.*1 <-> exists e, e ∈ l /\ k = str (v_job e)) /\
      forall id, look (str id) m = match filter (fun e => v_job e = id) l with [] => None | _ => Some (event_entry <$> filter (fun e => v_job e = id) l) end
  | NoIds, NoIds => True
  | _, _ => False end.
Proof.
  unfold print_events, events_dict. destruct (ids_of d ids a) as [|i is]; [done|]. cbn [with_ids]. set (l := jobs_events order d (i :: is)). clearbody l.
  change (foldl _ [] l) with (grouped (fun e => str (v_job e)) (fun (o : option (list (Z * string * string))) e => (match o with Some l => l | None => [] end) ++ [event_entry e]) l).
  destruct (grouped_keys (fun e => str (v_job e)) (fun (o : option (list (Z * string * string))) e => (match o with Some l => l | None => [] end) ++ [event_entry e]) l) as [H1 H2].
  split_and!; [done| |].
  - intros k. rewrite H2. split; intros (e & He & E); by exists e.
  - intros id. rewrite look_grouped, gathered_all.
    assert (E : filter (fun e => str (v_job e) = str id) l = filter (fun e => v_job e = id) l).
    { apply list_filter_iff. intros x. split; [apply str_inj|by intros ->]. }
    by rewrite E.
Qed.

(** ** C235: -p shows the resources given to each job, without the properties of the system *)
Lemma res_select d m : NoDup (e_id <$> s_resources d) -> NoDup (s_assigned d) ->
  NoDup (a ← filter (fun a => fst a = m) (s_assigned d); filter (fun r => e_id r = snd a) (s_resources d)).
Proof.
  intros Hr Ha. assert (Hr' : NoDup (s_resources d)) by (by apply NoDup_fmap_1 in Hr). induction (s_assigned d) as [|[m' i] l IH]; [apply NoDup_nil; done|]. apply NoDup_cons in Ha as [H1 H2].
  destruct (decide (m' = m)) as [-> |Hm]; [rewrite filter_cons_True by done|rewrite filter_cons_False by done; by apply IH].
  rewrite bind_cons. apply NoDup_app. split_and!; [by apply NoDup_filter| |by apply IH].
  intros r [E _]%elem_of_list_filter Hin. apply elem_of_list_bind in Hin as ([m'' i'] & [E' _]%elem_of_list_filter & [Hm' Hl]%elem_of_list_filter).
  cbn [fst snd] in *. apply H1. congruence.
Qed.
Lemma filter_id_one (l : list sjob) id : NoDup (o_id <$> l) -> filter (fun j => o_id j = id) l = [] \/ exists j, filter (fun j => o_id j = id) l = [j] /\ j ∈ l /\ o_id j = id.
Proof.
  induction l as [|j l IH]; intros Hn; [by left|]. rewrite fmap_cons in Hn. apply NoDup_cons in Hn as [H1 H2]. destruct (decide (o_id j = id)) as [E|Hne].
  - right. exists j. rewrite filter_cons_True by done. rewrite filter_none; [split_and!; [done|left|done]|]. intros y Hy Ey. apply H1. rewrite E, <- Ey. apply elem_of_list_fmap. by exists y.
  - rewrite filter_cons_False by done. destruct (IH H2) as [-> |(j' & -> & Hj & E)]; [by left|]. right. exists j'. split_and!; [done|by right|done].
Qed.
Lemma job_resources_in d id r : r ∈ job_resources d id <-> assigned_to d id r.
Proof.
  unfold job_resources, assigned_to. rewrite merge_sort_Permutation, elem_of_list_bind. split.
  - intros (j & Hr & [E Hj]%elem_of_list_filter). apply elem_of_list_bind in Hr as ([m i] & [Er Hr]%elem_of_list_filter & [Em Ha]%elem_of_list_filter). cbn [fst snd] in *.
    split; [done|]. exists j. split_and!; [done|done|]. rewrite Er, <- Em. done.
  - intros (Hr & j & Hj & E & Ha). exists j. split; [|by apply elem_of_list_filter]. apply elem_of_list_bind. exists (o_mld j, e_id r).
    split; [by apply elem_of_list_filter|]. by apply elem_of_list_filter.
Qed.
Lemma job_resources_of d id : tables_ok d -> resources_of d id (job_resources d id).
Proof.
  intros (H1 & H2 & H3). split_and!.
  - unfold job_resources. rewrite merge_sort_Permutation. destruct (filter_id_one (s_jobs d) id H1) as [-> |(j & -> & _)]; [apply NoDup_nil; done|].
    rewrite bind_cons. change (NoDup ((a ← filter (fun a => fst a = o_mld j) (s_assigned d); filter (fun r => e_id r = snd a) (s_resources d)) ++ [])). rewrite app_nil_r. by apply res_select.
  - exact (StronglySorted_merge_sort res_le _).
  - apply job_resources_in.
Qed.
Definition pg (o : option (list (list (string * string)))) (x : Z * sres) : list (list (string * string)) := (match o with Some l => l | None => [] end) ++ [shown_props x.2].
Definition pstep (m : list (string * list (list (string * string)))) (x : Z * sres) := put (str x.1) (fun o => pg o x) m.
Lemma props_block (id : Z) (L : list sres) (m0 : list (string * list (list (string * string)))) l0 : str id ∉ m0.*1 ->
  foldl pstep (m0 ++ [(str id, l0)]) ((fun r => (id, r)) <$> L) = m0 ++ [(str id, l0 ++ (shown_props <$> L))].
Proof.
  intros Hk. revert l0. induction L as [|r L IH]; intros l0; [by rewrite app_nil_r|]. rewrite fmap_cons. cbn [foldl fst snd].
  assert (E : pstep (m0 ++ [(str id, l0)]) (id, r) = m0 ++ [(str id, l0 ++ [shown_props r])]).
  { clear IH. unfold pstep. cbn [fst]. induction m0 as [|[k v] m0 IH0]; cbn [put app]; [by rewrite bool_decide_true|]. rewrite bool_decide_false.
    - f_equal. apply IH0. intros H. apply Hk. by right.
    - intros E. apply Hk. rewrite fmap_cons. cbn [fst]. rewrite E. left. }
  rewrite E, IH. rewrite fmap_cons. by rewrite <- app_assoc.
Qed.
Lemma put_new {A} k f (m : list (string * A)) : k ∉ m.*1 -> put k f m = m ++ [(k, f None)].
Proof.
  induction m as [|[k' v] m IH]; intros Hk; [done|]. cbn [put app]. rewrite bool_decide_false.
  - f_equal. apply IH. intros H. apply Hk. by right.
  - intros E. apply Hk. rewrite fmap_cons. cbn [fst]. rewrite E. left.
Qed.
Lemma mjoin_app_s {A} (l l' : list (list A)) : mjoin (l ++ l') = mjoin l ++ mjoin l'.
Proof. induction l as [|x l IH]; [done|]. cbn [app mjoin list_join]. change (x ++ mjoin (l ++ l') = (x ++ mjoin l) ++ mjoin l'). by rewrite IH, app_assoc. Qed.
Lemma bind_mjoin {A B} (f : A -> list B) (l : list A) : (x ← l; f x) = mjoin (f <$> l).
Proof. induction l as [|x l IH]; [done|]. rewrite bind_cons, IH. reflexivity. Qed.
Lemma props_all d ids m0 : NoDup ids -> (forall id, id ∈ ids -> str id ∉ m0.*1) ->
  mjoin (foldl pstep m0 (id ← ids; (fun r => (id, r)) <$> job_resources d id)).*2 =
  mjoin m0.*2 ++ (shown_props <$> (id ← ids; job_resources d id)).
Proof.
  revert m0. induction ids as [|id ids IH]; intros m0 Hn Hk; [by rewrite app_nil_r|]. apply NoDup_cons in Hn as [H1 H2]. rewrite !bind_cons, foldl_app, fmap_app.
  assert (Hid : str id ∉ m0.*1) by (apply Hk; left).
  destruct (job_resources d id) as [|r L].
  - cbn [foldl fmap list_fmap]. rewrite IH; [done|done|]. intros i Hi. apply Hk. by right.
  - rewrite fmap_cons. cbn [foldl]. assert (E : pstep m0 (id, r) = m0 ++ [(str id, [shown_props r])]) by (unfold pstep; cbn [fst]; rewrite put_new by done; reflexivity). rewrite E. clear E.
    rewrite props_block by done. rewrite IH; [|done|].
    + rewrite fmap_app, mjoin_app_s. cbn [fmap list_fmap snd]. rewrite <- app_assoc. f_equal. cbn [mjoin list_join]. by rewrite app_nil_r.
    + intros i Hi. rewrite fmap_app. intros [H|H]%elem_of_app; [by apply (Hk i); [right|]|]. apply elem_of_list_singleton in H. cbn [fst] in H. apply str_inj in H as ->. done.
Qed.
Theorem C235_partial d ids a : tables_ok d -> (a = 0 -> NoDup ids) ->
  match props_lines d ids a with
  | Said lines => exists ids' rs, NoDup ids' /\ (forall id, id ∈ ids' <-> asked d ids a id) /\ (a = 0 -> ids' = ids) /\
      Forall2 (resources_of d) ids' rs /\ lines = shown_props <$> mjoin rs
  | NoIds => forall id, ~ asked d ids a id end.
Proof.
  intros Hd Hn. unfold props_lines, props_dict. destruct (with_ids _ _) as [|m] eqn:E; [apply with_ids_none in E; by apply none_asked|].
  apply with_ids_said in E as [_ ->]. exists (ids_of d ids a), (job_resources d <$> ids_of d ids a).
  assert (Hi : NoDup (ids_of d ids a)).
  { unfold ids_of. destruct (a =? 0) eqn:E; [apply Z.eqb_eq in E; by apply Hn|]. apply array_ids_nodup, Hd. }
  split_and!.
  - done.
  - apply ids_of_spec.
  - intros ->. done.
  - apply Forall2_fmap_r. apply Forall_Forall2_diag. apply Forall_forall. intros id _. by apply job_resources_of.
  - etrans; [apply (props_all d _ [] Hi); intros ? _; apply not_elem_of_nil|]. cbn [fmap list_fmap mjoin list_join app]. f_equal. apply bind_mjoin.
Qed.
Theorem C235_shown r k v : (k, v) ∈ shown_props r <-> (k, v) ∈ e_props r /\
  k ∉ ["resource_id"; "state"; "state_num"; "next_state"; "finaud_decision"; "next_finaud_decision"; "last_job_date"; "suspended_jobs"; "expiry_date"; "scheduler_priority"]%string.
Proof. unfold shown_props, system_property. rewrite elem_of_list_filter. cbn [fst]. rewrite bool_decide_eq_false. tauto. Qed.
(** A job given twice with -j has its resources shown twice. *)
Theorem C235_refuted : tables_ok stat_db /\ props_lines stat_db [2] 0 = Said [[("cpu", "2")]]%string /\
  props_lines stat_db [2; 2] 0 = Said [[("cpu", "2")]; [("cpu", "2")]]%string.
Proof. split_and!; [unfold tables_ok, jobs_ok; split_and!; by_dec|reflexivity|reflexivity]. Qed.

(** ** C236: the exit code *)
Theorem C236_exited v : 0 < v -> status_code (Some (exited v)) = Some v.
Proof.
  intros H. unfold status_code, exited. rewrite Z.shiftr_div_pow2 by lia. change (2 ^ 8) with 256. rewrite (Z.mul_comm 256), Z.div_mul by lia.
  destruct (v =? 0) eqn:E; [lia|done].
Qed.
Theorem C236_killed s core : 0 <= s < 128 -> status_code (Some (killed s core)) = Some s.
Proof.
  intros H. unfold status_code, killed. rewrite Z.shiftr_div_pow2 by lia. change (2 ^ 8) with 256.
  rewrite Z.div_small by (destruct core; lia). cbn [negb Z.eqb]. change 127 with (Z.ones 7). rewrite Z.land_ones by lia. change (2 ^ 7) with 128. f_equal.
  destruct core; [|rewrite Z.add_0_r; by apply Z.mod_small]. change (s + 128) with (s + 1 * 128). rewrite Z.mod_add by lia. by apply Z.mod_small.
Qed.
Theorem C236_none : status_code None = None /\ status_code (Some (exited 0)) = Some 0.
Proof. done. Qed.
(** An exit with 9 and a kill by the signal 9 are shown alike. *)
Theorem C236_refuted : exists v s, 0 < v /\ 0 < s < 128 /\ exited v <> killed s false /\ status_code (Some (exited v)) = status_code (Some (killed s false)).
Proof. exists 9, 9. split_and!; [lia|lia|lia|done|reflexivity]. Qed.

(** ** C237: the duration *)
Lemma two_two n : 0 <= n < 60 -> two n = two_figures n.
Proof.
  intros H. assert (E : forallb (fun k => bool_decide (two k = two_figures k)) (seqZ 0 60) = true) by (vm_compute; reflexivity).
  rewrite forallb_forall in E. assert (Hin : In n (seqZ 0 60)) by (apply elem_of_list_In, elem_of_seqZ; lia). apply E in Hin. by apply bool_decide_eq_true in Hin.
Qed.
Lemma timedelta_clock n d h m s : clock n d h m s -> timedelta n = clock_text d h m s.
Proof.
  intros (E & Hh & Hm & Hs). unfold timedelta, clock_text, days_text.
  assert (E1 : n / 86400 = d) by (symmetry; apply Z.div_unique with (3600 * h + 60 * m + s); lia).
  assert (E2 : n mod 86400 = 3600 * h + 60 * m + s) by (symmetry; apply Z.mod_unique with d; lia).
  assert (E3 : (3600 * h + 60 * m + s) / 3600 = h) by (symmetry; apply Z.div_unique with (60 * m + s); lia).
  assert (E4 : (3600 * h + 60 * m + s) / 60 = 60 * h + m) by (symmetry; apply Z.div_unique with s; lia).
  assert (E5 : (60 * h + m) mod 60 = m) by (symmetry; apply Z.mod_unique with h; lia).
  assert (E6 : (3600 * h + 60 * m + s) mod 60 = s) by (symmetry; apply Z.mod_unique with (60 * h + m); lia).
  rewrite E1, E2, E3, E4, E5, E6, !two_two by lia. destruct (decide (d = 0)) as [-> |H0]; [reflexivity|]. apply Z.eqb_neq in H0. rewrite H0.
  destruct (decide (d = 1)) as [-> |H1]; [reflexivity|]. apply Z.eqb_neq in H1. by rewrite H1.
Qed.
Theorem C237_partial now j n d h m s : 0 < o_start j < now -> 0 <= n -> clock n d h m s ->
  (on_resources j /\ n = now - o_start j) \/ (over j /\ 0 < o_stop j /\ n = o_stop j - o_start j) -> duration_text now j = clock_text d h m s.
Proof.
  intros Hst Hn Hc Hj. assert (E : duration now j = n).
  { unfold duration. destruct (o_start j =? 0) eqn:E0; [lia|]. destruct (o_start j <? now) eqn:E1; [|lia]. cbn [negb andb].
    destruct Hj as [[Hr ->]|(Ho & Hs & ->)].
    - rewrite bool_decide_true; [done|]. unfold on_resources in Hr. set_solver.
    - rewrite bool_decide_false; [destruct (o_stop j =? 0) eqn:E2; [lia|done]|]. unfold over in Ho. apply elem_of_cons in Ho as [-> |Ho]; [by_dec|]. apply elem_of_list_singleton in Ho as ->. by_dec. }
  unfold duration_text. rewrite E. destruct (0 <=? n) eqn:E2; [by apply timedelta_clock|lia].
Qed.
(** Not begun: a dash. *)
Theorem C237_not_begun now j : o_start j = 0 \/ now <= o_start j -> duration_text now j = "-"%string.
Proof.
  intros H. unfold duration_text, duration. destruct (o_start j =? 0) eqn:E0; [done|]. destruct (o_start j <? now) eqn:E1; [lia|done].
Qed.
(** A suspended job has been given its resources for 80 seconds, and shows a dash. *)
Theorem C237_refuted : exists j, j ∈ s_jobs stat_db /\ o_state j = "Suspended"%string /\ 200 - o_start j = 80 /\ duration_text 200 j = "-"%string.
Proof. exists (mkSjob 3 "eve" "Suspended" 120 0 3 2 None). split_and!; [apply (elem_of_list_lookup_2 _ 2); reflexivity|done|reflexivity|reflexivity]. Qed.
Theorem C237_case : duration_text 90300 (mkSjob 2 "bob" "Running" 150 0 2 2 None) = "1 day, 1:02:30"%string /\ clock 90150 1 1 2 30 /\
  duration_text 300 (mkSjob 1 "bob" "Terminated" 100 160 1 1 None) = "0:01:00"%string.
Proof. split; [reflexivity|split; [unfold clock; lia|reflexivity]]. Qed.

(** ** C238: --specified-field *)
Lemma field_of_text f name label : field_text f name label -> f <> ""%string /\ lacks [","%char] f /\ field_of f = Some (name, label).
Proof.
  intros (H1 & H2 & H3 & H). assert (Hc : lacks [":"%char] name) by (eapply lacks_sub; [exact H1|set_solver]). assert (Hc' : lacks [":"%char] label) by (eapply lacks_sub; [exact H2|set_solver]).
  assert (Hd : lacks [","%char] name) by (eapply lacks_sub; [exact H1|set_solver]). assert (Hd' : lacks [","%char] label) by (eapply lacks_sub; [exact H2|set_solver]).
  destruct H as [[-> ->]| ->].
  - split_and!; [done|done|]. unfold field_of. by rewrite split_on_lacks.
  - split; [|split].
    + destruct name; [done|]. discriminate.
    + apply lacks_app. split; [done|]. change (":" +:+ label) with (String ":" label). split; [set_solver|done].
    + unfold field_of. change (":" +:+ label)%string with (String ":"%char label). rewrite split_on_sep by done. by rewrite split_on_lacks.
Qed.
Lemma split_comma l : l <> [] -> Forall (lacks [","%char]) l -> split_on ","%char (comma_text l) = l.
Proof.
  induction l as [|f l IH]; [done|]. intros _ Hl. apply Forall_cons in Hl as [Hf Hl]. destruct l as [|g l]; [by apply split_on_lacks|].
  change (comma_text (f :: g :: l)) with (f +:+ String ","%char (comma_text (g :: l))). rewrite split_on_sep by done. f_equal. by apply IH.
Qed.
(** [fs]: what is written, the name, the label, the attribute. *)
Definition fieldspec : Type := string * string * string * string.
Definition field_good (cols : list (string * string)) (x : fieldspec) : Prop := field_text x.1.1.1 x.1.1.2 x.1.2 /\ column cols x.1.1.2 x.2.
Lemma parse_good cols (fs : list fieldspec) m : Forall (field_good cols) fs -> (forall x, x ∈ fs -> x.2 ∉ m.*1) -> NoDup (snd <$> fs) ->
  parse_fields cols ((fun x : fieldspec => x.1.1.1) <$> fs) m = Ok (inr (m ++ ((fun x : fieldspec => (x.2, x.1.2)) <$> fs))).
Proof.
  revert m. induction fs as [|[[[f name] label] attr] fs IH]; intros m Hf Hm Hn; [by rewrite app_nil_r|]. apply Forall_cons in Hf as [[H1 H2] Hf]. cbn [fst snd] in *.
  rewrite fmap_cons in Hn. apply NoDup_cons in Hn as [Hn1 Hn2]. cbn [snd] in Hn1.
  rewrite fmap_cons. cbn [parse_fields fst]. destruct (field_of_text _ _ _ H1) as (Hne & _ & ->). rewrite bool_decide_false by done.
  assert (Hat : attr ∉ m.*1) by (by apply (Hm (f, name, label, attr)); left).
  assert (IH' : parse_fields cols ((fun x : fieldspec => x.1.1.1) <$> fs) (put attr (fun _ => label) m) = Ok (inr (m ++ ((fun x : fieldspec => (x.2, x.1.2)) <$> ((f, name, label, attr) :: fs))))).
  { rewrite put_new by done. rewrite IH; [rewrite <- app_assoc; reflexivity|done| |done]. intros x Hx. rewrite fmap_app. intros [H|H]%elem_of_app.
    - apply (Hm x); [by right|done].
    - apply elem_of_list_singleton in H. cbn [fst] in H. apply Hn1. rewrite <- H. apply elem_of_list_fmap. by exists x. }
  destruct H2 as [[-> ->]|[Hd Hl]]; [by rewrite bool_decide_true|]. rewrite bool_decide_false by done. by rewrite Hl.
Qed.
Definition cell_of (cell : sjob -> string -> string) (now : Z) (j : sjob) (x : fieldspec) : string := if decide (x.2 = "Duration"%string) then duration_text now j else cell j x.2.
Theorem C238_partial order cell cols df now d sel (fs : list fieldspec) o : fs <> [] -> Forall (field_good cols) fs -> NoDup (snd <$> fs) ->
  o = mkSopts [] 0 false false false false false None (comma_text ((fun x : fieldspec => x.1.1.1) <$> fs)) ->
  oarstat order cell cols df now d sel o = Ok (Table (((fun x : fieldspec => x.1.2) <$> fs) :: ((fun j => cell_of cell now j <$> fs) <$> sel))).
Proof.
  intros Hne Hf Hn ->. unfold oarstat. cbn [so_ids so_array so_events so_props so_state so_full so_gantt so_fields].
  assert (Hs : split_on ","%char (comma_text ((fun x : fieldspec => x.1.1.1) <$> fs)) = (fun x : fieldspec => x.1.1.1) <$> fs).
  { apply split_comma; [by destruct fs|]. apply Forall_fmap. eapply Forall_impl; [exact Hf|]. intros x [Hx _]. by apply (field_of_text _ _ _ Hx). }
  assert (Ht : comma_text ((fun x : fieldspec => x.1.1.1) <$> fs) <> ""%string).
  { intros E. rewrite E in Hs. destruct fs as [|x fs]; [done|]. rewrite fmap_cons in Hs. injection Hs as Hx _. apply Forall_cons in Hf as [[Hf _] _].
    destruct (field_of_text _ _ _ Hf) as [H _]. by apply H. }
  cbn [negb Z.eqb]. rewrite bool_decide_true by done. cbn [negb andb]. rewrite (bool_decide_false (None = Some false)) by done.
  rewrite (bool_decide_false (comma_text _ = _)) by done. unfold field_labels. rewrite (bool_decide_false (comma_text _ = _)) by done. rewrite Hs.
  rewrite (parse_good cols fs []); [|done|intros ? _; apply not_elem_of_nil|done]. cbn [rbind app]. do 2 f_equal. unfold table.
  f_equal; [symmetry; apply (list_fmap_compose (fun x : fieldspec => (x.2, x.1.2)) snd)|]. apply list_fmap_ext. intros i j _.
  rewrite <- !(list_fmap_compose (fun x : fieldspec => (x.2, x.1.2))). rewrite <- list_fmap_compose. apply list_fmap_ext. intros i' x _. unfold compose, cell_of. cbn [fst].
  destruct (decide _) as [E|E]; [by rewrite bool_decide_true|by rewrite bool_decide_false].
Qed.
(** An unknown column stops the command with KeyError, not with the message "Invalid fields". *)
Theorem C238_unknown order cell cols df now d sel o name : name <> ""%string -> name <> "Duration"%string -> lacks [":"%char; ","%char] name -> look name cols = None ->
  o = mkSopts [] 0 false false false false false None name -> oarstat order cell cols df now d sel o = Err EKey.
Proof.
  intros H1 H2 H3 H4 ->. unfold oarstat. cbn [so_ids so_array so_events so_props so_state so_full so_gantt so_fields negb Z.eqb].
  rewrite bool_decide_true by done. cbn [negb andb]. rewrite (bool_decide_false (None = Some false)) by done. rewrite (bool_decide_false (name = _)) by done.
  unfold field_labels. rewrite (bool_decide_false (name = _)) by done. rewrite split_on_lacks by (eapply lacks_sub; [exact H3|set_solver]). cbn [parse_fields].
  rewrite bool_decide_false by done. unfold field_of. rewrite split_on_lacks by (eapply lacks_sub; [exact H3|set_solver]). rewrite bool_decide_false by done. by rewrite H4.
Qed.
(** A column asked for twice is shown once, under its last label. *)
Definition stat_cols : list (string * string) := [("job_id", "id"); ("state", "state"); ("job_user", "user")]%string.
Definition stat_cell (j : sjob) (f : string) : string := if bool_decide (f = "id"%string) then str (o_id j) else if bool_decide (f = "state"%string) then o_state j else o_user j.
Theorem C238_refuted : exists o, so_fields o = "job_id:Id,state,job_id:Number"%string /\
  forall order, oarstat order stat_cell stat_cols "job_id" 200 stat_db (s_jobs stat_db) o =
    Ok (Table [["Number"; "state"]; ["1"; "Terminated"]; ["2"; "Running"]; ["3"; "Suspended"]])%string.
Proof. exists (mkSopts [] 0 false false false false false None "job_id:Id,state,job_id:Number"). split; [done|]. intros order. reflexivity. Qed.
Theorem C238_case : Forall (field_good stat_cols) [("job_id:Id", "job_id", "Id", "id"); ("Duration", "Duration", "Duration", "Duration")]%string.
Proof.
  constructor; [|constructor; [|constructor]].
  - split; [|right; done]. split_and!; [cbn; set_solver|cbn; set_solver|done|by right].
  - split; [|left; done]. split_and!; [cbn; set_solver|cbn; set_solver|done|by left].
Qed.

(** ** C239: the request of --full *)
Lemma request_levels p (l : list (string * Z)) rest prop acc : prop = p \/ p = ""%string ->
  request_text (((fun x => (p, x.1, x.2)) <$> l) ++ rest) prop acc = request_text rest prop (acc +:+ levels_text l)%string.
Proof.
  intros Hp. revert acc. induction l as [|[t v] l IH]; intros acc; [cbn [fmap list_fmap app levels_text]; by rewrite app_nil_s|]. rewrite fmap_cons. cbn [app request_text fst snd].
  assert (E : negb (bool_decide (p = ""%string)) && negb (bool_decide (prop = p)) = false).
  { destruct Hp as [-> | ->]; [rewrite (bool_decide_true (p = p)) by done; by rewrite andb_false_r|rewrite (bool_decide_true (_ = _)) by done; done]. }
  rewrite E, IH. cbn [levels_text]. f_equal. by rewrite !app_assoc_s.
Qed.
Definition differing (gs : list group) : Prop := forall i g g', gs !! i = Some g -> gs !! S i = Some g' -> g.1 <> g'.1.
Lemma request_groups (gs : list group) prop acc : gs <> [] -> Forall (fun g => g.1 <> ""%string /\ g.2 <> []) gs -> differing gs ->
  (forall g, head gs = Some g -> g.1 <> prop) ->
  request_text (rows_of gs) prop acc = (acc +:+ (if bool_decide (acc = ""%string) then "" else "+") +:+ groups_text gs)%string.
Proof.
  revert prop acc. induction gs as [|[p l] gs IH]; intros prop acc Hne Hg Hd Hh; [done|]. clear Hne. apply Forall_cons in Hg as [[Hp Hl] Hg]. cbn [fst snd] in Hp, Hl.
  assert (Hpp : prop <> p) by (intros ->; by apply (Hh (p, l))). destruct l as [|[t v] l]; [done|]. unfold rows_of. rewrite bind_cons. cbn [snd fst]. rewrite fmap_cons. cbn [app request_text fst snd].
  rewrite (bool_decide_false (p = ""%string)) by done. rewrite (bool_decide_false (prop = p)) by done. cbn [negb andb].
  rewrite request_levels by (by left).
  assert (Hw : ((((acc +:+ (if bool_decide (acc = "") then "" else "+") +:+ "{" +:+ p +:+ "}") +:+ "/" +:+ t +:+ "=" +:+ str v)) +:+ levels_text l)%string =
               (acc +:+ (if bool_decide (acc = "") then "" else "+") +:+ group_text (p, (t, v) :: l))%string).
  { unfold group_text. cbn [fst snd levels_text]. rewrite (bool_decide_false (p = ""%string)) by done. by rewrite !app_assoc_s. }
  destruct gs as [|g gs].
  - cbn [mbind list_bind request_text groups_text]. exact Hw.
  - rewrite Hw. change (g0 ← g :: gs; (fun x => (g0.1, x.1, x.2)) <$> g0.2) with (rows_of (g :: gs)). rewrite IH; [|done|done| |].
    + assert (Hn : (acc +:+ (if bool_decide (acc = "") then "" else "+") +:+ group_text (p, (t, v) :: l))%string <> ""%string).
      { unfold group_text. cbn [fst]. rewrite (bool_decide_false (p = ""%string)) by done. destruct acc; [rewrite (bool_decide_true ("" = _)%string) by done; discriminate|discriminate]. }
      rewrite (bool_decide_false _ Hn).
      change (groups_text ((p, (t, v) :: l) :: g :: gs)) with (group_text (p, (t, v) :: l) +:+ "+" +:+ groups_text (g :: gs))%string. cbv iota. by rewrite !app_assoc_s.
    + intros i a b Ha Hb. by apply (Hd (S i)).
    + intros g' [= <-] E. apply (Hd 0%nat (p, (t, v) :: l) g); [done|done|]. by rewrite E.
Qed.
Theorem C239_partial (gs : list group) : gs <> [] -> Forall (fun g => g.1 <> ""%string /\ g.2 <> []) gs -> differing gs ->
  format_actual_request (rows_of gs) = groups_text gs.
Proof.
  intros H1 H2 H3. unfold format_actual_request. rewrite request_groups; [by rewrite bool_decide_true|done|done|done|].
  intros g Hg. destruct gs as [|g0 gs]; [done|]. apply (inj Some) in Hg as ->. apply Forall_cons in H2 as [[H2 _] _]. exact H2.
Qed.
Theorem C239_one (p : string) (l : list (string * Z)) : l <> [] -> format_actual_request (rows_of [(p, l)]) = group_text (p, l).
Proof.
  intros Hl. destruct (decide (p = ""%string)) as [-> |Hp].
  - unfold format_actual_request, rows_of. cbn [mbind list_bind fst snd]. rewrite request_levels by (by right). unfold group_text. cbn [fst snd]. by rewrite (bool_decide_true (_ = _)).
  - rewrite C239_partial; [done|done|constructor; [split; [exact Hp|exact Hl]|constructor]|]. intros [|i] g g0 H H0; [discriminate H0|discriminate H].
Qed.
(** Two groups with the same property, or the second without one, are run together. *)
Theorem C239_refuted : 
  format_actual_request (rows_of [("gpu = 'YES'", [("host", 1)]); ("gpu = 'YES'", [("host", 2)])])%string = "{gpu = 'YES'}/host=1/host=2"%string /\
  format_actual_request (rows_of [("gpu = 'YES'", [("host", 1)]); ("", [("host", 2)])])%string = "{gpu = 'YES'}/host=1/host=2"%string /\
  format_actual_request (rows_of [("gpu = 'YES'", [("host", 1); ("host", 2)])])%string = "{gpu = 'YES'}/host=1/host=2"%string.
Proof. split; [reflexivity|split; reflexivity]. Qed.
Theorem C239_case : let gs := [("gpu = 'YES'", [("host", 1); ("core", 4)]); ("mem > 64", [("host", 2)])]%string in
  Forall (fun g : group => g.1 <> ""%string /\ g.2 <> []) gs /\ differing gs /\ groups_text gs = "{gpu = 'YES'}/host=1/core=4+{mem > 64}/host=2"%string.
Proof.
  cbv zeta. split; [repeat constructor; discriminate|]. split; [|reflexivity]. intros [|[|i]] g g' H H'; [injection H as <-; injection H' as <-; discriminate|discriminate|discriminate].
Qed.

(** ** C240: the command *)
(** -j with --array: an error, and nothing is shown. *)
Theorem C240_conflict order cell cols df now d sel o : so_ids o <> [] -> so_array o <> 0 ->
  exists x, oarstat order cell cols df now d sel o = Ok x /\ sout_status x = 1 /\ x = Conflict.
Proof.
  intros H1 H2. exists Conflict. split; [|done]. unfold oarstat. rewrite bool_decide_false by done. apply Z.eqb_neq in H2. by rewrite H2.
Qed.
(** --full: each of the jobs, with the hosts of its resources, each once. *)
Theorem C240_hosts order cell cols df now d sel o l : oarstat order cell cols df now d sel o = Ok (Full l) ->
  l.*1 = sel /\ forall j hosts, (j, hosts) ∈ l -> NoDup hosts /\ forall h, h ∈ hosts <-> exists r, assigned_to d (o_id j) r /\ e_host r = h.
Proof.
  unfold oarstat. generalize (if bool_decide (so_fields o = ""%string) then df else so_fields o). intros text. do 5 (case_match; try discriminate). destruct (field_labels _ _) as [[v|m]|]; [discriminate| |discriminate]. cbn [rbind]. destruct (so_full o); [|discriminate].
  intros E. assert (El : l = (fun j => (j, job_hosts d (o_id j))) <$> sel) by congruence. subst l. split.
  - rewrite <- list_fmap_compose. apply list_fmap_id.
  - intros j hosts (j' & [= -> ->] & _)%elem_of_list_fmap. unfold job_hosts. split; [apply NoDup_remove_dups|]. intros h. rewrite elem_of_remove_dups, elem_of_list_fmap.
    split; intros (r & Ha & Hb); exists r; [apply job_resources_in in Hb|apply job_resources_in in Ha]; done.
Qed.
(** The options of the job queries count in this order: -e, -p, -s. *)
Theorem C240_first order cell cols df now d sel o : so_ids o = [] \/ so_array o = 0 ->
  (so_events o = true -> oarstat order cell cols df now d sel o = Ok (Events (print_events order d (so_ids o) (so_array o)))) /\
  (so_events o = false -> so_props o = true -> oarstat order cell cols df now d sel o = Ok (Props (props_lines d (so_ids o) (so_array o)))) /\
  (so_events o = false -> so_props o = false -> so_state o = true -> oarstat order cell cols df now d sel o = Ok (States (print_state d (so_ids o) (so_array o)))).
Proof.
  intros H. assert (E : negb (bool_decide (so_ids o = [])) && negb (so_array o =? 0) = false).
  { destruct H as [H|H]; [by rewrite bool_decide_true|]. rewrite H. by rewrite andb_false_r. }
  unfold oarstat. rewrite E. split_and!; [by intros ->|by intros -> ->|by intros -> -> ->].
Qed.
(** A period of --gantt that is not one stops the command with AttributeError. *)
Theorem C240_gantt_refuted order cell cols df now d sel : oarstat order cell cols df now d sel (mkSopts [] 0 false false false false false (Some false) "") = Err EAttr.
Proof. reflexivity. Qed.
(** -r, without -f, changes nothing of the table: no column holds the resources. *)
Theorem C240_resources_refuted order cell cols df now d sel ids a e p s f g fs :
  oarstat order cell cols df now d sel (mkSopts ids a e p s f true g fs) = oarstat order cell cols df now d sel (mkSopts ids a e p s f false g fs).
Proof. reflexivity. Qed.
Theorem C240_case : forall order, oarstat order stat_cell stat_cols "job_id" 200 stat_db (s_jobs stat_db) (mkSopts [] 0 false false false true false None "") =
  Ok (Full [(mkSjob 1 "bob" "Terminated" 100 160 1 1 (Some 768), ["n1"]); (mkSjob 2 "bob" "Running" 150 0 2 2 None, ["n1"]);
    (mkSjob 3 "eve" "Suspended" 120 0 3 2 None, ["n2"])])%string.
Proof. intros order. reflexivity. Qed.
(** The hypotheses of the other theorems are met: an order by job and date, and what the three queries show. *)
Global Instance event_before_dec a b : Decision (event_before a b).
Proof. unfold event_before. apply _. Defined.
Theorem C234_case : exists order, by_job_and_date order /\ (v_date <$> order (s_events stat_db)) = [110; 155; 160].
Proof.
  exists (merge_sort event_before). assert (H : by_job_and_date (merge_sort event_before)).
  { intros l. split; [apply merge_sort_Permutation|]. assert (Ht : Transitive event_before) by (intros a b c; unfold event_before; lia).
    assert (Ho : Total event_before) by (intros a b; unfold event_before; lia). exact (StronglySorted_merge_sort event_before l). }
  split; [done|reflexivity].
Qed.
Theorem C235_case : tables_ok stat_db /\ props_lines stat_db [] 2 = Said [[("cpu", "2")]; [("cpu", "3")]]%string /\ print_state stat_db [] 2 = Said [(2, "Running"); (3, "Suspended")]%string.
Proof. split; [unfold tables_ok, jobs_ok; split_and!; by_dec|split; reflexivity]. Qed.
Print Assumptions C233_partial.
Print Assumptions C233_formats.
Print Assumptions C233_refuted.
Print Assumptions C234_events.
Print Assumptions C234_formats.
Print Assumptions C235_partial.
Print Assumptions C235_shown.
Print Assumptions C235_refuted.
Print Assumptions C236_exited.
Print Assumptions C236_killed.
Print Assumptions C236_none.
Print Assumptions C236_refuted.
Print Assumptions C237_partial.
Print Assumptions C237_not_begun.
Print Assumptions C237_refuted.
Print Assumptions C237_case.
Print Assumptions C238_partial.
Print Assumptions C238_unknown.
Print Assumptions C238_refuted.
Print Assumptions C238_case.
Print Assumptions C239_partial.
Print Assumptions C239_one.
Print Assumptions C239_refuted.
Print Assumptions C239_case.
Print Assumptions C240_conflict.
Print Assumptions C240_hosts.
Print Assumptions C240_first.
Print Assumptions C240_gantt_refuted.
Print Assumptions C240_resources_refuted.
Print Assumptions C240_case.
Print Assumptions C234_case.
Print Assumptions C235_case.
