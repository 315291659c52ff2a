(** Resubmission of jobs: properties C117 to C122. *)
From Verif Require Import Base HierarchyModel SubmitModel SubmitSpec SubmitProofs SubmitRead SubmitProps ResubModel ResubSpec ResubProofs.
From Verif Require AcctModel.

Lemma job_of_inv s id r x : job_of s id = Some (r, x) ->
  r ∈ jobs (rq s) /\ x ∈ exts s /\ jid r = id /\ x_job x = id /\
  base.filter (fun r => jid r = id) (jobs (rq s)) = [r] /\ base.filter (fun x => x_job x = id) (exts s) = [x].
Proof.
  unfold job_of. intros H. destruct (base.filter (fun r => jid r = id) (jobs (rq s))) as [|r0 [|]] eqn:E1; try done.
  destruct (base.filter (fun x => x_job x = id) (exts s)) as [|x0 [|]] eqn:E2; try done. injection H as -> ->.
  assert (Hr : r ∈ base.filter (fun r => jid r = id) (jobs (rq s))) by (rewrite E1; left).
  assert (Hx : x ∈ base.filter (fun x => x_job x = id) (exts s)) by (rewrite E2; left).
  apply elem_of_list_filter in Hr as [? ?]. apply elem_of_list_filter in Hx as [? ?]. done.
Qed.

(** The state after a resubmission. *)
Definition after (rm : list mldrow -> list mldrow) (rg : list grprow -> list grprow) (rd : list descrow -> list descrow)
    (id : Z) (r : jobrow) (x : ext) (priv pub : string) (s : sys) : sys :=
  let n := nj (rq s) in
  with_keys (fun l => l ++ [(n, priv, pub)]) (with_exts (fun l => l ++ [copy_ext id n x])
    (with_rq (fun _ => insert_logs [(n, "Waiting"%string)] (set_state (fun r => jid r =? n) "Waiting"
       (move_deps id n (copy_types id n (copy_moldables rm rg rd id n (copy_row r (rq s))))))) s)).
(** Who may resubmit what. *)
Definition may (u : string) (s : sys) (r : jobrow) (x : ext) (priv pub : string) : Prop :=
  x_type x = "PASSIVE"%string /\ jstate r ∈ over /\ (u = x_user x \/ u = "oar"%string \/ u = "root"%string) /\
  ~ key_used_by_other s u priv pub.
Lemma same_keys_pos s u priv pub : (0 < same_keys s u priv pub)%nat <-> key_used_by_other s u priv pub.
Proof.
  unfold same_keys, key_used_by_other. set (L := mbind _ _). assert (HL : (0 < length L)%nat <-> exists k, k ∈ L).
  { destruct L as [|k L]; cbn [length]; [split; [lia|]; by intros (k & Hk%elem_of_nil)|]. split; [|lia]. intros _. exists k. left. }
  rewrite HL. unfold L. split.
  - intros (k & Hk). apply elem_of_list_bind in Hk as ([[k0 pr] pu] & Hk & H1). apply elem_of_list_filter in H1 as [(H1 & H2 & H3) H4].
    cbn [fst snd] in *. subst pr pu. apply elem_of_list_bind in Hk as (r & Hk & H5). apply elem_of_list_filter in H5 as [[H5 H6] H7].
    apply elem_of_list_bind in Hk as (x & Hk & H8). apply elem_of_list_filter in H8 as [[H8 H9] H10].
    split; [done|]. exists k0, r, x. split; [done|]. split; [done|]. split; [done|]. split; [done|]. split; [congruence|]. split; done.
  - intros (Hp & k & r & x & H1 & H2 & H3 & H4 & H5 & H6 & H7). exists (k, priv, pub).
    apply elem_of_list_bind. exists (k, priv, pub). split; [|apply elem_of_list_filter; cbn [fst snd]; done].
    apply elem_of_list_bind. exists r. split; [|apply elem_of_list_filter; done].
    apply elem_of_list_bind. exists x. split; [left|apply elem_of_list_filter]. split; [|done]. split; [congruence|done].
Qed.
Lemma resubmit_ok rm rg rd u id s n s' : resubmit rm rg rd u id s = Ok (0, n, s') ->
  exists r x k priv pub, job_of s id = Some (r, x) /\ base.filter (fun k => fst (fst k) = id) (keys s) = [(k, priv, pub)] /\
    may u s r x priv pub /\ n = nj (rq s) /\ s' = after rm rg rd id r x priv pub s.
Proof.
  unfold resubmit. destruct (job_of s id) as [[r x]|]; [|done].
  destruct (bool_decide (x_type x = "PASSIVE"%string)) eqn:E1; cbn [negb]; [|done]. apply bool_decide_eq_true in E1.
  destruct (negb (bool_decide (jstate r = "Error"%string)) && negb (bool_decide (jstate r = "Terminated"%string)) && negb (bool_decide (jstate r = "Finishing"%string))) eqn:E2; [done|].
  destruct (negb (bool_decide (u = x_user x)) && negb (admin u)) eqn:E3; [done|].
  destruct (base.filter (fun k => fst (fst k) = id) (keys s)) as [|[[k priv] pub] [|]] eqn:E4; try done.
  match goal with |- (if ?b then _ else _) = _ -> _ => destruct b eqn:E5; [done|] end.
  intros H. injection H as Hn Hs. exists r, x, k, priv, pub. split; [done|]. split; [done|]. split; [|split; [by rewrite <- Hn|by rewrite <- Hs]].
  split; [done|]. split; [|split].
  - unfold over. destruct (decide (jstate r = "Error"%string)) as [->|H1]; [set_solver|].
    destruct (decide (jstate r = "Terminated"%string)) as [->|H2]; [set_solver|].
    destruct (decide (jstate r = "Finishing"%string)) as [->|H3]; [set_solver|].
    rewrite !bool_decide_eq_false_2 in E2 by done. done.
  - unfold admin in E3. destruct (decide (u = x_user x)) as [->|H1]; [by left|].
    destruct (decide (u = "oar"%string)) as [->|H2]; [by right; left|]. destruct (decide (u = "root"%string)) as [->|H3]; [by right; right|].
    rewrite !bool_decide_eq_false_2 in E3 by done. done.
  - intros Hk. pose proof Hk as [Hp _]. apply same_keys_pos in Hk. apply andb_false_iff in E5 as [E5|E5].
    + rewrite (bool_decide_eq_false_2 (priv = EmptyString)) in E5 by done. cbn [negb] in E5. by rewrite orb_true_r in E5.
    + apply Nat.ltb_ge in E5. lia.
Qed.

(** ** C117: the new job asks for the same thing *)
Section copied.
  Variable rm : list mldrow -> list mldrow.
  Variable rg : list grprow -> list grprow.
  Variable rd : list descrow -> list descrow.
  Hypothesis Hrm : forall l, rm l ≡ₚ l.
  Hypothesis Hrg : forall l, rg l ≡ₚ l.
  Hypothesis Hrd : forall l, rd l ≡ₚ l.

  Lemma wf_copy_row r d : wf d -> r ∈ jobs d -> wf (copy_row r d).
  Proof.
    intros Hwf Hr. pose proof (wf_n _ Hwf). pose proof (wf_jb _ Hwf) as Hb. pose proof (Hb r Hr). split; unfold copy_row; cbn [jobs mlds grps descs nj nm ng]; try apply Hwf.
    - apply ascending_app. split; [apply Hwf|]. split; [apply ascending_cons; split; [|apply ascending_nil]; intros y Hy; by apply elem_of_nil in Hy|].
      intros a b Ha ->%elem_of_list_singleton. specialize (Hb a Ha). cbn [jid]. lia.
    - intros a [Ha|Ha]%elem_of_app; [specialize (Hb a Ha); lia|]. apply elem_of_list_singleton in Ha as ->. cbn [jid jarray]. lia.
    - intros m Hm. pose proof (wf_mb _ Hwf m Hm). lia.
    - lia.
  Qed.
  Lemma copy_moldables_eq j j' d : copy_moldables rm rg rd j j' d = fold_left (add_instance rg rd j') (rm (base.filter (fun m => mjob m = j) (mlds d))) d.
  Proof. done. Qed.

  (** Everything about the tables of requests after a resubmission. *)
  Lemma after_spec id r x priv pub s : wf (rq s) -> orderly rd (rq s) -> r ∈ jobs (rq s) -> jid r = id ->
    let s' := after rm rg rd id r x priv pub s in let d := rq s in let d' := rq s' in let n := nj d in
    wf d' /\ orderly rd d' /\
    jobs d' = jobs d ++ [mkJob n "Waiting" (jarray r) (jindex r) (jcmd r) (jprops r) (jresv r)] /\
    types d' = types d ++ ((fun t => (n, snd t)) <$> base.filter (fun t => fst t = id) (types d)) /\
    deps d' = ((fun e => if snd e =? id then (fst e, n) else e) <$> deps d) /\
    logs d' = logs d ++ [(n, "Waiting"%string)] /\
    (exists new, mlds d' = mlds d ++ new /\ (forall m, m ∈ new -> mjob m = n) /\
      Forall2 (fun m y => mwall y = mwall m /\ groups_of d' (mid y) = given rg d (mid m)) (rm (base.filter (fun m => mjob m = id) (mlds d))) new) /\
    (forall k, k < nm d -> groups_of d' k = groups_of d k) /\ nj d' = n + 1.
  Proof.
    intros Hwf Ho Hr Hid. cbv zeta. set (n := nj (rq s)). set (d1 := copy_row r (rq s)).
    assert (W1 : wf d1) by by apply wf_copy_row.
    assert (O1 : orderly rd d1) by exact Ho.
    pose proof (wf_n _ Hwf) as Hn.
    set (L := rm (base.filter (fun m => mjob m = id) (mlds (rq s)))).
    destruct (add_instances_spec rg rd Hrg Hrd n L d1 W1) as (W & O & A1 & A2 & A3 & A4 & A5 & A6 & A7 & A8 & A9); try done.
    { unfold n, d1, copy_row. cbn [nj]. lia. }
    { intros m Hm. unfold L in Hm. rewrite Hrm in Hm. apply elem_of_list_filter in Hm as [_ Hm]. apply (wf_mb _ W1 m Hm). }
    set (d2 := fold_left (add_instance rg rd n) L d1) in *.
    set (d3 := move_deps id n (copy_types id n d2)). set (d4 := set_state (fun r => jid r =? n) "Waiting" d3).
    assert (W3 : wf d3) by (destruct W; split; done).
    assert (W4 : wf d4) by by apply wf_set_state.
    assert (W5 : wf (insert_logs [(n, "Waiting"%string)] d4)) by by apply wf_insert_logs.
    assert (Hd : rq (after rm rg rd id r x priv pub s) = insert_logs [(n, "Waiting"%string)] d4) by done.
    rewrite Hd. split; [done|]. split; [exact O|]. split.
    { cbn [jobs insert_logs]. unfold d4. cbn [jobs set_state set_jobs]. change (jobs d3) with (jobs d2). rewrite A1.
      change (jobs d1) with (jobs (rq s) ++ [mkJob n "Hold" (jarray r) (jindex r) (jcmd r) (jprops r) (jresv r)]).
      rewrite set_jobs_old.
      - cbn [jid]. rewrite Z.eqb_refl. done.
      - intros y Hy. pose proof (wf_jb _ Hwf y Hy). destruct (jid y =? n) eqn:E; [unfold n in E; lia|done]. }
    split.
    { change (types (insert_logs [(n, "Waiting"%string)] d4)) with (types d2 ++ ((fun t => (n, snd t)) <$> base.filter (fun t => fst t = id) (types d2))).
      rewrite A2. done. }
    split.
    { change (deps (insert_logs [(n, "Waiting"%string)] d4)) with ((fun e => if snd e =? id then (fst e, n) else e) <$> deps d2). rewrite A3. done. }
    split.
    { change (logs (insert_logs [(n, "Waiting"%string)] d4)) with (logs d2 ++ [(n, "Waiting"%string)]). rewrite A4. done. }
    split; [exact A7|]. split; [exact A8|].
    change (nj (insert_logs [(n, "Waiting"%string)] d4)) with (nj d2). rewrite A5. done.
  Qed.
  Lemma moldables_new (d d' : db) n : wf d -> wf d' -> n = nj d -> (forall k, k < nm d -> groups_of d' k = groups_of d k) ->
    (exists new, mlds d' = mlds d ++ new /\ forall m, m ∈ new -> mjob m = n) ->
    (forall j, j <> n -> moldables_of d' j = moldables_of d j) /\
    forall new, mlds d' = mlds d ++ new -> (forall m, m ∈ new -> mjob m = n) ->
      moldables_of d' n = (fun m => (mid m, mwall m, groups_of d' (mid m))) <$> new.
  Proof.
    intros Hwf Hwf' -> HG (new0 & E0 & Hj0). split.
    - intros j Hj. rewrite !moldables_of_filter; [|apply Hwf|apply Hwf']. rewrite E0, filter_app.
      rewrite (filter_none _ new0) by (intros m Hm; rewrite (Hj0 m Hm); congruence). rewrite app_nil_r.
      apply list_fmap_ext. intros i m Hm. apply elem_of_list_lookup_2, elem_of_list_filter in Hm as [_ Hm].
      pose proof (wf_mb _ Hwf m Hm). rewrite HG by lia. done.
    - intros new E Hj. rewrite moldables_of_filter by apply Hwf'. rewrite E, filter_app.
      rewrite (filter_none _ (mlds d)); [|intros m Hm; pose proof (wf_mb _ Hwf m Hm); lia]. cbn [app].
      rewrite filter_all by done. done.
  Qed.
  Lemma request_new d id : wf d -> request d id = (fun m => (mwall m, groups_of d (mid m))) <$> base.filter (fun m => mjob m = id) (mlds d).
  Proof. intros Hwf. unfold request. rewrite moldables_of_filter by apply Hwf. rewrite <- list_fmap_compose. done. Qed.
End copied.

(** The new job has a new identifier, the state Waiting (logged), the same columns but the outcome of the first run,
    the same types, and asks for the same resources and durations whatever the order in which the database gives the
    rows: only the order of the alternatives, and of the groups in each, may change.  Nothing else changes but who
    waits for whom (C118). *)
Theorem C117_same_request : forall rm rg rd u id s n s',
  (forall l, rm l ≡ₚ l) -> (forall l, rg l ≡ₚ l) -> (forall l, rd l ≡ₚ l) -> wf (rq s) -> ranked (rq s) ->
  (forall t, t ∈ types (rq s) -> fst t < nj (rq s)) ->
  resubmit rm rg rd u id s = Ok (0, n, s') ->
  (forall r, r ∈ jobs (rq s) -> jid r <> n) /\ states_of s' n = ["Waiting"%string] /\
  same_up_to_order (request (rq s) id) (request (rq s') n) /\
  types_of (rq s') n = types_of (rq s) id /\
  (exists r x r' x', job_of s id = Some (r, x) /\ jobs (rq s') = jobs (rq s) ++ [r'] /\ exts s' = exts s ++ [x'] /\
     jid r' = n /\ x_job x' = n /\
     jcmd r' = jcmd r /\ jprops r' = jprops r /\ jresv r' = jresv r /\ jarray r' = jarray r /\ jindex r' = jindex r /\
     x_user x' = x_user x /\ x_type x' = x_type x /\ x_rest x' = x_rest x /\ x_exit x' = None /\ x_mld x' = 0 /\ x_of x' = id) /\
  (forall j, j <> n -> request (rq s') j = request (rq s) j /\ types_of (rq s') j = types_of (rq s) j) /\
  logs (rq s') = logs (rq s) ++ [(n, "Waiting"%string)] /\
  evs s' = evs s /\ suspected s' = suspected s /\ queues s' = queues s.
Proof.
  intros rm rg rd u id s n s' Hrm Hrg Hrd Hwf Hrk Hty H.
  apply resubmit_ok in H as (r & x & k & priv & pub & Hj & Hk & Hmay & -> & ->).
  apply job_of_inv in Hj as Hj'. destruct Hj' as (Hr & Hx & Hid & Hxid & _ & _).
  destruct (after_spec rm rg rd Hrm Hrg Hrd id r x priv pub s Hwf (or_introl Hrk) Hr Hid) as (W & O & A1 & A2 & A3 & A4 & A5 & A6 & A7).
  assert (Hex : exts (after rm rg rd id r x priv pub s) = exts s ++ [copy_ext id (nj (rq s)) x]) by done.
  assert (Hrest : evs (after rm rg rd id r x priv pub s) = evs s /\ suspected (after rm rg rd id r x priv pub s) = suspected s /\ queues (after rm rg rd id r x priv pub s) = queues s) by done.
  set (s' := after rm rg rd id r x priv pub s) in *. clearbody s'.
  destruct A5 as (new & B1 & B2 & B3).
  destruct (moldables_new (rq s) (rq s') (nj (rq s)) Hwf W eq_refl A6) as [M1 M2]; [eauto|].
  assert (Hfresh : forall r, r ∈ jobs (rq s) -> jid r <> nj (rq s)) by (intros r0 Hr0; pose proof (wf_jb _ Hwf r0 Hr0); lia).
  assert (Hidn : id <> nj (rq s)) by (rewrite <- Hid; by apply Hfresh).
  assert (Htn : types_of (rq s) (nj (rq s)) = []).
  { unfold types_of. rewrite filter_none; [done|]. intros t Ht. specialize (Hty t Ht). lia. }
  split; [done|]. split.
  { unfold states_of. rewrite A1, filter_app. rewrite (filter_none _ (jobs (rq s))) by done.
    rewrite filter_cons_True by done. done. }
  split.
  { rewrite (request_new (rq s)) by done. unfold request. rewrite (M2 new B1 B2). rewrite <- list_fmap_compose.
    exists ((fun m => (mwall m, groups_of (rq s) (mid m))) <$> rm (base.filter (fun m => mjob m = id) (mlds (rq s)))). split.
    - by rewrite Hrm.
    - apply Forall2_fmap. eapply Forall2_impl; [exact B3|]. intros m y [C1 C2]. cbn [compose fst snd]. rewrite C1, C2.
      split; [done|]. symmetry. by apply given_perm, Hwf. }
  split.
  { unfold types_of in Htn |- *. rewrite A2, filter_app, fmap_app, Htn. cbn [app].
    rewrite (filter_all (fun t : Z * string => fst t = nj (rq s))).
    - rewrite <- list_fmap_compose. done.
    - intros t (t' & -> & _)%elem_of_list_fmap. done. }
  split.
  { exists r, x, (mkJob (nj (rq s)) "Waiting" (jarray r) (jindex r) (jcmd r) (jprops r) (jresv r)), (copy_ext id (nj (rq s)) x).
    do 2 (split; [done|]). split; [done|]. done. }
  split; [|split; [done|exact Hrest]].
  intros j Hjn. split; [unfold request; by rewrite M1|].
  unfold types_of. rewrite A2, filter_app. rewrite (filter_none _ (_ <$> _)); [by rewrite app_nil_r|].
  intros t (t' & -> & _)%elem_of_list_fmap. cbn. congruence.
Qed.
(** When the database gives the rows in the order of insertion, the order is kept too. *)
Theorem C117_same_order : forall u id s n s', wf (rq s) ->
  resubmit (fun l => l) (fun l => l) (fun l => l) u id s = Ok (0, n, s') -> request (rq s') n = request (rq s) id.
Proof.
  intros u id s n s' Hwf H.
  apply resubmit_ok in H as (r & x & k & priv & pub & Hj & Hk & Hmay & -> & ->).
  apply job_of_inv in Hj as (Hr & Hx & Hid & Hxid & _ & _).
  destruct (after_spec (fun l => l) (fun l => l) (fun l => l) ltac:(done) ltac:(done) ltac:(done) id r x priv pub s Hwf (or_intror (fun l => eq_refl)) Hr Hid)
    as (W & O & A1 & A2 & A3 & A4 & (new & B1 & B2 & B3) & A6 & A7).
  set (s' := after _ _ _ id r x priv pub s) in *. clearbody s'.
  destruct (moldables_new (rq s) (rq s') (nj (rq s)) Hwf W eq_refl A6) as [M1 M2]; [eauto|].
  rewrite (request_new (rq s)) by done. unfold request. rewrite (M2 new B1 B2), <- list_fmap_compose.
  clear B1 B2 M1 M2. induction B3 as [|m y l l' [C1 C2] B3 IH]; [done|]. rewrite !fmap_cons. f_equal; [|exact IH].
  cbn [compose fst snd]. rewrite C1, C2. f_equal. unfold given. by rewrite groups_of_filter by apply Hwf.
Qed.

(** *** Histories *)
Record rinv (dw : Z) (d : db) (asks : list ask) : Prop := mkRinv {
  ri_wf : wf d;
  ri_job : forall m, m ∈ mlds d -> mjob m ∈ map jid (jobs d);
  ri_block : forall j, blockl (mlds d) j;
  ri_ask : forall a, a ∈ asks -> exists r, r ∈ jobs d /\ jid r = a_job a /\ jprops r = a_props a /\
            written dw (a_req a) (moldables_of d (a_job a)) /\ proper (a_req a) }.
Lemma rinv_grow dw d d' asks new newm more : rinv dw d asks -> wf d' -> jobs d' = jobs d ++ new ->
  (forall r, r ∈ new -> nj d <= jid r) -> mlds d' = mlds d ++ newm ->
  (forall m, m ∈ newm -> mjob m ∈ map jid new) -> (forall j, blockl newm j) ->
  (forall j, j < nj d -> moldables_of d' j = moldables_of d j) ->
  (forall a, a ∈ more -> exists r, r ∈ new /\ jid r = a_job a /\ jprops r = a_props a /\
            written dw (a_req a) (moldables_of d' (a_job a)) /\ proper (a_req a)) ->
  rinv dw d' (asks ++ more).
Proof.
  intros [] Hwf Hj Hnew Hm Hmj Hb Hold Hmore.
  assert (Hlt : forall r, r ∈ jobs d -> jid r < nj d) by (intros r Hr; apply (wf_jb d ri_wf0 r Hr)).
  split; [done| | |].
  - intros m. rewrite Hm, Hj, map_app. rewrite !elem_of_app. intros [?|?]; [left; by apply ri_job0|right; by apply Hmj].
  - intros j. rewrite Hm. apply (blockl_app _ _ (nj d)); [|  |done|done].
    + intros m Hin. apply (wf_mb d ri_wf0 m Hin).
    + intros m Hin. apply Hmj in Hin. apply elem_of_list_fmap in Hin as (r & -> & Hr). by apply Hnew.
  - intros a [Ha|Ha]%elem_of_app.
    + destruct (ri_ask0 a Ha) as (r & Hr & H1 & H2 & H3 & H4). exists r. rewrite Hj, elem_of_app.
      split; [by left|]. split; [done|]. split; [done|]. rewrite Hold; [done|]. rewrite <- H1. by apply Hlt.
    + destruct (Hmore a Ha) as (r & Hr & H). exists r. rewrite Hj, elem_of_app. split; [by right|done].
Qed.
Lemma written_request dw req d d' j n : written dw req (moldables_of d j) -> request d' n = request d j -> written dw req (moldables_of d' n).
Proof.
  unfold written, request. intros H. generalize (moldables_of d' n) as k. induction H as [|m x req' l [H1 H2] H IH]; intros k E.
  - destruct k; [constructor|done].
  - destruct k as [|y k]; [done|]. rewrite !fmap_cons in E. injection E as E1 E2 E3. constructor; [|by apply IH].
    by rewrite E1, E2.
Qed.
Lemma life_inv dw s asks : life dw s asks -> rinv dw (rq s) asks.
Proof.
  set (ro := fun l : list Z => l). assert (Hro : forall l, ro l = l) by done.
  induction 1 as [s asks Hh|s asks p array_id index cmd t j Hl IH Hp Ha E|s asks p gs w cmds t js Hl IH Hreq Hp E|s asks u id n s' Hl IH E
                  |s s' asks Hl IH E1 E2 E3 E4 E5 E6 Hjobs].
  - apply (history_inv dw _ ltac:(done)) in Hh as []. by split.
  - destruct (add_subjob_spec dw ro Hro p array_id index cmd (rq s) (ri_wf _ _ _ IH) Ha) as (t' & E' & _ & (d' & Hlast & W & A) & _).
    fold ro in E. rewrite E in E'. injection E' as <- ->. cbn [rq with_rq]. rewrite Hlast. cbn [default from_option id].
    destruct A as (A1 & A2 & A3 & A4). cbn [jid] in *.
    eapply rinv_grow; [exact IH|done|exact A1| |exact A4| | | |].
    + intros r ->%elem_of_list_singleton. done.
    + intros m Hm. apply new_mlds_elem in Hm as [_ Hm]. apply elem_of_list_fmap in Hm as (x & [= -> _] & _). left.
    + intros k. apply (blockl_same _ (nj (rq s))). intros m Hm. apply new_mlds_elem in Hm as [_ Hm].
      apply elem_of_list_fmap in Hm as (x & [= -> _] & _). done.
    + intros k Hk. apply A3. lia.
    + intros a ->%elem_of_list_singleton. cbn [a_job a_props a_req]. eexists. split; [left|]. done.
  - rewrite Hreq in Hp |- *. assert (Hc : cmds <> []) by (intros ->; done).
    destruct (add_array_spec dw ro Hro p gs w cmds (rq s) (ri_wf _ _ _ IH) Hc) as (t' & E' & _ & (d' & Hlast & W & A) & _).
    fold ro in E. rewrite E in E'. injection E' as <- ->. cbn [rq with_rq]. rewrite Hlast. cbn [default from_option id].
    destruct A as (A1 & A2 & A3 & A4).
    eapply rinv_grow; [exact IH|done|exact A1| |exact A4| | |done|].
    + intros r Hr. apply array_rows_elem in Hr as (? & _ & _). lia.
    + intros m Hm. apply new_mlds_elem in Hm as [_ Hm]. apply elem_of_list_fmap in Hm as (x & [= -> _] & Hx).
      change (x ∈ jid <$> array_rows p (if p_hold p then "Hold" else "Waiting")%string (nj (rq s)) cmds). by rewrite array_rows_jid.
    + apply blockl_nodup. rewrite new_mlds_jobs. apply NoDup_seqZ.
    + intros a Hin. apply elem_of_list_fmap in Hin as (j & -> & Hj). cbn [a_job a_props a_req]. pose proof Hj as Hj'. apply elem_of_seqZ in Hj'.
      rewrite <- (array_rows_jid p (if p_hold p then "Hold" else "Waiting")%string) in Hj. apply elem_of_list_fmap in Hj as (r & -> & Hr).
      exists r. split; [done|]. split; [done|]. split.
      * apply zip_seq_elem in Hr as (i & c & _ & -> & _). done.
      * split; [|done]. rewrite A2 by done. constructor; [done|constructor].
  - pose proof (C117_same_order u id s n s' (ri_wf _ _ _ IH) E) as Hsame.
    apply resubmit_ok in E as (r & x & k & priv & pub & Hj & Hk & Hmay & -> & ->).
    apply job_of_inv in Hj as (Hr & Hx & Hid & Hxid & Hf & _).
    destruct (after_spec (fun l => l) (fun l => l) (fun l => l) ltac:(done) ltac:(done) ltac:(done) id r x priv pub s (ri_wf _ _ _ IH) (or_intror (fun l => eq_refl)) Hr Hid)
      as (W & O & A1 & A2 & A3 & A4 & (new & B1 & B2 & B3) & A6 & A7).
    set (s' := after _ _ _ id r x priv pub s) in *. clearbody s'.
    destruct (moldables_new (rq s) (rq s') (nj (rq s)) (ri_wf _ _ _ IH) W eq_refl A6) as [M1 M2]; [eauto|].
    eapply rinv_grow; [exact IH|done|exact A1| |exact B1| | | |].
    + intros r0 ->%elem_of_list_singleton. done.
    + intros m Hm. rewrite (B2 m Hm). left.
    + intros j. by apply (blockl_same _ (nj (rq s))).
    + intros j Hj. apply M1. lia.
    + intros a (a0 & -> & Ha0)%elem_of_list_fmap. apply elem_of_list_filter in Ha0 as [Ha1 Ha2]. cbn [a_job a_props a_req].
      eexists. split; [left|]. split; [done|]. cbn [jprops].
      destruct (ri_ask _ _ _ IH a0 Ha2) as (r0 & C1 & C2 & C3 & C4 & C5).
      assert (Hr0 : r0 = r).
      { assert (Hin : r0 ∈ base.filter (fun r => jid r = id) (jobs (rq s))) by (apply elem_of_list_filter; split; [congruence|done]).
        rewrite Hf in Hin. by apply elem_of_list_singleton in Hin. }
      subst r0. split; [done|]. split; [|done]. eapply written_request; [exact C4|]. by rewrite Ha1.
  - assert (Hm : forall j, moldables_of (rq s') j = moldables_of (rq s) j).
    { intros j. unfold moldables_of, groups_of, levels_of. by rewrite E1, E2, E3. }
    assert (Hids : jid <$> jobs (rq s') = jid <$> jobs (rq s)).
    { clear -Hjobs. induction Hjobs as [|a b l l' (C1 & _) Hj IHj]; [done|]. rewrite !fmap_cons. by f_equal. }
    assert (Hrow : forall r', r' ∈ jobs (rq s') -> exists r, r ∈ jobs (rq s) /\ jid r' = jid r /\ jprops r' = jprops r /\ jarray r' = jarray r).
    { intros r' Hr'. apply elem_of_list_lookup in Hr' as (i & Hi). destruct (Forall2_lookup_r _ _ _ _ _ Hjobs Hi) as (r & Hr & Hp).
      exists r. split; [by eapply elem_of_list_lookup_2|done]. }
    assert (Hrow2 : forall r, r ∈ jobs (rq s) -> exists r', r' ∈ jobs (rq s') /\ jid r' = jid r /\ jprops r' = jprops r).
    { intros r Hr. apply elem_of_list_lookup in Hr as (i & Hi). destruct (Forall2_lookup_l _ _ _ _ _ Hjobs Hi) as (r' & Hr' & Hp & Hq & _).
      exists r'. split; [by eapply elem_of_list_lookup_2|done]. }
    destruct IH as [Hwf I1 I2 I3]. split.
    + split; rewrite ?E1, ?E2, ?E3, ?E4, ?E5, ?E6; try apply Hwf.
      * assert (H : ascending id (jid <$> jobs (rq s'))) by (rewrite Hids; exact (proj2 (ascending_fmap id jid _) (wf_j _ Hwf))).
        exact (proj1 (ascending_fmap id jid _) H).
      * intros r' Hr'. destruct (Hrow r' Hr') as (r & Hr & -> & _ & ->). by apply (wf_jb _ Hwf).
    + rewrite E1. intros m Hin. change (mjob m ∈ jid <$> jobs (rq s')). rewrite Hids. by apply I1.
    + rewrite E1. exact I2.
    + intros a Ha. destruct (I3 a Ha) as (r & Hr & C1 & C2 & C3). destruct (Hrow2 r Hr) as (r' & Hr' & D1 & D2).
      exists r'. split; [done|]. split; [congruence|]. split; [congruence|]. by rewrite Hm.
Qed.
(** Through any number of submissions and resubmissions (of resubmitted jobs too), the scheduler reads for each job what
    its user asked the first time (reading any set of described jobs at once).  Partial: the database gives rows back in
    the order of insertion, as for C101; requests are not changed otherwise (C117_walltime_refuted). *)
Theorem C117_read_back_partial : forall dw sec be cons s asks jids a, life dw s asks -> a ∈ asks -> a_job a ∈ jids ->
  (forall j, j ∈ jids -> described (rq s) j) ->
  exists mp l, get_data cons sec be (rq s) jids = Ok mp /\ request_of mp (a_job a) = Ok l /\
    says dw sec be cons (a_props a) (a_req a) l.
Proof.
  intros dw sec be cons s asks jids a Hl Ha Hj Hd. apply life_inv in Hl as [].
  destruct (ri_ask0 a Ha) as (r & Hr & H1 & H2 & H3 & H4).
  destruct (read_back cons sec be (rq s) jids r) as (mp & l & E1 & E2 & E3); [done|done|done|done|by rewrite H1|apply ri_block0|].
  rewrite H1 in E2, E3. rewrite H2 in E3. exists mp, l. split; [done|]. split; [done|].
  eapply says_of_written; [exact H3|exact E3|]. destruct H4 as [_ H4]. eapply Forall_impl; [exact H4|]. by intros m [? _].
Qed.

(** A database with jobs 1 (Waiting), 2 (deleted while it waited for 1; two alternatives; best-effort), 3 (waits for 2). *)
Definition ex_db : db :=
  mkDb [mkJob 1 "Waiting" 1 1 "a" None "None"; mkJob 2 "Error" 2 1 "b" (Some "gpu = 'yes'"%string) "None"; mkJob 3 "Waiting" 3 1 "c" None "None"]
    [mkMld 1 1 3600; mkMld 2 2 60; mkMld 3 2 10; mkMld 4 3 7200]
    [mkGrp 1 1 ""; mkGrp 2 2 "x > 1"; mkGrp 3 2 "y = 2"; mkGrp 4 3 ""; mkGrp 5 4 ""]
    [mkDesc 1 "nodes" 1 0; mkDesc 2 "nodes" 2 0; mkDesc 2 "cores" 4 1; mkDesc 3 "gpu" 1 0; mkDesc 4 "nodes" 8 0; mkDesc 5 "nodes" 1 0]
    [(2, "besteffort"%string)] [(2, 1); (3, 2)] [(1, "Waiting"%string)] 4 5 6.
Definition ex_ext (j : Z) (u acc : string) : ext := mkExt j u "PASSIVE" 100 0 0 acc "NO" 0 None 0 "" "" "dir".
Definition ex_sys (acc : string) : sys :=
  mkSys ex_db [ex_ext 1 "alice" "NO"; ex_ext 2 "bob" acc; ex_ext 3 "bob" "NO"]
    [(1, ""%string, ""%string); (2, ""%string, ""%string); (3, ""%string, ""%string)] [] [] [] [] [("default"%string, "Active"%string)].
Lemma ex_wf : wf ex_db.
Proof.
  assert (Ha : forall (A : Type) (key : A -> Z) (l : list A), bool_decide (StronglySorted (fun x y => x < y) (key <$> l)) = true -> ascending key l).
  { intros A key l H. apply bool_decide_eq_true in H. intros i j x y Hx Hy Hij. revert i j Hx Hy Hij. induction l as [|z l IH]; intros i j Hx Hy Hij; [done|].
    rewrite fmap_cons in H. apply StronglySorted_inv in H as [H1 H2]. destruct j as [|j]; [lia|]. destruct i as [|i].
    - injection Hx as ->. rewrite Forall_forall in H2. apply H2. apply elem_of_list_fmap. exists y. split; [done|]. by eapply elem_of_list_lookup_2.
    - apply (IH H1 i j Hx Hy). lia. }
  assert (Hb : forall (A : Type) (P : A -> Prop) (l : list A), Forall P l -> forall x, x ∈ l -> P x) by (intros A P l H x Hx; by eapply Forall_forall in H).
  split; try (apply Ha; vm_compute; reflexivity); [apply Hb|apply Hb|apply Hb|apply Hb|]; cbn; repeat (constructor; [cbn; lia|]); try constructor; lia.
Qed.
Definition ids {A} : list A -> list A := fun l => l.
Definition sys_of (r : res (Z * Z * sys)) : sys := snd (from_ok (0, 0, ex_sys "NO") r).
Lemma ex_resubmit acc u : u = "bob"%string \/ u = "oar"%string -> exists s', resubmit ids ids ids u 2 (ex_sys acc) = Ok (0, 4, s') /\
  deps (rq s') = [(2, 1); (3, 4)] /\ exts s' = exts (ex_sys acc) ++ [mkExt 4 "bob" "PASSIVE" 100 0 0 acc "NO" 0 None 2 "" "" "dir"] /\
  states_of s' 1 = ["Waiting"%string] /\ states_of s' 4 = ["Waiting"%string] /\ types (rq s') = [(2, "besteffort"%string); (4, "besteffort"%string)] /\
  request (rq s') 4 = [(60, [("x > 1", [("nodes", 2); ("cores", 4)]); ("y = 2", [("gpu", 1)])]); (10, [("", [("nodes", 8)])])]%string.
Proof.
  intros [-> | ->]; (eexists; split; [cbv -[after]; reflexivity|]; do 5 (split; [reflexivity|]); reflexivity).
Qed.
Theorem C117_example : exists u id s n s', wf (rq s) /\ ranked (rq s) /\ (forall t, t ∈ types (rq s) -> fst t < nj (rq s)) /\
  resubmit (@reverse _) (@reverse _) (@reverse _) u id s = Ok (0, n, s') /\ length (request (rq s) id) = 2%nat /\
  request (rq s') n = reverse ((fun m => (fst m, reverse (snd m))) <$> request (rq s) id) /\ types_of (rq s') n = ["besteffort"%string].
Proof.
  exists "bob"%string, 2, (ex_sys "NO"), 4. eexists. split; [apply ex_wf|]. split.
  { intros g. destruct (decide (g = 2)) as [->|H2]; [vm_compute; repeat constructor; vm_compute; intros H; inversion H; subst; inversion H2|].
    cbn [rq ex_sys ex_db descs]. repeat (rewrite filter_cons; cbn [dgrp]; destruct (decide (_ = g)); try lia); subst; try done; vm_compute; repeat constructor; vm_compute; intros H; inversion H. }
  split; [intros t Ht; cbn in Ht; apply elem_of_list_singleton in Ht as ->; cbn; lia|].
  split; [cbv -[after]; reflexivity|]. split; [reflexivity|]. split; reflexivity.
Qed.
(** What is asked again is what the first job had in the end: a walltime changed while it ran is asked again, not the
    one of the submission; and it is asked for every alternative. *)
Theorem C117_walltime_refuted : exists s w n s', wf (rq s) /\ resubmit ids ids ids "bob" 2 (with_rq (set_walltime 2 w) s) = Ok (0, n, s') /\
  request (rq s') n <> request (rq s) 2.
Proof.
  exists (ex_sys "NO"), 660, 4. eexists. split; [apply ex_wf|]. split; [cbv -[after]; reflexivity|]. intros H.
  apply (f_equal (fmap fst)) in H. vm_compute in H. done.
Qed.

(** ** C118: dependencies *)
(** Jobs that waited for the first one wait for the new one, and nobody waits for the first one any more. *)
Theorem C118_dependants : forall rm rg rd u id s n s', (forall l, rm l ≡ₚ l) -> (forall l, rg l ≡ₚ l) -> (forall l, rd l ≡ₚ l) ->
  wf (rq s) -> ranked (rq s) -> resubmit rm rg rd u id s = Ok (0, n, s') ->
  (forall j k, (j, k) ∈ deps (rq s') <-> (k = n /\ (j, id) ∈ deps (rq s)) \/ (k <> id /\ (j, k) ∈ deps (rq s))).
Proof.
  intros rm rg rd u id s n s' Hrm Hrg Hrd Hwf Hrk H.
  apply resubmit_ok in H as (r & x & k & priv & pub & Hj & Hk & Hmay & -> & ->).
  apply job_of_inv in Hj as (Hr & Hx & Hid & Hxid & _ & _).
  destruct (after_spec rm rg rd Hrm Hrg Hrd id r x priv pub s Hwf (or_introl Hrk) Hr Hid) as (_ & _ & _ & _ & A3 & _).
  intros j k0. rewrite A3. rewrite elem_of_list_fmap. split.
  - intros ([j1 k1] & E & Hin). cbn [fst snd] in E. destruct (k1 =? id) eqn:Ek.
    + injection E as -> ->. left. split; [done|]. replace id with k1 by lia. done.
    + injection E as -> ->. right. split; [lia|done].
  - intros [[-> Hin]|[Hne Hin]]; eexists; (split; [|exact Hin]); cbn [fst snd].
    + by rewrite Z.eqb_refl.
    + destruct (k0 =? id) eqn:Ek; [lia|done].
Qed.
(** But the new job waits for nobody: a job deleted while it waited for another one, then resubmitted, is free to start
    although the one it required is still waiting. *)
Theorem C118_own_dependencies_refuted : exists s n s', wf (rq s) /\ (2, 1) ∈ deps (rq s) /\ states_of s 1 = ["Waiting"%string] /\
  resubmit ids ids ids "bob" 2 s = Ok (0, n, s') /\ states_of s' 1 = ["Waiting"%string] /\ states_of s' n = ["Waiting"%string] /\
  forall k, (n, k) ∉ deps (rq s').
Proof.
  destruct (ex_resubmit "NO" "bob" ltac:(by left)) as (s' & E & D1 & _ & D3 & D4 & _ & _).
  exists (ex_sys "NO"), 4, s'. split; [apply ex_wf|]. split; [left|]. split; [reflexivity|]. split; [exact E|]. split; [done|]. split; [done|].
  intros k. rewrite D1. rewrite !elem_of_cons. intros [H|[H|H]]; [by injection H|by injection H|by apply elem_of_nil in H].
Qed.
Theorem C118_own_dependencies : forall rm rg rd u id s n s' k, (forall l, rm l ≡ₚ l) -> (forall l, rg l ≡ₚ l) -> (forall l, rd l ≡ₚ l) ->
  wf (rq s) -> ranked (rq s) -> (forall e, e ∈ deps (rq s) -> fst e < nj (rq s)) ->
  resubmit rm rg rd u id s = Ok (0, n, s') -> (n, k) ∉ deps (rq s').
Proof.
  intros rm rg rd u id s n s' k Hrm Hrg Hrd Hwf Hrk Hd H Hin.
  apply (C118_dependants rm rg rd u id s n s' Hrm Hrg Hrd Hwf Hrk H) in Hin.
  apply resubmit_ok in H as (_ & _ & _ & _ & _ & _ & _ & _ & -> & _).
  destruct Hin as [[_ Hin]|[_ Hin]]; specialize (Hd _ Hin); cbn in Hd; lia.
Qed.

(** ** C119: accounting of the new job *)
Lemma resubmit_ext rm rg rd u id s n s' : resubmit rm rg rd u id s = Ok (0, n, s') ->
  exists r x, job_of s id = Some (r, x) /\ exts s' = exts s ++ [copy_ext id n x] /\ n = nj (rq s).
Proof.
  intros H. apply resubmit_ok in H as (r & x & k & priv & pub & Hj & _ & _ & -> & ->). exists r, x. done.
Qed.
(** Whatever it does, a job resubmitted after the first one was accounted is never accounted: the mark is copied.
    The accounting table stays as it is, for any run of the new job. *)
Theorem C119_never_accounted : forall rm rg rd u id s n s' r x, resubmit rm rg rd u id s = Ok (0, n, s') ->
  job_of s id = Some (r, x) -> x_acc x = "YES"%string ->
  exists x', x' ∈ exts s' /\ x_job x' = n /\
  forall order w db, AcctModel.t_jobs db <> [] ->
    (forall j, j ∈ AcctModel.t_jobs db -> AcctModel.aj_id j = n /\ AcctModel.aj_accounted j = x_acc x') ->
    (forall l, order l ≡ₚ l) -> AcctModel.check_accounting_update order w db = Ok db.
Proof.
  intros rm rg rd u id s n s' r x H Hj Hacc. apply resubmit_ext in H as (r' & x0 & Hj' & He & ->).
  rewrite Hj in Hj'. injection Hj' as <- <-. exists (copy_ext id (nj (rq s)) x). rewrite He. split; [apply elem_of_app; right; left|]. split; [done|].
  intros order w db _ Hall Ho. unfold AcctModel.check_accounting_update.
  assert (Hs : AcctModel.selected db = []).
  { unfold AcctModel.selected. rewrite filter_none; [done|]. intros j Hin (H1 & _). destruct (Hall j Hin) as [_ H2].
    rewrite H1 in H2. cbn [copy_ext x_acc] in H2. rewrite Hacc in H2. done. }
  rewrite Hs. assert (order [] = []) as -> by (apply Permutation_nil; symmetry; apply Ho). cbn [AcctModel.treat rbind]. by destruct db.
Qed.
Theorem C119_accounted_refuted : exists s n s' r x, resubmit ids ids ids "bob" 2 s = Ok (0, n, s') /\ job_of s 2 = Some (r, x) /\ x_acc x = "YES"%string.
Proof.
  destruct (ex_resubmit "YES" "bob" ltac:(by left)) as (s' & E & _). exists (ex_sys "YES"), 4, s'. eexists _, _. split; [exact E|]. split; reflexivity.
Qed.
Theorem C119_not_yet_accounted_partial : forall rm rg rd u id s n s' r x, resubmit rm rg rd u id s = Ok (0, n, s') ->
  job_of s id = Some (r, x) -> x_acc x = "NO"%string -> exists x', exts s' = exts s ++ [x'] /\ x_job x' = n /\ x_acc x' = "NO"%string.
Proof.
  intros rm rg rd u id s n s' r x H Hj Hacc. apply resubmit_ext in H as (r' & x0 & Hj' & He & ->).
  rewrite Hj in Hj'. injection Hj' as <- <-. exists (copy_ext id (nj (rq s)) x). done.
Qed.

(** ** C120: who may resubmit *)
(** A refusal changes nothing; a resubmission is made exactly for a passive job that is over, for its owner or an
    administrator, when no current job of anyone else than the caller has its key. *)
Theorem C120_refused : forall rm rg rd u id s c n s', resubmit rm rg rd u id s = Ok (c, n, s') -> c <> 0 -> n = 0 /\ s' = s.
Proof.
  intros rm rg rd u id s c n s'. unfold resubmit. destruct (job_of s id) as [[r x]|]; [|by intros [= <- <- <-]].
  repeat (match goal with |- (if ?b then _ else _) = _ -> _ => destruct b; [by intros [= <- <- <-]|] end).
  destruct (base.filter _ _) as [|[[k priv] pub] [|]]; try done.
  match goal with |- (if ?b then _ else _) = _ -> _ => destruct b; [by intros [= <- <- <-]|] end.
  cbv zeta. intros H Hc. injection H as H _ _. congruence.
Qed.
Theorem C120_allowed : forall rm rg rd u id s, (exists n s', resubmit rm rg rd u id s = Ok (0, n, s')) <->
  exists r x k priv pub, job_of s id = Some (r, x) /\ base.filter (fun k => fst (fst k) = id) (keys s) = [(k, priv, pub)] /\
    x_type x = "PASSIVE"%string /\ jstate r ∈ over /\ (u = x_user x \/ u = "oar"%string \/ u = "root"%string) /\
    ~ key_used_by_other s u priv pub.
Proof.
  intros rm rg rd u id s. split.
  - intros (n & s' & H). apply resubmit_ok in H as (r & x & k & priv & pub & H1 & H2 & H3 & _). exists r, x, k, priv, pub. done.
  - intros (r & x & k & priv & pub & H1 & H2 & H3 & H4 & H5 & H6). unfold resubmit. rewrite H1.
    rewrite bool_decide_eq_true_2 by done. cbn [negb].
    match goal with |- context [if ?b then Ok (-2, 0, s) else _] => assert (b = false) as -> end.
    { unfold over in H4. apply elem_of_cons in H4 as [->|H4]; [done|]. apply elem_of_cons in H4 as [->|H4]; [done|].
      apply elem_of_list_singleton in H4 as ->. done. }
    match goal with |- context [if ?b then Ok (-3, 0, s) else _] => assert (b = false) as -> end.
    { destruct H5 as [->|[->| ->]]; [by rewrite bool_decide_eq_true_2|apply andb_false_r|apply andb_false_r]. }
    rewrite H2. match goal with |- context [if ?b then Ok (-4, 0, s) else _] => assert (b = false) as -> end; [|eauto].
    apply andb_false_iff. right. apply Nat.ltb_ge. destruct (same_keys s u priv pub) eqn:E; [done|]. exfalso. apply H6, same_keys_pos. rewrite E. lia.
Qed.
(** When the server resubmits a job by itself (as "oar"), "anyone else" includes the owner of the job: a job that shares
    its key with another current job of the same user is not resubmitted. *)
Definition key_sys : sys :=
  mkSys (mkDb [mkJob 1 "Error" 1 1 "a" None "None"; mkJob 2 "Running" 2 1 "b" None "None"] [mkMld 1 1 60; mkMld 2 2 60] [mkGrp 1 1 ""; mkGrp 2 2 ""]
           [mkDesc 1 "nodes" 1 0; mkDesc 2 "nodes" 1 0] [] [] [] 3 3 3)
    [mkExt 1 "bob" "PASSIVE" 0 10 20 "NO" "NO" 1 None 0 "" "" ""; mkExt 2 "bob" "PASSIVE" 0 10 0 "NO" "NO" 2 None 0 "" "" ""]
    [(1, "priv"%string, "pub"%string); (2, "priv"%string, "pub"%string)] [] [] [] [] [].
Theorem C120_own_key_refuted : exists s, (forall x, x ∈ exts s -> x_user x = "bob"%string) /\
  is_ok (resubmit ids ids ids "bob" 1 s) = true /\ (exists n s', resubmit ids ids ids "bob" 1 s = Ok (0, n, s')) /\
  resubmit ids ids ids "oar" 1 s = Ok (-4, 0, s).
Proof.
  exists key_sys. split; [|split; [reflexivity|split; [eexists _, _; cbv -[after]; reflexivity|reflexivity]]].
  intros x Hx. cbn [exts key_sys] in Hx. apply elem_of_cons in Hx as [->|Hx]; [done|]. by apply elem_of_list_singleton in Hx as ->.
Qed.
Print Assumptions C117_same_request.
Print Assumptions C117_same_order.
Print Assumptions C117_read_back_partial.
Print Assumptions C117_walltime_refuted.
Print Assumptions C118_dependants.
Print Assumptions C118_own_dependencies_refuted.
Print Assumptions C118_own_dependencies.
Print Assumptions C119_never_accounted.
Print Assumptions C119_accounted_refuted.
Print Assumptions C119_not_yet_accounted_partial.
Print Assumptions C120_refused.
Print Assumptions C120_allowed.
Print Assumptions C120_own_key_refuted.
Print Assumptions C117_example.
