(** Submissions: properties C101 to C107. *)
From Verif Require Import Base HierarchyModel SubmitModel SubmitSpec SubmitProofs SubmitRead.

(** ** The invariant of histories *)
Definition blockl (l : list mldrow) (j : Z) : Prop :=
  exists pre ch post, l = pre ++ ch ++ post /\ (forall m, m ∈ ch -> mjob m = j) /\
    (forall m, m ∈ pre -> mjob m <> j) /\ (forall m, m ∈ post -> mjob m <> j).
Lemma blockl_none (l : list mldrow) j : (forall m, m ∈ l -> mjob m <> j) -> blockl l j.
Proof.
  intros H. exists l, [], []. split; [by rewrite app_nil_r|]. split; [intros m Hm; by apply elem_of_nil in Hm|].
  split; [done|]. intros m Hm. by apply elem_of_nil in Hm.
Qed.
Lemma blockl_same (l : list mldrow) k : (forall m, m ∈ l -> mjob m = k) -> forall j, blockl l j.
Proof.
  intros H j. destruct (decide (j = k)) as [->|Hne].
  - exists [], l, []. split; [by rewrite app_nil_r|]. split; [done|]. split; intros m Hm; by apply elem_of_nil in Hm.
  - apply blockl_none. intros m Hm. rewrite (H m Hm). congruence.
Qed.
Lemma blockl_nodup (l : list mldrow) : NoDup (map mjob l) -> forall j, blockl l j.
Proof.
  intros Hnd j. destruct (decide (j ∈ map mjob l)) as [Hj|Hj].
  - apply elem_of_list_fmap in Hj as (m & -> & Hm). apply elem_of_list_split in Hm as (l1 & l2 & ->).
    exists l1, [m], l2. split; [done|]. split; [by intros m' ->%elem_of_list_singleton|].
    change (map mjob (l1 ++ m :: l2)) with (mjob <$> (l1 ++ m :: l2)) in Hnd. rewrite fmap_app, fmap_cons in Hnd.
    apply NoDup_app in Hnd as (_ & H1 & H2). apply NoDup_cons in H2 as [H2 _]. split.
    + intros m' Hm' He. apply (H1 (mjob m')); [apply elem_of_list_fmap; eauto|]. rewrite He. left.
    + intros m' Hm' He. apply H2. rewrite <- He. apply elem_of_list_fmap. eauto.
  - apply blockl_none. intros m Hm He. apply Hj. rewrite <- He. apply elem_of_list_fmap. eauto.
Qed.
Lemma blockl_app (l k : list mldrow) b : (forall m, m ∈ l -> mjob m < b) -> (forall m, m ∈ k -> b <= mjob m) ->
  (forall j, blockl l j) -> (forall j, blockl k j) -> forall j, blockl (l ++ k) j.
Proof.
  intros Hl Hk Bl Bk j. destruct (Z.lt_ge_cases j b) as [Hj|Hj].
  - destruct (Bl j) as (pre & ch & post & -> & H1 & H2 & H3). exists pre, ch, (post ++ k).
    split; [by rewrite <- !app_assoc|]. split; [done|]. split; [done|].
    intros m [Hm|Hm]%elem_of_app; [by apply H3|]. specialize (Hk m Hm). lia.
  - destruct (Bk j) as (pre & ch & post & -> & H1 & H2 & H3). exists (l ++ pre), ch, post.
    split; [by rewrite <- !app_assoc|]. split; [done|]. split; [|done].
    intros m [Hm|Hm]%elem_of_app; [|by apply H2]. specialize (Hl m Hm). lia.
Qed.

(** What the database says of a job is what was asked. *)
Definition written (dw : Z) (req : list smold) (l : list (Z * Z * list sgroup)) : Prop :=
  Forall2 (fun m x => snd (fst x) = walltime_of dw (snd m) /\ snd x = fst m) req l.
Lemma written_full dw (req : list smold) l : Forall (fun m => fst m <> [] /\ Forall (fun g => snd g <> []) (fst m)) req ->
  written dw req l -> Forall (fun m => snd m <> [] /\ Forall (fun g => snd g <> []) (snd m)) l.
Proof.
  intros Hp Hw. induction Hw as [|m x req' l' [_ Hx] Hw IH]; [constructor|].
  apply Forall_cons in Hp as [Hp1 Hp2]. constructor; [|by apply IH]. destruct x as [x1 x2]. cbn [snd] in Hx. subst x2. exact Hp1.
Qed.
Lemma written_described dw req d j : proper req -> written dw req (moldables_of d j) -> described d j.
Proof.
  intros [Hne Hp] Hw. split.
  - intros E. rewrite E in Hw. inversion Hw. subst. done.
  - by eapply written_full.
Qed.
Record inv (dw : Z) (d : db) (asks : list ask) : Prop := mkInv {
  i_wf : wf d;
  i_job : forall m, m ∈ mlds d -> mjob m ∈ map jid (jobs d);
  i_block : forall j, blockl (mlds d) j;
  i_wait : forall r, r ∈ jobs d -> jstate r = "Waiting"%string -> described d (jid r);
  i_state : forall r, r ∈ jobs d -> jstate r = "Hold"%string \/ jstate r = "Waiting"%string;
  i_ask : forall a, a ∈ asks -> exists r, r ∈ jobs d /\ jid r = a_job a /\ jprops r = a_props a /\
            written dw (a_req a) (moldables_of d (a_job a)) /\ proper (a_req a) }.

Lemma inv_empty dw : inv dw empty_db [].
Proof.
  assert (N : forall A (x : A), x ∉ []) by (intros A x; apply not_elem_of_nil).
  split.
  - split; cbn; try (intros x Hx; by apply N in Hx); try apply ascending_nil. lia.
  - intros m Hm. by apply N in Hm.
  - intros j. apply blockl_none. intros m Hm. by apply N in Hm.
  - intros r Hr. by apply N in Hr.
  - intros r Hr. by apply N in Hr.
  - intros a Ha. by apply N in Ha.
Qed.
(** The effect of adding jobs whose identifiers start at [nj d]. *)
Lemma inv_grow dw d d' asks new newm : inv dw d asks -> wf d' -> jobs d' = jobs d ++ new ->
  (forall r, r ∈ new -> nj d <= jid r) -> mlds d' = mlds d ++ newm ->
  (forall m, m ∈ newm -> mjob m ∈ map jid new) -> (forall j, blockl newm j) ->
  (forall j, j < nj d -> moldables_of d' j = moldables_of d j) ->
  (forall r, r ∈ new -> jstate r = "Waiting"%string -> described d' (jid r)) ->
  (forall r, r ∈ new -> jstate r = "Hold"%string \/ jstate r = "Waiting"%string) ->
  inv dw d' asks.
Proof.
  intros [] Hwf Hj Hnew Hm Hmj Hb Hold Hw Hst.
  assert (Hlt : forall r, r ∈ jobs d -> jid r < nj d) by (intros r Hr; apply (wf_jb d i_wf0 r Hr)).
  split; [done| | | | |].
  - intros m. rewrite Hm, Hj, map_app. rewrite !elem_of_app. intros [?|?]; [left; by apply i_job0|right; by apply Hmj].
  - intros j. rewrite Hm. apply (blockl_app _ _ (nj d)); [|  |done|done].
    + intros m Hin. apply (wf_mb d i_wf0 m Hin).
    + intros m Hin. apply Hmj in Hin. apply elem_of_list_fmap in Hin as (r & -> & Hr). by apply Hnew.
  - intros r. rewrite Hj, elem_of_app. intros [Hr|Hr] Hs; [|by apply Hw].
    specialize (i_wait0 r Hr Hs). unfold described in *. rewrite Hold by by apply Hlt. done.
  - intros r. rewrite Hj, elem_of_app. intros [Hr|Hr]; [by apply i_state0|by apply Hst].
  - intros a Ha. destruct (i_ask0 a Ha) as (r & Hr & H1 & H2 & H3 & H4). exists r. rewrite Hj, elem_of_app.
    split; [by left|]. split; [done|]. split; [done|]. rewrite Hold; [done|]. rewrite <- H1. by apply Hlt.
Qed.

Section histories.
  Variable dw : Z.
  Variable ro : list Z -> list Z.
  Hypothesis Hro : forall l, ro l = l.

  Lemma inv_added d d' asks row req : inv dw d asks -> wf d' -> jid row = nj d -> proper req ->
    jstate row = "Hold"%string \/ jstate row = "Waiting"%string -> added dw d d' row req -> inv dw d' asks /\ written dw req (moldables_of d' (jid row)).
  Proof.
    intros Hi Hwf Hrow Hp Hst (A1 & A2 & A3 & A4). split; [|exact A2].
    eapply (inv_grow dw d d' asks [row]); [done|done|exact A1| |exact A4| | | | |].
    - intros r ->%elem_of_list_singleton. lia.
    - intros m Hm. apply new_mlds_elem in Hm as [_ Hm]. apply elem_of_list_fmap in Hm as (x & [= -> _] & _). left.
    - intros j. apply (blockl_same _ (jid row)). intros m Hm. apply new_mlds_elem in Hm as [_ Hm].
      apply elem_of_list_fmap in Hm as (x & [= -> _] & _). done.
    - intros j Hj. apply A3. lia.
    - intros r ->%elem_of_list_singleton _. by eapply written_described.
    - by intros r ->%elem_of_list_singleton.
  Qed.
  Lemma new_mlds_jobs w : forall l a, map mjob (new_mlds a ((fun j => (j, w)) <$> l)) = l.
  Proof.
    induction l as [|j l IH]; intros a; [done|]. rewrite fmap_cons. unfold new_mlds. rewrite zip_seq_cons. cbn [map mjob]. f_equal. apply IH.
  Qed.
  Lemma inv_array_added p st gs w cmds d d' asks : inv dw d asks -> wf d' -> proper [(gs, w)] ->
    st = "Hold"%string \/ st = "Waiting"%string -> array_added dw p st gs w cmds d d' ->
    inv dw d' asks /\ (forall j, nj d <= j < nj d + Z.of_nat (length cmds) -> written dw [(gs, w)] (moldables_of d' j)).
  Proof.
    intros Hi Hwf Hp Hst (A1 & A2 & A3 & A4).
    assert (Hw : forall j, nj d <= j < nj d + Z.of_nat (length cmds) -> written dw [(gs, w)] (moldables_of d' j)).
    { intros j Hj. rewrite A2 by done. constructor; [done|constructor]. }
    split; [|done].
    eapply (inv_grow dw d d' asks); [done|done|exact A1| |exact A4| | | | |].
    - intros r Hr. apply array_rows_elem in Hr as (? & _ & _). lia.
    - intros m Hm. apply new_mlds_elem in Hm as [_ Hm]. apply elem_of_list_fmap in Hm as (x & [= -> _] & Hx).
      change (x ∈ jid <$> array_rows p st (nj d) cmds). by rewrite array_rows_jid.
    - apply blockl_nodup. rewrite new_mlds_jobs. apply NoDup_seqZ.
    - done.
    - intros r Hr _. apply array_rows_elem in Hr as (Hr & _ & _). eapply written_described; [exact Hp|]. by apply Hw.
    - intros r Hr. apply array_rows_elem in Hr as (_ & _ & ->). done.
  Qed.

  Lemma history_inv d asks : history dw ro d asks -> inv dw d asks.
  Proof.
    assert (Happ : forall d asks more, inv dw d asks -> (forall a, a ∈ more -> exists r, r ∈ jobs d /\ jid r = a_job a /\ jprops r = a_props a /\
            written dw (a_req a) (moldables_of d (a_job a)) /\ proper (a_req a)) -> inv dw d (asks ++ more)).
    { intros d0 asks0 more [] Hm. split; try done. intros a [Ha|Ha]%elem_of_app; [by apply i_ask0|by apply Hm]. }
    induction 1 as [|d asks p array_id index cmd t j Hh IH Hp Ha E|d asks p gs w cmds t js Hh IH Hreq Hp E
                    |d asks p array_id index cmd t j d' Hh IH Hp Ha E Hd'|d asks p gs w cmds t js d' Hh IH Hreq Hp E Hd'].
    - apply inv_empty.
    - destruct (add_subjob_spec dw ro Hro p array_id index cmd d (i_wf _ _ _ IH) Ha) as (t' & E' & _ & (d' & Hl & W & A) & _).
      rewrite E in E'. injection E' as <- ->. rewrite Hl. cbn [default from_option id].
      eapply inv_added in A as [A1 A2]; [|exact IH|done|done|done|cbn; destruct (p_hold p); tauto]. apply Happ; [done|].
      intros a ->%elem_of_list_singleton. cbn [a_job a_props a_req]. destruct (add_subjob_spec dw ro Hro p array_id index cmd d (i_wf _ _ _ IH) Ha) as (t' & E' & _ & (d'' & Hl' & W' & B) & _).
      rewrite E in E'. injection E' as <-. rewrite Hl in Hl'. injection Hl' as <-. destruct B as (B1 & _).
      eexists. rewrite B1. split; [apply elem_of_app; right; left|]. done.
    - rewrite Hreq in Hp |- *. assert (Hc : cmds <> []) by (intros ->; done).
      destruct (add_array_spec dw ro Hro p gs w cmds d (i_wf _ _ _ IH) Hc) as (t' & E' & _ & (d' & Hl & W & A) & _).
      rewrite E in E'. injection E' as <- ->. rewrite Hl. cbn [default from_option id].
      pose proof A as (A0 & _). eapply inv_array_added in A as [A1 A2]; [|exact IH|done|done|destruct (p_hold p); tauto]. apply Happ; [done|].
      intros a Hin. apply elem_of_list_fmap in Hin as (j & -> & Hj). cbn [a_job a_props a_req]. pose proof Hj as Hj'. apply elem_of_seqZ in Hj'.
      rewrite <- (array_rows_jid p (if p_hold p then "Hold" else "Waiting")%string) in Hj. apply elem_of_list_fmap in Hj as (r & -> & Hr).
      exists r. rewrite A0. split; [apply elem_of_app; by right|]. split; [done|]. split; [|split; [by apply A2|done]].
      apply zip_seq_elem in Hr as (i & c & _ & -> & _). done.
    - destruct (add_subjob_spec dw ro Hro p array_id index cmd d (i_wf _ _ _ IH) Ha) as (t' & E' & _ & _ & Hall).
      rewrite E in E'. injection E' as <- ->. destruct (Hall d' Hd') as [W [A|[A|(_ & J & M & Hold)]]].
      + eapply inv_added in A as [A _]; [done|done|done|done|done|tauto].
      + eapply inv_added in A as [A _]; [done|done|done|done|done|tauto].
      + eapply (inv_grow dw d d' asks _ []); [done|done|exact J| |by rewrite app_nil_r| | |done| |].
        * intros r ->%elem_of_list_singleton. done.
        * intros m Hm. by apply elem_of_nil in Hm.
        * intros j. apply blockl_none. intros m Hm. by apply elem_of_nil in Hm.
        * intros r ->%elem_of_list_singleton. done.
        * intros r ->%elem_of_list_singleton. tauto.
    - rewrite Hreq in Hp. assert (Hc : cmds <> []) by (intros ->; done).
      destruct (add_array_spec dw ro Hro p gs w cmds d (i_wf _ _ _ IH) Hc) as (t' & E' & _ & _ & Hall).
      rewrite E in E'. injection E' as <- ->. destruct (Hall d' Hd') as [W [A|[A|(n & Hn & J & Hold & M)]]].
      + eapply inv_array_added in A as [A _]; [done|done|done|done|tauto].
      + eapply inv_array_added in A as [A _]; [done|done|done|done|tauto].
      + assert (Htk : forall r, r ∈ take n (array_rows p "Hold" (nj d) cmds) -> nj d <= jid r /\ jstate r = "Hold"%string).
        { intros r Hr. apply elem_of_take in Hr as (i & Hi & _). apply elem_of_list_lookup_2, array_rows_elem in Hi as (? & _ & ?). split; [lia|done]. }
        destruct M as [M|[-> M]].
        * eapply (inv_grow dw d d' asks _ []); [done|done|exact J| |by rewrite app_nil_r| | |done| |].
          -- intros r Hr. by apply Htk.
          -- intros m Hm. by apply elem_of_nil in Hm.
          -- intros j. apply blockl_none. intros m Hm. by apply elem_of_nil in Hm.
          -- intros r Hr. apply Htk in Hr as [_ ->]. done.
          -- intros r Hr. apply Htk in Hr as [_ ->]. tauto.
        * eapply (inv_grow dw d d' asks); [done|done|exact J| |exact M| | |done| |].
          -- intros r Hr. by apply Htk.
          -- intros m Hm. apply new_mlds_elem in Hm as [_ Hm]. apply elem_of_list_fmap in Hm as (x & [= -> _] & Hx).
             rewrite take_ge by (unfold array_rows; rewrite zip_with_length, seqZ_length; lia).
             change (x ∈ jid <$> array_rows p "Hold" (nj d) cmds). by rewrite array_rows_jid.
          -- apply blockl_nodup. rewrite new_mlds_jobs. apply NoDup_seqZ.
          -- intros r Hr. apply Htk in Hr as [_ ->]. done.
          -- intros r Hr. apply Htk in Hr as [_ ->]. tauto.
  Qed.
End histories.

(** ** C101: what is asked is what the scheduler reads *)
Lemma says_of_written dw sec be cons props req x l : written dw req x ->
  l = map (to_mrqt cons sec be props) x \/ l = on_last again (map (to_mrqt cons sec be props) x) ->
  Forall (fun m => fst m <> []) req -> says dw sec be cons props req l.
Proof.
  intros Hw Hl Hne. unfold says. revert l Hl Hne. induction Hw as [|m y req x [H1 H2] Hw IH]; intros l Hl Hne.
  - destruct Hl as [->| ->]; constructor.
  - apply Forall_cons in Hne as [Hn Hne].
    assert (Hhead : snd (fst (to_mrqt cons sec be props y)) = fst (meant dw sec be cons props m) /\
              snd (to_mrqt cons sec be props y) = snd (meant dw sec be cons props m)).
    { unfold to_mrqt, meant. cbn [fst snd]. rewrite H1, H2. split; [|done]. unfold dur, walltime_of. done. }
    destruct Hhead as [Hh1 Hh2]. destruct Hl as [->| ->].
    + cbn [map]. constructor; [split; [done|]; left; done|]. apply IH; [by left|done].
    + cbn [map]. destruct x as [|y' x].
      * inversion Hw; subst. cbn [map on_last]. constructor; [|constructor]. split; [exact Hh1|]. right.
        unfold again. cbn [fst snd]. rewrite Hh2. unfold meant. cbn [snd]. destruct (fst m) as [|g0 gs] eqn:Eg; [done|].
        destruct (last ((fun g => (snd g, cons props (fst g))) <$> (g0 :: gs))) as [z|] eqn:El; [eauto|].
        apply last_None in El. done.
      * cbn [map on_last]. constructor; [split; [done|]; left; done|]. apply IH; [|done]. right. done.
Qed.
(** After any history of submissions, complete or cut short at any commit, reading any set of jobs in state Waiting
    gives each of them exactly what it asked: provided the database gives identifiers back in the order of
    insertion. *)
Theorem C101_round_trip_partial : forall dw ro sec be cons d asks jids a,
  (forall l, ro l = l) -> history dw ro d asks -> a ∈ asks -> a_job a ∈ jids ->
  (forall j, j ∈ jids -> exists r, r ∈ jobs d /\ jid r = j /\ jstate r = "Waiting"%string) ->
  exists mp l, get_data cons sec be d jids = Ok mp /\ request_of mp (a_job a) = Ok l /\
    says dw sec be cons (a_props a) (a_req a) l.
Proof.
  intros dw ro sec be cons d asks jids a Hro Hh Ha Hj Hw. apply history_inv in Hh as []; [|done].
  destruct (i_ask0 a Ha) as (r & Hr & H1 & H2 & H3 & H4).
  destruct (read_back cons sec be d jids r) as (mp & l & E1 & E2 & E3); [done|done| |done|by rewrite H1|apply i_block0|].
  - intros j Hin. destruct (Hw j Hin) as (r' & Hr' & <- & Hs). by apply i_wait0.
  - rewrite H1 in E2, E3. rewrite H2 in E3. exists mp, l. split; [done|]. split; [done|].
    eapply says_of_written; [exact H3|exact E3|]. destruct H4 as [_ H4]. eapply Forall_impl; [exact H4|]. by intros m [? _].
Qed.
(** The repeated group changes nothing to the search. *)
Theorem C101_repeated_group : forall itvs hy gs gs', up_to_repeat gs gs' ->
  find_resource_hierarchies_job itvs gs' hy = find_resource_hierarchies_job itvs gs hy.
Proof.
  intros itvs hy gs gs' [->|(x & Hx & ->)]; [done|]. unfold find_resource_hierarchies_job. generalize (∅ : procset) as acc.
  induction gs as [|[l c] gs IH]; intros acc; [done|]. cbn [app find_job_loop].
  destruct (get_levels hy l) as [levels|e] eqn:E1; [|done]. cbn [rbind].
  destruct (find_scattered (c ∩ itvs) levels) as [r|e] eqn:E2; [|done]. cbn [rbind].
  destruct (nonempty r) eqn:E3; [|done]. destruct gs as [|g gs].
  - injection Hx as <-. cbn [app find_job_loop]. rewrite E1. cbn [rbind]. rewrite E2. cbn [rbind]. rewrite E3. f_equal. set_solver.
  - apply IH. done.
Qed.
(** Without that order of the identifiers the walltimes and the resources are mixed up. *)
Definition shape (l : list mrqt) : list (Z * list (list (string * Z))) := map (fun r : mrqt => (snd (fst r), map fst (snd r))) l.
Definition shape_of (d : db) (jids : list Z) (j : Z) : res (list (Z * list (list (string * Z)))) :=
  mp <-- get_data (fun _ _ => ∅) 0 0 d jids ;; l <-- request_of mp j ;; Ok (shape l).
Lemma shape_of_inv d jids j x : shape_of d jids j = Ok x ->
  exists mp l, get_data (fun _ _ => ∅) 0 0 d jids = Ok mp /\ request_of mp j = Ok l /\ shape l = x.
Proof.
  unfold shape_of. destruct (get_data _ _ _ _ _) as [mp|e]; [|done]. cbn [rbind]. destruct (request_of mp j) as [l|e] eqn:E; [|done].
  cbn [rbind]. intros [= <-]. eauto.
Qed.
Definition one_level (t : string) (n : Z) : sgroup := (EmptyString, [(t, n)]).
Definition short_or_long : list smold := [([one_level "nodes" 1], Some 60); ([one_level "nodes" 8], Some 10)].
Definition plain (req : list smold) : params := mkParams req None [] [] false false "default".
Definition db_of (r : res (list db * Z)) : db := default empty_db (last (fst (from_ok ([], 0) r))).
Theorem C101_order_of_rows_refuted : exists dw ro d asks a mp l,
  (forall x : list Z, ro x ≡ₚ x) /\ history dw ro d asks /\ a ∈ asks /\
  get_data (fun _ _ => ∅) 0 0 d [a_job a] = Ok mp /\ request_of mp (a_job a) = Ok l /\
  (* one node for 60 s or 8 nodes for 10 s: the scheduler looks for one node for 10 s or 8 nodes for 60 s *)
  a_req a = short_or_long /\ ~ says dw 0 0 (fun _ _ => ∅) (a_props a) (a_req a) l.
Proof.
  set (r := add_subjob 7200 (@reverse Z) (plain short_or_long) 0 1 "run" empty_db).
  assert (Er : exists t j, r = Ok (t, j)).
  { destruct r as [[t j]|e] eqn:E; [eauto|]. exfalso. assert (H : is_ok r = true) by (vm_compute; reflexivity). by rewrite E in H. }
  destruct Er as (t & j & Er).
  assert (Hj : j = 1) by (assert (H : snd (from_ok ([], 0) r) = 1) by (vm_compute; reflexivity); by rewrite Er in H). subst j.
  assert (Hd : db_of r = default empty_db (last t)) by (unfold db_of; by rewrite Er).
  assert (Hs : shape_of (db_of r) [1] 1 = Ok [(60, [[("nodes"%string, 8)]]); (10, [[("nodes"%string, 1)]])]) by (vm_compute; reflexivity).
  apply shape_of_inv in Hs as (mp & l & E1 & E2 & E3). rewrite Hd in E1.
  exists 7200, (@reverse Z), (default empty_db (last t)), ([] ++ [mkAsk 1 None short_or_long]), (mkAsk 1 None short_or_long), mp, l.
  split; [intros x; apply reverse_Permutation|]. split.
  { apply (h_job 7200 reverse empty_db [] (plain short_or_long) 0 1 "run" t 1); [constructor| |done|exact Er].
    split; [done|]. repeat constructor; done. }
  split; [apply elem_of_app; right; left|]. split; [exact E1|]. split; [exact E2|]. split; [done|].
  intros H. unfold says in H. cbn [a_req short_or_long] in H. destruct l as [|r1 l]; [done|].
  apply Forall2_cons in H as [[H1 H2] _]. cbn [shape map] in E3. injection E3 as E3 E3' E3''.
  unfold meant in H2. cbn [fst snd] in H2. destruct r1 as [r11 gs1]. cbn [fst snd] in *.
  assert (Hin : [("nodes"%string, 1)] ∈ map fst gs1).
  { destruct H2 as [->|(x & _ & ->)]; cbn; left. }
  rewrite E3' in Hin. apply elem_of_list_singleton in Hin. done.
Qed.
(** With the order of insertion the same request is read as it was asked. *)
Example C101_example : shape_of (db_of (add_subjob 7200 (fun l => l) (plain short_or_long) 0 1 "run" empty_db)) [1] 1
  = Ok [(60, [[("nodes"%string, 1)]]); (10, [[("nodes"%string, 8)]])].
Proof. vm_compute. reflexivity. Qed.
(** Two submissions at the same time: the rows of the two jobs alternate (both fully described): one instance of the
    first job is lost. *)
Definition alternate : db :=
  mkDb [mkJob 1 "Waiting" 1 1 "a" None "None"; mkJob 2 "Waiting" 2 1 "b" None "None"]
       [mkMld 1 1 60; mkMld 2 2 60; mkMld 3 1 10; mkMld 4 2 10]
       [mkGrp 1 1 ""; mkGrp 2 2 ""; mkGrp 3 3 ""; mkGrp 4 4 ""]
       [mkDesc 1 "nodes" 1 0; mkDesc 2 "nodes" 2 0; mkDesc 3 "nodes" 8 0; mkDesc 4 "nodes" 9 0] [] [] [] 3 5 5.
Theorem C101_concurrent_refuted : exists d mp l,
  moldables_of d 1 = [(1, 60, [one_level "nodes" 1]); (3, 10, [one_level "nodes" 8])] /\
  moldables_of d 2 = [(2, 60, [one_level "nodes" 2]); (4, 10, [one_level "nodes" 9])] /\
  get_data (fun _ _ => ∅) 0 0 d [1; 2] = Ok mp /\ request_of mp 1 = Ok l /\ length l = 1%nat.
Proof.
  assert (Hs : shape_of alternate [1; 2] 1 = Ok [(10, [[("nodes"%string, 8)]; [("nodes"%string, 8)]])]) by (vm_compute; reflexivity).
  apply shape_of_inv in Hs as (mp & l & E1 & E2 & E3). exists alternate, mp, l.
  split; [vm_compute; reflexivity|]. split; [vm_compute; reflexivity|]. split; [exact E1|]. split; [exact E2|].
  unfold shape in E3. apply (f_equal length) in E3. rewrite map_length in E3. exact E3.
Qed.

(** ** C102: at every commit a job in state Waiting is fully described *)
Theorem C102_waiting_described_partial : forall dw ro d asks r, (forall l, ro l = l) -> history dw ro d asks ->
  r ∈ jobs d -> jstate r = "Waiting"%string -> described d (jid r).
Proof. intros dw ro d asks r Hro Hh. apply (history_inv dw ro Hro) in Hh as []. apply i_wait0. Qed.
(** And every job ever inserted is Waiting or Hold. *)
Definition array_of (n : Z) : params := mkParams [([one_level "nodes" n], None)] None ["besteffort"%string] [] false true "default".
Example C102_example :
  exists d asks, history 7200 (fun l => l) d asks /\ (jstate <$> jobs d) = ["Waiting"; "Waiting"; "Hold"]%string.
Proof.
  set (r := add_array 7200 (fun l => l) (array_of 4) [one_level "nodes" 4] None ["x"; "y"]%string empty_db).
  assert (Er : exists t j, r = Ok (t, j)).
  { destruct r as [[t j]|e] eqn:E; [eauto|]. exfalso. assert (H : is_ok r = true) by (vm_compute; reflexivity). by rewrite E in H. }
  destruct Er as (t & js & Er).
  set (d1 := default empty_db (last t)).
  assert (Hd1 : d1 = default empty_db (last (fst (from_ok ([], []) r)))) by (unfold d1; by rewrite Er).
  set (r2 := add_subjob 7200 (fun l => l) (plain short_or_long) 0 1 "run" d1).
  assert (E2 : exists t j, r2 = Ok (t, j)).
  { destruct r2 as [[t2 j]|e] eqn:E; [eauto|]. exfalso. assert (H : is_ok r2 = true) by (unfold r2; rewrite Hd1; vm_compute; reflexivity). by rewrite E in H. }
  destruct E2 as (t2 & j & E2).
  assert (Hh : exists d', d' ∈ t2 /\ (jstate <$> jobs d') = ["Waiting"; "Waiting"; "Hold"]%string).
  { assert (H : jstate <$> (jobs (default empty_db (head (fst (from_ok ([], 0) r2))))) = ["Waiting"; "Waiting"; "Hold"]%string)
      by (unfold r2; rewrite Hd1; vm_compute; reflexivity).
    rewrite E2 in H. cbn [from_ok fst] in H. destruct t2 as [|d2 t2]; [done|]. exists d2. split; [left|exact H]. }
  destruct Hh as (d' & Hin & Hst). exists d', ([] ++ ((fun j => mkAsk j None (p_req (array_of 4))) <$> js)). split; [|exact Hst].
  apply (h_job_dies 7200 (fun l => l) d1 _ (plain short_or_long) 0 1 "run" t2 j d'); [| | |exact E2|exact Hin].
  - apply (h_array 7200 (fun l => l) empty_db [] (array_of 4) [one_level "nodes" 4] None ["x"; "y"]%string t js); [constructor|done| |exact Er].
    split; [done|]. repeat constructor; done.
  - split; [done|]. repeat constructor; done.
  - rewrite Hd1. vm_compute. reflexivity.
Qed.

(** ** C103: a submission cut short leaves nothing behind: refuted *)
Definition undescribed (d : db) (j : Z) : Prop := moldables_of d j = [].
Theorem C103_half_job_refuted : exists dw p cmd t j d' r, add_subjob dw (fun l => l) p 0 1 cmd empty_db = Ok (t, j) /\
  proper (p_req p) /\ d' ∈ t /\ r ∈ jobs d' /\ jid r = j /\ jstate r = "Hold"%string /\ undescribed d' j.
Proof.
  set (r := add_subjob 7200 (fun l => l) (plain short_or_long) 0 1 "run" empty_db).
  assert (Er : exists t j, r = Ok (t, j)).
  { destruct r as [[t j]|e] eqn:E; [eauto|]. exfalso. assert (H : is_ok r = true) by (vm_compute; reflexivity). by rewrite E in H. }
  destruct Er as (t & j & Er).
  assert (H : exists d', head t = Some d' /\ jobs d' = [mkJob 1 "Hold" 1 1 "run" None "None"] /\ moldables_of d' 1 = []).
  { assert (H1 : jobs (default alternate (head (fst (from_ok ([], 0) r)))) = [mkJob 1 "Hold" 1 1 "run" None "None"]) by (vm_compute; reflexivity).
    assert (H2 : moldables_of (default alternate (head (fst (from_ok ([], 0) r)))) 1 = []) by (vm_compute; reflexivity).
    rewrite Er in H1, H2. cbn [from_ok fst] in H1, H2. destruct t as [|d' t]; [done|]. exists d'. done. }
  assert (Hj : j = 1) by (assert (H' : snd (from_ok ([], 0) r) = 1) by (vm_compute; reflexivity); by rewrite Er in H'). subst j.
  destruct H as (d' & Hh & Hjobs & Hm). destruct t as [|d0 t]; [done|]. injection Hh as ->.
  exists 7200, (plain short_or_long), "run"%string, (d' :: t), 1, d', (mkJob 1 "Hold" 1 1 "run" None "None").
  split; [exact Er|]. split; [split; [done|repeat constructor; done]|]. split; [left|]. rewrite Hjobs. split; [left|]. done.
Qed.
(** The history of the states says Waiting while the job is in Hold, for ever if the process dies there. *)
Theorem C103_log_refuted : exists dw p cmd t j d' r, add_subjob dw (fun l => l) p 0 1 cmd empty_db = Ok (t, j) /\
  d' ∈ t /\ r ∈ jobs d' /\ jid r = j /\ jstate r = "Hold"%string /\ last (logs d') = Some (j, "Waiting"%string).
Proof.
  set (r := add_subjob 7200 (fun l => l) (plain short_or_long) 0 1 "run" empty_db).
  assert (Er : exists t j, r = Ok (t, j)).
  { destruct r as [[t j]|e] eqn:E; [eauto|]. exfalso. assert (H : is_ok r = true) by (vm_compute; reflexivity). by rewrite E in H. }
  destruct Er as (t & j & Er).
  assert (Hj : j = 1) by (assert (H' : snd (from_ok ([], 0) r) = 1) by (vm_compute; reflexivity); by rewrite Er in H'). subst j.
  assert (H1 : jobs (default alternate (fst (from_ok ([], 0) r) !! 1%nat)) = [mkJob 1 "Hold" 1 1 "run" None "None"]) by (vm_compute; reflexivity).
  assert (H2 : logs (default alternate (fst (from_ok ([], 0) r) !! 1%nat)) = [(1, "Waiting"%string)]) by (vm_compute; reflexivity).
  rewrite Er in H1, H2. cbn [from_ok fst] in H1, H2. destruct (t !! 1%nat) as [d'|] eqn:Et; [|done].
  change (jobs d' = [mkJob 1 "Hold" 1 1 "run" None "None"]) in H1. change (logs d' = [(1, "Waiting"%string)]) in H2.
  exists 7200, (plain short_or_long), "run"%string, t, 1, d', (mkJob 1 "Hold" 1 1 "run" None "None").
  split; [exact Er|]. split; [by eapply elem_of_list_lookup_2|]. rewrite H1, H2. split; [left|]. done.
Qed.
(** An array with a job key: its first job can run although the others never exist. *)
Theorem C103_array_refuted : exists dw p t js d', add_subjobs dw (fun l => l) p ["x"; "y"]%string 0 1 empty_db [] [] = Ok (t, js) /\
  js = [1; 2] /\ d' ∈ t /\ jobs d' = [mkJob 1 "Waiting" 1 1 "x" None "None"].
Proof.
  set (r := add_subjobs 7200 (fun l => l) (plain short_or_long) ["x"; "y"]%string 0 1 empty_db [] []).
  assert (Er : exists t j, r = Ok (t, j)).
  { destruct r as [[t j]|e] eqn:E; [eauto|]. exfalso. assert (H : is_ok r = true) by (vm_compute; reflexivity). by rewrite E in H. }
  destruct Er as (t & js & Er).
  assert (Hj : js = [1; 2]) by (assert (H' : snd (from_ok ([], []) r) = [1; 2]) by (vm_compute; reflexivity); by rewrite Er in H'). subst js.
  assert (H1 : jobs (default alternate (fst (from_ok ([], []) r) !! 2%nat)) = [mkJob 1 "Waiting" 1 1 "x" None "None"]) by (vm_compute; reflexivity).
  rewrite Er in H1. cbn [from_ok fst] in H1. destruct (t !! 2%nat) as [d'|] eqn:Et; [|done].
  exists 7200, (plain short_or_long), t, [1; 2], d'. split; [exact Er|]. split; [done|]. split; [by eapply elem_of_list_lookup_2|]. exact H1.
Qed.
(** What is left behind by a submission cut short never gets further than Hold, unless it is fully described. *)
Theorem C103_left_behind_partial : forall dw ro d asks r, (forall l, ro l = l) -> history dw ro d asks -> r ∈ jobs d ->
  ~ described d (jid r) -> jstate r = "Hold"%string.
Proof.
  intros dw ro d asks r Hro Hh Hr Hd.
  assert (Hst : forall r, r ∈ jobs d -> jstate r = "Hold"%string \/ jstate r = "Waiting"%string) by apply (history_inv dw ro Hro _ _ Hh).
  destruct (Hst r Hr) as [?|?]; [done|]. exfalso. apply Hd. by eapply C102_waiting_described_partial.
Qed.

(** ** C104: the jobs of an array: consecutive identifiers, indices from 1, the commands in order, one array identifier *)
(** Row [r] is the one of the [i]-th job of the array [a] of these commands. *)
Definition array_job (a : Z) (cmds : list string) (i : nat) (r : jobrow) : Prop :=
  jid r = a + Z.of_nat i /\ jarray r = a /\ jindex r = Z.of_nat i + 1 /\ cmds !! i = Some (jcmd r).
Theorem C104_array : forall dw ro d asks p gs w cmds, (forall l, ro l = l) -> history dw ro d asks -> cmds <> [] ->
  exists t js d', add_array dw ro p gs w cmds d = Ok (t, js) /\ last t = Some d' /\
    js = seqZ (nj d) (Z.of_nat (length cmds)) /\ length (jobs d') = (length (jobs d) + length cmds)%nat /\
    forall i, (i < length cmds)%nat -> exists r, jobs d' !! (length (jobs d) + i)%nat = Some r /\
      js !! i = Some (jid r) /\ array_job (nj d) cmds i r /\ jstate r = (if p_hold p then "Hold" else "Waiting")%string.
Proof.
  intros dw ro d asks p gs w cmds Hro Hh Hc. apply (history_inv dw ro Hro) in Hh as [].
  destruct (add_array_spec dw ro Hro p gs w cmds d i_wf0 Hc) as (t & E & _ & (d' & Hl & _ & (A & _)) & _).
  exists t, (seqZ (nj d) (Z.of_nat (length cmds))), d'. split; [done|]. split; [done|]. split; [done|]. rewrite A. split.
  { rewrite app_length. f_equal. unfold array_rows. rewrite zip_with_length, seqZ_length. lia. }
  intros i Hi. rewrite lookup_app_r by lia. replace (length (jobs d) + i - length (jobs d))%nat with i by lia.
  destruct (lookup_lt_is_Some_2 cmds i Hi) as [c Ec].
  unfold array_rows. eexists. rewrite lookup_zip_with, (lookup_seqZ_lt 0) by lia. cbn [mbind option_bind]. rewrite Ec. cbn [mbind option_bind].
  split; [reflexivity|]. cbn [jid jarray jindex jcmd jstate].
  unfold array_job. cbn [jid jarray jindex jcmd jstate]. split; [rewrite lookup_seqZ_lt by lia; f_equal; lia|].
  split; [|done]. split; [lia|]. split; [done|]. split; [lia|done].
Qed.
Lemma add_levels_nj : forall gs ids d d', add_levels gs ids d = Ok d' -> nj d' = nj d.
Proof.
  induction gs as [|[c ls] gs IH]; intros ids d d'; cbn [add_levels]; [by intros [= <-]|]. destruct ids as [|g ids]; [done|].
  intros H. apply IH in H. exact H.
Qed.
Lemma add_moldables_nj ro : forall req ids d d', add_moldables ro req ids d = Ok d' -> nj d' = nj d.
Proof.
  induction req as [|[gs w] req IH]; intros ids d d'; cbn [add_moldables]; [by intros [= <-]|]. destruct ids as [|m ids]; [done|].
  destruct (add_groups ro m gs d) as [d1|e] eqn:E; [|done]. cbn [rbind]. intros H. apply IH in H. rewrite H.
  unfold add_groups in E. cbv zeta in E. apply add_levels_nj in E. exact E.
Qed.
Lemma add_subjob_nj dw ro p a i c d t j d' : add_subjob dw ro p a i c d = Ok (t, j) -> last t = Some d' -> nj d' = nj d + 1.
Proof.
  unfold add_subjob. cbv zeta. destruct (add_description _ _ _ _ _) as [d2|e] eqn:E; [|done]. cbn [rbind].
  unfold add_description in E. cbv zeta in E. apply add_moldables_nj in E.
  assert (Hd2 : nj d2 = nj d + 1) by (rewrite E; destruct (0 <? a); done).
  destruct (p_hold p); intros [= <- <-].
  - rewrite last_app. cbn. intros [= <-]. exact Hd2.
  - rewrite last_app. cbn. intros [= <-]. exact Hd2.
Qed.
Lemma zip_seq_shift {A B} (f g : Z -> A -> B) (a b : Z) : (forall k x, f (a + k) x = g (b + k) x) ->
  forall (l : list A), zip_with f (seqZ a (Z.of_nat (length l))) l = zip_with g (seqZ b (Z.of_nat (length l))) l.
Proof.
  intros H l. revert a b H. induction l as [|x l IH]; intros a b H; [done|]. rewrite !zip_seq_cons. f_equal.
  - specialize (H 0 x). by rewrite !Z.add_0_r in H.
  - apply IH. intros k y. specialize (H (1 + k) y). by rewrite !Z.add_assoc in H.
Qed.
(** The same array with a job key, one job after the other. *)
Lemma add_subjobs_spec dw ro p (Hro : forall l, ro l = l) (Hp : proper (p_req p)) :
  forall cmds a i d asks t ids, history dw ro d asks -> a < nj d -> (0 < a \/ ids = []) ->
  exists t' d' asks', add_subjobs dw ro p cmds a i d t ids = Ok (t', ids ++ seqZ (nj d) (Z.of_nat (length cmds))) /\
    history dw ro d' asks' /\ (t' = t /\ cmds = [] /\ d' = d \/ last t' = Some d') /\
    jobs d' = jobs d ++ zip_with (fun k c => mkJob (nj d + k) (if p_hold p then "Hold" else "Waiting")%string (if 0 <? a then a else nj d)
       (i + k) c (p_props p) (if p_resv p then "toSchedule" else "None")%string) (seqZ 0 (Z.of_nat (length cmds))) cmds.
Proof.
  induction cmds as [|c cmds IH]; intros a i d asks t ids Hh Ha Hids.
  { exists t, d, asks. cbn. rewrite !app_nil_r. split; [done|]. split; [done|]. split; [left; done|]. done. }
  pose proof (history_inv dw ro Hro _ _ Hh) as Hi. pose proof (i_wf _ _ _ Hi) as Hwf.
  destruct (add_subjob_spec dw ro Hro p a i c d Hwf Ha) as (t1 & E & Hne & (d1 & Hl & _ & (A & _)) & _).
  pose proof (add_subjob_nj _ _ _ _ _ _ _ _ _ _ E Hl) as Hnj.
  assert (Hh1 : history dw ro d1 (asks ++ [mkAsk (nj d) (p_props p) (p_req p)])).
  { pose proof (h_job dw ro d asks p a i c t1 (nj d) Hh Hp Ha E) as H. rewrite Hl in H. exact H. }
  cbn [add_subjobs]. rewrite E. cbn [rbind]. rewrite Hl. cbn [default from_option id].
  set (a' := if 0 <? a then a else match ids with i0 :: _ => i0 | [] => nj d end).
  pose proof (wf_n d Hwf) as Hn.
  assert (Ha' : a' = if 0 <? a then a else nj d).
  { unfold a'. destruct (0 <? a) eqn:Ea; [done|]. destruct Hids as [?| ->]; [lia|done]. }
  assert (Hpos : 0 < a').
  { rewrite Ha'. destruct (0 <? a) eqn:Ea; lia. }
  destruct (IH a' (i + 1) d1 _ (t ++ t1) (ids ++ [nj d]) Hh1) as (t' & d' & asks' & E' & Hh' & Hlast & J).
  { rewrite Hnj, Ha'. destruct (0 <? a); lia. }
  { by left. }
  exists t', d', asks'. split; [|split; [exact Hh'|split]].
  - rewrite E'. f_equal. f_equal. rewrite <- app_assoc. f_equal. cbn [app length].
    rewrite (seqZ_cons (nj d)) by lia. f_equal. rewrite Hnj. f_equal; lia.
  - right. destruct Hlast as [(-> & -> & ->)|?]; [|done]. rewrite last_app, Hl. done.
  - rewrite J, A, <- app_assoc. f_equal. rewrite zip_seq_cons. cbn [app]. f_equal.
    { f_equal; lia. }
    rewrite Hnj. assert (Hif : (if 0 <? a' then a' else nj d + 1) = (if 0 <? a then a else nj d)).
    { rewrite (proj2 (Z.ltb_lt 0 a')) by lia. exact Ha'. }
    rewrite Hif. apply zip_seq_shift. intros k x. f_equal; lia.
Qed.
Theorem C104_keyed_array : forall dw ro d asks p cmds, (forall l, ro l = l) -> history dw ro d asks -> proper (p_req p) -> cmds <> [] ->
  exists t js d', add_subjobs dw ro p cmds 0 1 d [] [] = Ok (t, js) /\ last t = Some d' /\
    js = seqZ (nj d) (Z.of_nat (length cmds)) /\ length (jobs d') = (length (jobs d) + length cmds)%nat /\
    forall i, (i < length cmds)%nat -> exists r, jobs d' !! (length (jobs d) + i)%nat = Some r /\
      js !! i = Some (jid r) /\ array_job (nj d) cmds i r /\ jstate r = (if p_hold p then "Hold" else "Waiting")%string.
Proof.
  intros dw ro d asks p cmds Hro Hh Hp Hc.
  pose proof (wf_n d (i_wf _ _ _ (history_inv dw ro Hro _ _ Hh))) as Hn.
  destruct (add_subjobs_spec dw ro p Hro Hp cmds 0 1 d asks [] [] Hh ltac:(lia) ltac:(by right)) as (t & d' & asks' & E & _ & Hl & J).
  exists t, (seqZ (nj d) (Z.of_nat (length cmds))), d'. split; [exact E|]. split.
  { destruct Hl as [(_ & -> & _)|?]; [by destruct Hc|done]. }
  split; [done|]. rewrite J. split.
  { rewrite app_length. f_equal. rewrite zip_with_length, seqZ_length. lia. }
  intros i Hi. rewrite lookup_app_r by lia. replace (length (jobs d) + i - length (jobs d))%nat with i by lia.
  destruct (lookup_lt_is_Some_2 cmds i Hi) as [c Ec].
  eexists. rewrite lookup_zip_with, (lookup_seqZ_lt 0) by lia. cbn [mbind option_bind]. rewrite Ec. cbn [mbind option_bind].
  split; [reflexivity|]. cbn [jid jarray jindex jcmd jstate].
  unfold array_job. cbn [jid jarray jindex jcmd jstate]. split; [rewrite lookup_seqZ_lt by lia; f_equal; lia|].
  split; [|done]. split; [lia|]. split; [done|]. split; [lia|done].
Qed.
Example C104_example : (fun r => (jid r, jarray r, jindex r, jcmd r)) <$>
  jobs (default empty_db (last (fst (from_ok ([], []) (add_array 7200 (fun l => l) (array_of 4) [one_level "nodes" 4] None ["x"; "y"; "z"]%string
     (db_of (add_subjob 7200 (fun l => l) (plain short_or_long) 0 1 "run" empty_db)))))))
  = [(1, 1, 1, "run"); (2, 2, 1, "x"); (3, 2, 2, "y"); (4, 2, 3, "z")]%string.
Proof. vm_compute. reflexivity. Qed.

(** The types and dependencies asked for are recorded for each job created, and for no other. *)
Lemma fold_insert_types p a : forall cs d i, 
  types (fst (fold_left (fun '(d, i) c => (insert_job p "None" a i c d, i + 1)) cs (d, i))) = types d /\
  deps (fst (fold_left (fun '(d, i) c => (insert_job p "None" a i c d, i + 1)) cs (d, i))) = deps d.
Proof. induction cs as [|c cs IH]; intros d i; [done|]. cbn [fold_left]. destruct (IH (insert_job p "None" a i c d) (i + 1)) as [-> ->]. done. Qed.
Lemma last_after {A} (x y z : list A) (w : A) a b c d e : last (a :: b :: c :: d :: e :: x ++ y ++ z ++ [w]) = Some w.
Proof. change (last ([a; b; c; d; e] ++ x ++ y ++ z ++ [w]) = Some w). rewrite !app_assoc, last_app. done. Qed.
Lemma elem_of_each {A} (ids : list Z) (l : list A) (x : Z * A) : x ∈ (ids ≫= fun j => (fun t => (j, t)) <$> l) <-> fst x ∈ ids /\ snd x ∈ l.
Proof.
  rewrite elem_of_list_bind. split.
  - intros (j & Hx & Hj). apply elem_of_list_fmap in Hx as (t & -> & Ht). done.
  - intros [H1 H2]. exists (fst x). split; [|done]. apply elem_of_list_fmap. exists (snd x). by destruct x.
Qed.
Theorem C104_array_types : forall dw ro p gs w cmds d t js d', add_array dw ro p gs w cmds d = Ok (t, js) -> last t = Some d' ->
  (forall j x, (j, x) ∈ types d' <-> (j, x) ∈ types d \/ j ∈ js /\ x ∈ p_types p) /\
  (forall j x, (j, x) ∈ deps d' <-> (j, x) ∈ deps d \/ j ∈ js /\ x ∈ p_deps p).
Proof.
  intros dw ro p gs w cmds d t js d' E Hl. destruct cmds as [|c0 cs]; [done|]. unfold add_array in E. cbv zeta in E.
  destruct (array_descs _ _ _) as [ds|e] in E; [|done]. cbn [rbind] in E. injection E as <- <-. rewrite last_after in Hl.
  injection Hl as <-.
  match goal with |- context [fold_left ?f cs ?x] => set (F := fold_left f cs x) end.
  assert (HF : types (fst F) = types d /\ deps (fst F) = deps d).
  { unfold F. destruct (fold_insert_types p (nj d) cs (set_array (nj d) (nj d) (insert_job p "None" 0 1 c0 d)) 2) as [H1 H2]. split; [exact H1|exact H2]. }
  destruct HF as [H1 H2].
  split; intros j x; destruct (p_hold p); cbn [types deps insert_logs set_state set_jobs insert_deps insert_types insert_descs insert_grps insert_mlds];
    rewrite ?H1, ?H2, elem_of_app, elem_of_each; done.
Qed.
Lemma add_levels_types : forall gs ids d d', add_levels gs ids d = Ok d' -> types d' = types d /\ deps d' = deps d.
Proof.
  induction gs as [|[c ls] gs IH]; intros ids d d'; cbn [add_levels]; [by intros [= <-]|]. destruct ids as [|g ids]; [done|].
  intros H. apply IH in H. exact H.
Qed.
Lemma add_moldables_types ro : forall req ids d d', add_moldables ro req ids d = Ok d' -> types d' = types d /\ deps d' = deps d.
Proof.
  induction req as [|[gs w] req IH]; intros ids d d'; cbn [add_moldables]; [by intros [= <-]|]. destruct ids as [|m ids]; [done|].
  destruct (add_groups ro m gs d) as [d1|e] eqn:E; [|done]. cbn [rbind]. intros H. apply IH in H as [-> ->].
  unfold add_groups in E. cbv zeta in E. apply add_levels_types in E. exact E.
Qed.
Theorem C104_job_types : forall dw ro p a i c d t j d', add_subjob dw ro p a i c d = Ok (t, j) -> last t = Some d' ->
  (forall k x, (k, x) ∈ types d' <-> (k, x) ∈ types d \/ k = j /\ x ∈ p_types p) /\
  (forall k x, (k, x) ∈ deps d' <-> (k, x) ∈ deps d \/ k = j /\ x ∈ p_deps p).
Proof.
  intros dw ro p a i c d t j d'. unfold add_subjob. cbv zeta. destruct (add_description _ _ _ _ _) as [d2|e] eqn:E; [|done]. cbn [rbind].
  unfold add_description in E. cbv zeta in E. apply add_moldables_types in E as [E1 E2].
  assert (H1 : types d2 = types d) by (rewrite E1; destruct (0 <? a); done). assert (H2 : deps d2 = deps d) by (rewrite E2; destruct (0 <? a); done).
  assert (He : forall A (l : list A) k x, (k, x) ∈ (fun t => (nj d, t)) <$> l <-> k = nj d /\ x ∈ l).
  { intros A l k x. rewrite elem_of_list_fmap. split; [intros (y & [= -> ->] & Hy); done|intros [-> Hx]; eauto]. }
  destruct (p_hold p); intros [= <- <-]; rewrite last_app; cbn [last]; intros [= <-];
    cbn [types deps insert_logs set_state set_jobs insert_deps insert_types]; rewrite H1, H2; split; intros k x; by rewrite elem_of_app, He.
Qed.

(** ** C105: a user does not get rid of the quotas by the type no_quotas *)
Definition accept (p : params) : option params := Some p.
Definition with_user_types (t : list string) : params := mkParams (p_req (plain short_or_long)) None t [] false false "default".
Theorem C105_twice_refuted : exists p d t j d', prepare_types true accept ["default"%string] (with_user_types ["no_quotas"; "no_quotas"]%string) = inr p /\
  add_jobs 7200 (fun l => l) true false accept ["default"%string] None (with_user_types ["no_quotas"; "no_quotas"]%string) ["run"%string] d = Ok (0, [j], t) /\
  last t = Some d' /\ (j, "no_quotas"%string) ∈ types d'.
Proof.
  set (r := add_jobs 7200 (fun l => l) true false accept ["default"%string] None (with_user_types ["no_quotas"; "no_quotas"]%string) ["run"%string] empty_db).
  assert (Er : exists x, r = Ok x).
  { destruct r as [x|e] eqn:E; [eauto|]. exfalso. assert (H : is_ok r = true) by (vm_compute; reflexivity). by rewrite E in H. }
  destruct Er as ([[c js] t] & Er).
  assert (Hj : fst (from_ok (9, [], []) r) = (0, [1])) by (vm_compute; reflexivity). rewrite Er in Hj. cbn in Hj. injection Hj as -> ->.
  assert (Ht : types (default empty_db (last (snd (from_ok (9, [], []) r)))) = [(1, "no_quotas"%string)]) by (vm_compute; reflexivity).
  rewrite Er in Ht. cbn [from_ok snd] in Ht. destruct (last t) as [d'|] eqn:El; [|done].
  exists (with_user_types ["no_quotas"%string]), empty_db, t, 1, d'. split; [by vm_compute|]. split; [exact Er|]. split; [exact El|].
  cbn [default from_option id] in Ht. change (types d' = [(1, "no_quotas"%string)]) in Ht. rewrite Ht. left.
Qed.
(** Given once, it does not get through, unless an admission rule adds it or the queue is that of the administrator. *)
Theorem C105_once_partial : forall rules queues p p', (forall q q', rules q = Some q' -> p_types q' = p_types q /\ p_queue q' = p_queue q) ->
  p_queue p <> "admin"%string -> NoDup (p_types p) -> prepare_types true rules queues p = inr p' ->
  "no_quotas"%string ∉ p_types p' /\ forall t, t <> "no_quotas"%string -> t ∈ p_types p' <-> t ∈ p_types p.
Proof.
  intros rules queues p p' Hr Hq Hnd. unfold prepare_types. cbn [andb].
  assert (Hrem : forall l : list string, NoDup l -> "no_quotas"%string ∉ remove_first "no_quotas" l /\
     forall t, t <> "no_quotas"%string -> t ∈ remove_first "no_quotas" l <-> t ∈ l).
  { induction l as [|x l IH]; intros Hl; [split; [apply not_elem_of_nil|done]|]. apply NoDup_cons in Hl as [H1 H2]. cbn [remove_first].
    case_bool_decide as Hx.
    - subst x. split; [done|]. intros t Ht. rewrite elem_of_cons. split; [tauto|]. intros [?|?]; [done|done].
    - destruct (IH H2) as [I1 I2]. split.
      + rewrite elem_of_cons. intros [Hc|Hc]; [by symmetry in Hc|]. exact (I1 Hc).
      + intros t Ht. rewrite !elem_of_cons. change (_ l) with (remove_first "no_quotas" l) at 1. rewrite I2 by done. done. }
  set (p1 := if bool_decide _ then _ else p).
  assert (H1 : p_queue p1 = p_queue p /\ "no_quotas"%string ∉ p_types p1 /\ forall t, t <> "no_quotas"%string -> t ∈ p_types p1 <-> t ∈ p_types p).
  { unfold p1. case_bool_decide as Hb; [|done]. split; [done|]. apply Hrem. done. }
  destruct (rules p1) as [q|] eqn:E; [|done]. apply Hr in E as [E1 E2].
  destruct (negb _); [done|]. rewrite E2. destruct H1 as (Hq1 & H1 & H2). rewrite Hq1. rewrite bool_decide_eq_false_2 by done.
  intros [= <-]. rewrite E1. done.
Qed.
(** The administrator's queue always has it. *)
Theorem C105_admin : forall rules queues p p', (forall q q', rules q = Some q' -> p_queue q' = p_queue q) ->
  p_queue p = "admin"%string -> prepare_types true rules queues p = inr p' -> "no_quotas"%string ∈ p_types p'.
Proof.
  intros rules queues p p' Hr Hq. unfold prepare_types. cbn [andb]. set (p1 := if bool_decide _ then _ else p).
  assert (H1 : p_queue p1 = p_queue p) by (unfold p1; by case_bool_decide).
  destruct (rules p1) as [q|] eqn:E; [|done]. apply Hr in E. rewrite E, H1, Hq. rewrite (bool_decide_eq_true_2 ("admin"%string = _)) by done.
  destruct (negb _); [done|]. intros [= <-]. cbn [with_types p_types]. apply elem_of_app. right. left.
Qed.
Example C105_example : exists p', prepare_types true accept ["default"%string] (with_user_types ["besteffort"; "no_quotas"; "idempotent"]%string) = inr p' /\
  p_types p' = ["besteffort"; "idempotent"]%string.
Proof. eexists. split; vm_compute; reflexivity. Qed.

(** ** C106: an error in an array submission is reported *)
(** An array with several moldable instances: success, no job. *)
Theorem C106_moldable_array_refuted : forall dw ro quotas rules queues est p p' m1 m2 ms c1 c2 cs d,
  prepare_types quotas rules queues p = inr p' -> p_req p' = m1 :: m2 :: ms ->
  add_jobs dw ro quotas false rules queues est p (c1 :: c2 :: cs) d = Ok (0, [], []).
Proof. intros dw ro quotas rules queues est p p' m1 m2 ms c1 c2 cs d H1 H2. unfold add_jobs. rewrite H1. rewrite (proj2 (Nat.ltb_lt 1 _)) by (cbn [length]; lia). cbn [andb negb]. rewrite H2. by destruct m1. Qed.
(** A request the estimate refuses: the submission ends with an exception rather than with the error. *)
Theorem C106_refused_array_refuted : forall dw ro quotas rules queues e p p' m c1 c2 cs d,
  prepare_types quotas rules queues p = inr p' -> p_req p' = [m] ->
  add_jobs dw ro quotas false rules queues (Some e) p (c1 :: c2 :: cs) d = Err EType.
Proof. intros dw ro quotas rules queues e p p' [gs w] c1 c2 cs d H1 H2. unfold add_jobs. rewrite H1. rewrite (proj2 (Nat.ltb_lt 1 _)) by (cbn [length]; lia). cbn [andb negb]. rewrite H2. reflexivity. Qed.
(** A reservation asked for an array is forgotten: ordinary jobs are created. *)
Theorem C106_reservation_lost : forall dw ro d asks p gs w cmds t js d' r, (forall l, ro l = l) -> history dw ro d asks ->
  add_array dw ro p gs w cmds d = Ok (t, js) -> last t = Some d' -> r ∈ jobs d' -> jid r ∈ js -> jresv r = "None"%string.
Proof.
  intros dw ro d asks p gs w cmds t js d' r Hro Hh E Hl Hr Hin. apply (history_inv dw ro Hro) in Hh as [].
  assert (Hc : cmds <> []) by (intros ->; done).
  destruct (add_array_spec dw ro Hro p gs w cmds d i_wf0 Hc) as (t' & E' & _ & (d'' & Hl' & _ & (A & _)) & _).
  rewrite E in E'. injection E' as <- ->. rewrite Hl in Hl'. injection Hl' as <-. rewrite A in Hr. apply elem_of_seqZ in Hin.
  apply elem_of_app in Hr as [Hr|Hr].
  - pose proof (wf_jb d i_wf0 r Hr). lia.
  - apply zip_seq_elem in Hr as (i & c & _ & -> & _). done.
Qed.
(** A single job: the error is reported, and nothing is written. *)
Theorem C106_single : forall dw ro quotas use_key rules queues e p p' c d,
  prepare_types quotas rules queues p = inr p' ->
  add_jobs dw ro quotas use_key rules queues (Some e) p [c] d = Ok (e, [], []).
Proof. intros dw ro quotas use_key rules queues e p p' c d H1. unfold add_jobs. by rewrite H1. Qed.
(** For whatever reason the parameters are refused, nothing is written. *)
Theorem C106_refused_early : forall dw ro quotas use_key rules queues est p cmds d e,
  prepare_types quotas rules queues p = inl e ->
  add_jobs dw ro quotas use_key rules queues est p cmds d = Ok (e, [], []) /\ (e = -2 \/ e = -8).
Proof.
  intros dw ro quotas use_key rules queues est p cmds d e H. unfold add_jobs. rewrite H. split; [done|].
  unfold prepare_types in H. cbv zeta in H. destruct (rules _); [|injection H as <-; lia]. destruct (negb _); [injection H as <-; lia|]. by destruct (quotas && _).
Qed.
Example C106_example : exists p', prepare_types true accept ["default"%string] (plain short_or_long) = inr p' /\ p_req p' = short_or_long.
Proof. eexists. split; vm_compute; reflexivity. Qed.

(** ** C107: without any condition a job gets default resources only *)
Theorem C107_empty_partial : forall dflt sql, read_constraints dflt sql (Some EmptyString) EmptyString = dflt /\
  read_constraints dflt sql (Some EmptyString) "type = 'default'" = dflt.
Proof. intros. split; reflexivity. Qed.
(** A job submitted without option -p has no condition at all: every resource satisfies it, of any type. *)
Theorem C107_null_refuted : forall dflt sql all, sql EmptyString = all -> read_constraints dflt sql None EmptyString = all.
Proof. intros dflt sql all H. exact H. Qed.
(** Hence a round trip where the search picks a resource which is not of type default. *)
Definition all_two : string -> procset := fun _ => {[1; 2]}.
Theorem C107_other_type_refuted : exists sql d t j mp l m gs itvs hy r,
  sql EmptyString = ({[1; 2]} : procset) /\
  add_subjob 7200 (fun l => l) (plain [([one_level "resource_id" 1], None)]) 0 1 "run" empty_db = Ok (t, j) /\ last t = Some d /\
  get_data (read_constraints {[2]} sql) 60 0 d [j] = Ok mp /\ request_of mp j = Ok l /\ l = [(m, 7260, gs)] /\
  find_resource_hierarchies_job itvs gs hy = Ok r /\ 1 ∈ r.
Proof.
  set (r := add_subjob 7200 (fun l => l) (plain [([one_level "resource_id" 1], None)]) 0 1 "run" empty_db).
  assert (Er : exists t j, r = Ok (t, j)).
  { destruct r as [[t j]|e] eqn:E; [eauto|]. exfalso. assert (H : is_ok r = true) by (vm_compute; reflexivity). by rewrite E in H. }
  destruct Er as (t & j & Er).
  assert (Hj : j = 1) by (assert (H : snd (from_ok ([], 0) r) = 1) by (vm_compute; reflexivity); by rewrite Er in H). subst j.
  set (g := get_data (read_constraints {[2]} all_two) 60 0 (db_of r) [1]).
  set (hy := {["resource_id"%string := [({[1]} : procset); ({[2]} : procset)]]} : hierarchy).
  assert (Hl : last t = Some (db_of r)).
  { unfold db_of. rewrite Er. cbn [from_ok fst]. destruct (last t) as [d|] eqn:El; [done|]. exfalso.
    assert (H : is_ok (match last (fst (from_ok ([], 0) r)) with Some d => Ok d | None => Err EAttr end) = true) by (vm_compute; reflexivity).
    rewrite Er in H. cbn [from_ok fst] in H. by rewrite El in H. }
  set (ll := mp <-- g ;; request_of mp 1).
  assert (H1 : is_ok g = true) by (vm_compute; reflexivity).
  assert (H2 : is_ok ll = true) by (vm_compute; reflexivity).
  assert (H3 : map (fun x : mrqt => snd (fst x)) (from_ok [] ll) = [7260]) by (vm_compute; reflexivity).
  assert (H4 : map (fun x : mrqt => match find_resource_hierarchies_job {[1; 2]} (snd x) hy with Ok r => bool_decide (1 ∈ r) | Err _ => false end) (from_ok [] ll) = [true])
    by (vm_compute; reflexivity).
  clearbody hy. destruct g as [mp|e] eqn:Eg; [|done]. unfold ll in H2, H3, H4. cbn [rbind] in H2, H3, H4. destruct (request_of mp 1) as [l|e] eqn:El; [|done].
  cbn [from_ok] in H3, H4.
  destruct l as [|[[m w] gs] [|? ?]]; [done| |done]. cbn [map fst snd] in H3, H4. injection H3 as ->. injection H4 as H4.
  destruct (find_resource_hierarchies_job {[1; 2]} gs hy) as [rr|e] eqn:Ef; [|done]. apply bool_decide_eq_true in H4.
  exists all_two, (db_of r), t, 1, mp, [(m, 7260, gs)], m, gs, {[1; 2]}, hy, rr.
  split; [reflexivity|]. split; [exact Er|]. split; [exact Hl|]. split; [exact Eg|]. split; [exact El|]. split; [reflexivity|]. split; [exact Ef|exact H4].
Qed.
(** The test made when the job is accepted and the one made by the scheduler choose differently. *)
Theorem C107_estimate_differs_refuted : exists all dflt sql props gprop x,
  (forall s, sql s ⊆ all) /\ dflt ⊆ all /\ x ∈ estimate_constraints all sql props gprop /\ x ∉ read_constraints dflt sql props gprop.
Proof.
  exists {[1; 2]}, {[2]}, (fun _ => {[1; 2]}), (Some EmptyString), EmptyString, 1. split; [done|]. split; [set_solver|].
  split; [change (1 ∈ ({[1; 2]} : procset)); set_solver|]. change (1 ∉ ({[2]} : procset)). set_solver.
Qed.
(** Where there is a condition, both take the resources which satisfy both conditions. *)
Theorem C107_both : forall all dflt sql p g, p <> EmptyString -> g <> EmptyString ->
  read_constraints dflt sql (Some p) g = sql (p +:+ " AND " +:+ g)%string /\ estimate_constraints all sql (Some p) g = sql (p +:+ " AND " +:+ g)%string.
Proof.
  intros all dflt sql p g Hp Hg. unfold read_constraints, estimate_constraints. cbn [default from_option id].
  rewrite (bool_decide_eq_false_2 (Some p = Some EmptyString)) by congruence. rewrite (bool_decide_eq_false_2 (p = EmptyString)) by done.
  rewrite (bool_decide_eq_false_2 (g = EmptyString)) by done. done.
Qed.

(** ** C108: a job without description stops the reading of the others *)
Definition keys_in (P : Z -> Prop) (s : reading) : Prop :=
  (prev_j s = 0 \/ P (prev_j s)) /\ forall k l, out s !! k = Some l -> P k.
Lemma read_rows_keys cons sec be (P : Z -> Prop) : forall rows s, (forall x, x ∈ rows -> P (r_job x)) -> keys_in P s ->
  keys_in P (fold_left (read_row cons sec be) rows s) /\ (rows <> [] -> P (prev_j (fold_left (read_row cons sec be) rows s))).
Proof.
  induction rows as [|x rows IH]; intros s Hr Hs; [done|]. cbn [fold_left].
  assert (H1 : P (r_job x)) by (apply Hr; left).
  assert (Hs' : keys_in P (read_row cons sec be s x) /\ prev_j (read_row cons sec be s x) = r_job x).
  { destruct Hs as [Hs1 Hs2]. unfold read_row. destruct (r_job x =? prev_j s) eqn:Ej.
    - apply Z.eqb_eq in Ej. destruct (r_mld x =? prev_m s); destruct (r_grp x =? _); cbn; (split; [split; cbn; [by right; rewrite <- Ej|done]|done]).
    - assert (Ho : forall k l, (if prev_j s =? 0 then out s else <[prev_j s := rqts s ++ [(prev_m s, prev_w s,
                 jrg s ++ match last (jrg s) with Some g => [g] | None => [([], ∅)] end)]]> (out s)) !! k = Some l -> P k).
      { intros k l. destruct (prev_j s =? 0) eqn:E0; [apply Hs2|]. apply Z.eqb_neq in E0. intros [[<- _]|[_ H]]%lookup_insert_Some; [|by eapply Hs2].
        by destruct Hs1. }
      destruct (r_grp x =? _); cbn [prev_j]; (split; [split; [by right|exact Ho]|done]). }
  destruct Hs' as [Hs' Hp]. destruct (IH (read_row cons sec be s x) ltac:(intros y Hy; apply Hr; by right) Hs') as [I1 I2].
  split; [exact I1|]. intros _. destruct rows as [|y rows]; [cbn; by rewrite Hp|]. by apply I2.
Qed.
Theorem C108_undescribed_refuted : forall cons sec be d jids j mp, undescribed d j ->
  get_data cons sec be d jids = Ok mp -> request_of mp j = Err EAttr.
Proof.
  intros cons sec be d jids j mp Hu. unfold get_data. destruct (rows_of d jids) as [|x rows] eqn:E; [done|]. rewrite <- E.
  assert (Hrows : forall y, y ∈ rows_of d jids -> r_job y <> j).
  { intros y Hy. unfold rows_of in Hy. apply elem_of_list_bind in Hy as (m & Hy & Hm). apply elem_of_list_bind in Hy as (jr & Hy & Hjr).
    apply elem_of_list_bind in Hy as (g & Hy & _). apply elem_of_list_bind in Hy as (z & Hy & _). apply elem_of_list_singleton in Hy as ->.
    cbn [r_job]. apply elem_of_list_filter in Hjr as [Hjr _]. rewrite Hjr. intros Hc. unfold undescribed, moldables_of in Hu. apply fmap_nil_inv in Hu.
    apply elem_of_sort_by, elem_of_list_filter in Hm as [_ Hm].
    assert (Hx : m ∈ sort_by mid (base.filter (fun m => mjob m = j) (mlds d))) by (apply elem_of_sort_by, elem_of_list_filter; done).
    rewrite Hu in Hx. by apply elem_of_nil in Hx. }
  destruct (read_rows_keys cons sec be (fun k => k <> j) (rows_of d jids) (mkReading 0 0 0 0 [] [] ∅) Hrows) as [[_ H1] H2].
  { split; [by left|]. intros k l H. change ((∅ : gmap Z (list mrqt)) !! k = Some l) in H. by rewrite lookup_empty in H. }
  intros [= <-]. unfold request_of. assert (Hne : rows_of d jids <> []) by (by rewrite E). specialize (H2 Hne).
  match goal with |- match ?X with _ => _ end = _ => destruct X as [l|] eqn:El; [|done] end. exfalso.
  apply lookup_insert_Some in El as [[El _]|[_ El]]; [by apply H2|]. by apply (H1 _ _ El).
Qed.
(** Alone, it stops everything at once. *)
Theorem C108_alone_refuted : forall cons sec be d j, undescribed d j -> get_data cons sec be d [j] = Err EAttr.
Proof.
  intros cons sec be d j Hu. unfold get_data. assert (E : rows_of d [j] = []); [|by rewrite E].
  unfold rows_of. unfold undescribed, moldables_of in Hu. apply fmap_nil_inv in Hu.
  assert (Hf : base.filter (fun m => mjob m ∈ [j]) (mlds d) = base.filter (fun m => mjob m = j) (mlds d)).
  { apply list_filter_iff. intros m. by rewrite elem_of_list_singleton. }
  rewrite Hf, Hu. done.
Qed.
(** Such a job exists after a crash (C103_half_job_refuted); once resumed by its owner it is read with the others. *)
Theorem C108_resumed_refuted : forall cons sec be d j jids mp, undescribed d j ->
  undescribed (set_state (fun r => jid r =? j) "Waiting" d) j /\
  (get_data cons sec be (set_state (fun r => jid r =? j) "Waiting" d) jids = Ok mp -> request_of mp j = Err EAttr).
Proof.
  intros cons sec be d j jids mp Hu. assert (H : undescribed (set_state (fun r => jid r =? j) "Waiting" d) j) by exact Hu.
  split; [exact H|]. by apply C108_undescribed_refuted.
Qed.
Example C108_example : exists d, undescribed d 1 /\ (jstate <$> jobs d) = ["Hold"; "Waiting"]%string /\
  is_ok (get_data (fun _ _ => ∅) 0 0 d [2]) = true /\ is_err EAttr (shape_of d [1; 2] 1) = true /\ is_ok (shape_of d [1; 2] 2) = true.
Proof.
  set (d1 := default empty_db (head (fst (from_ok ([], 0) (add_subjob 7200 (fun l => l) (plain short_or_long) 0 1 "run" empty_db))))).
  exists (db_of (add_subjob 7200 (fun l => l) (plain short_or_long) 0 1 "run" d1)).
  split; [vm_compute; reflexivity|]. split; [vm_compute; reflexivity|]. split; [vm_compute; reflexivity|]. split; vm_compute; reflexivity.
Qed.
Print Assumptions C101_round_trip_partial.
Print Assumptions C101_repeated_group.
Print Assumptions C101_order_of_rows_refuted.
Print Assumptions C101_concurrent_refuted.
Print Assumptions C102_waiting_described_partial.
Print Assumptions C103_half_job_refuted.
Print Assumptions C103_log_refuted.
Print Assumptions C103_array_refuted.
Print Assumptions C103_left_behind_partial.
Print Assumptions C104_array.
Print Assumptions C104_keyed_array.
Print Assumptions C104_array_types.
Print Assumptions C104_job_types.
Print Assumptions C105_twice_refuted.
Print Assumptions C105_once_partial.
Print Assumptions C105_admin.
Print Assumptions C106_moldable_array_refuted.
Print Assumptions C106_refused_array_refuted.
Print Assumptions C106_reservation_lost.
Print Assumptions C106_single.
Print Assumptions C106_refused_early.
Print Assumptions C107_empty_partial.
Print Assumptions C107_null_refuted.
Print Assumptions C107_other_type_refuted.
Print Assumptions C107_estimate_differs_refuted.
Print Assumptions C107_both.
Print Assumptions C108_undescribed_refuted.
Print Assumptions C108_alone_refuted.
Print Assumptions C108_resumed_refuted.
