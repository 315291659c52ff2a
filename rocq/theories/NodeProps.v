(** States of the resources: C45, C73-C78. *)
From Verif Require Import Base JobModel JobProofs JobDelete NodeModel NodeSpec.
Ltac nproj := cbn [rscs rlogs with_rscs with_rlogs] in *.

(** * C45. The dead switch *)
Definition keeps_but_next (r r' : rsc) : Prop := r_id r' = r_id r /\ r_host r' = r_host r /\ r_state r' = r_state r /\ r_num r' = r_num r /\ r_finaud r' = r_finaud r /\ r_type r' = r_type r /\ r_desktop r' = r_desktop r.
(** Effect of the loop: the resources listed get the next state Dead, the others nothing. *)
Lemma dead_loop ids d : rscs (fold_left (fun d id => set_resource_next_finaud id "YES" (set_resource_next id "Dead" d)) ids d) =
  (fun r => if decide (r_id r ∈ ids) then set_next "Dead" "YES" r else r) <$> rscs d.
Proof.
  revert d. induction ids as [|i ids IH]; intros d; cbn [fold_left].
  - rewrite <- (list_fmap_id (rscs d)) at 1. apply list_fmap_ext. intros ? x ?. rewrite decide_False by apply not_elem_of_nil. done.
  - rewrite IH. unfold set_resource_next_finaud, set_resource_next. nproj. unfold upd. rewrite <- !list_fmap_compose. apply list_fmap_ext. intros ? r ?. unfold compose.
    destruct (decide (r_id r = i)) as [E|E].
    + cbn [set_next r_id]. rewrite (decide_True (P := r_id r = i)) by done. cbn [set_next r_id]. rewrite (decide_True (P := r_id r ∈ i :: ids)) by (rewrite E; left). by destruct (decide (r_id r ∈ ids)).
    + rewrite (decide_False (P := r_id r = i)) by done. destruct (decide (r_id r ∈ ids)); destruct (decide (r_id r ∈ i :: ids)) as [H1|H1]; try done; [exfalso; apply H1; by right|]. apply elem_of_cons in H1 as [?|?]; done.
Qed.
Definition open_since (d : ndb) (id t : Z) : Prop := exists e, e ∈ rlogs d /\ g_res e = id /\ g_attr e = "state"%string /\ g_stop e = 0 /\ g_start e = t.
Lemma timed_out_in date timeout d id : id ∈ timed_out date timeout d <-> exists t, open_since d id t /\ t + timeout < date.
Proof.
  unfold timed_out, open_since. rewrite elem_of_list_fmap. split.
  - intros (e & -> & ((H1 & H2 & H3) & Hin)%elem_of_list_filter). exists (g_start e). split; [|done]. by exists e.
  - intros (t & (e & Hin & H1 & H2 & H3 & H4) & Hlt). exists e. split; [done|]. apply elem_of_list_filter. split; [|done]. rewrite H4. done.
Qed.
(** Refuted: every resource that has been Alive for long is to become Dead. *)
Theorem C45_alive_refuted date timeout d r t : 0 < timeout -> r ∈ rscs d -> r_state r = "Alive"%string -> open_since d (r_id r) t -> t + timeout < date ->
  exists r', r' ∈ rscs (dead_switch date timeout d) /\ keeps_but_next r r' /\ r_next r' = "Dead"%string.
Proof.
  intros H0 Hin Ha Ho Ht. unfold dead_switch. replace (0 <? timeout) with true by lia. rewrite dead_loop. exists (set_next "Dead" "YES" r). split; [|done].
  apply elem_of_list_fmap. exists r. rewrite decide_True; [done|]. apply timed_out_in. eauto.
Qed.
(** What holds: only resources whose state has not changed for longer than the delay, none when the
    switch is off, and nothing but the request. *)
Theorem C45_delay_partial date timeout d r' : r' ∈ rscs (dead_switch date timeout d) ->
  exists r, r ∈ rscs d /\ keeps_but_next r r' /\
    (r' = r \/ 0 < timeout /\ r_next r' = "Dead"%string /\ exists t, open_since d (r_id r) t /\ t + timeout < date).
Proof.
  unfold dead_switch. destruct (0 <? timeout) eqn:E; [|intros Hin; exists r'; split; [done|]; split; [done|by left]]. rewrite dead_loop. intros (r & -> & Hin)%elem_of_list_fmap. exists r. split; [done|].
  destruct (decide (r_id r ∈ timed_out date timeout d)) as [Ht|]; [|split; [done|by left]]. split; [done|]. right. split; [lia|]. split; [done|]. by apply timed_out_in.
Qed.
Example C45_case : let d := mkNdb [mkRsc 1 "n1" "Alive" 1 "NO" "UnChanged" "NO" "default" "NO"; mkRsc 2 "n1" "Suspected" 3 "NO" "UnChanged" "NO" "default" "NO"]
    [mkRlog 1 "state" "Alive" 100 0 "NO"; mkRlog 2 "state" "Suspected" 900 0 "NO"] in
  (r_next <$> rscs (dead_switch 1000 300 d)) = ["Dead"; "UnChanged"]%string.
Proof. vm_compute. done. Qed.

(** * C73. The log of the states is a timeline *)
Definition closed (date : Z) (e : rlog) : rlog := mkRlog (g_res e) (g_attr e) (g_value e) (g_start e) date (g_finaud e).
Lemma history_app id l k : history id (l ++ k) = history id l ++ history id k.
Proof. apply filter_app. Qed.
Lemma history_close id date P l : history id (close_rlog date P l) = (fun e => if decide (g_stop e = 0 /\ P id = true) then closed date e else e) <$> history id l.
Proof.
  unfold history, close_rlog, upd. induction l as [|e l IH]; [done|]. cbn [fmap list_fmap]. rewrite !filter_cons.
  destruct (decide (g_stop e = 0 /\ g_attr e = "state"%string /\ P (g_res e) = true)) as [(H1 & H2 & H3)|H1].
  - cbn [g_res g_attr]. destruct (decide (g_res e = id /\ g_attr e = "state"%string)) as [[E1 E2]|]; [|apply IH].
    cbn [fmap list_fmap]. rewrite decide_True by (rewrite <- E1; done). by rewrite IH.
  - destruct (decide (g_res e = id /\ g_attr e = "state"%string)) as [[E1 E2]|]; [|apply IH].
    cbn [fmap list_fmap]. rewrite decide_False by (intros [H2 H3]; apply H1; rewrite E1; done). by rewrite IH.
Qed.
Lemma chain_app_last pre e : chain (pre ++ [e]) -> forall e', g_start e' = g_start e -> chain (pre ++ [e']).
Proof.
  induction pre as [|a pre IH]; intros H e' Es; [done|]. destruct pre as [|b pre].
  - cbn [app chain] in *. destruct H as (H1 & H2 & _). rewrite Es. done.
  - cbn [app chain] in *. destruct H as (H1 & H2 & H3). split; [done|]. split; [done|]. apply (IH H3 e' Es).
Qed.
Lemma chain_snoc pre e e' : chain (pre ++ [e]) -> g_stop e = g_start e' -> g_start e <= g_stop e -> chain ((pre ++ [e]) ++ [e']).
Proof.
  induction pre as [|a pre IH]; intros H E1 E2; [done|]. destruct pre as [|b pre].
  - cbn [app chain] in *. tauto.
  - cbn [app chain] in *. destruct H as (H1 & H2 & H3). split; [done|]. split; [done|]. apply (IH H3 E1 E2).
Qed.
Lemma faithful_change now date s l new : faithful now s l -> now <= date -> 0 < date -> g_stop new = 0 -> g_start new = date ->
  faithful date (g_value new) (((fun e => if decide (g_stop e = 0 /\ true = true) then closed date e else e) <$> l) ++ [new]).
Proof.
  intros (pre & e & -> & Hs & Hv & Hle & Hpre & Hc) Hd H0 Hn Hst.
  assert ((fun e => if decide (g_stop e = 0 /\ true = true) then closed date e else e) <$> (pre ++ [e]) = pre ++ [closed date e]) as ->.
  { rewrite fmap_app. f_equal; [|cbn [fmap list_fmap]; by rewrite decide_True by done]. rewrite <- (list_fmap_id pre) at 2. apply list_fmap_ext. intros ? x Hx. apply elem_of_list_lookup_2 in Hx. rewrite decide_False; [done|]. intros [H _]. by apply (Hpre x). }
  exists (pre ++ [closed date e]), new. split; [done|]. split; [done|]. split; [done|]. split; [lia|]. split.
  - intros x [Hx|Hx]%elem_of_app; [by apply Hpre|]. apply elem_of_list_singleton in Hx as ->. cbn. lia.
  - apply chain_snoc; [by apply (chain_app_last _ _ Hc)| |]; cbn [closed g_stop g_start]; [done|lia].
Qed.
Lemma faithful_later now date s l : faithful now s l -> now <= date -> faithful date s l.
Proof. intros (pre & e & ? & ? & ? & ? & ? & ?) ?. exists pre, e. repeat (split; [done|]). split; [lia|done]. Qed.
(** What the histories keep: the log only speaks of the resources there are. *)
Record tl (now : Z) (d : ndb) : Prop := mkTl {
  tl_ids : NoDup (r_id <$> rscs d);
  tl_known : forall e, e ∈ rlogs d -> g_attr e = "state"%string -> g_res e ∈ r_id <$> rscs d;
  tl_line : timeline now d }.
Lemma tl_nexts now d d' : tl now d -> rlogs d' = rlogs d -> (forall r', r' ∈ rscs d' -> exists r, r ∈ rscs d /\ r_id r' = r_id r /\ r_state r' = r_state r) -> r_id <$> rscs d' = r_id <$> rscs d -> tl now d'.
Proof.
  intros HT El Hr Ei. constructor.
  - rewrite Ei. apply HT.
  - rewrite El, Ei. apply HT.
  - intros r' Hin. destruct (Hr _ Hin) as (r & Hin' & E1 & E2). rewrite El, E1, E2. by apply (tl_line _ _ HT).
Qed.
Lemma upd_next_tl now d (P : rsc -> Prop) `{!forall x, Decision (P x)} g : tl now d -> (forall r, r_id (g r) = r_id r /\ r_state (g r) = r_state r) -> tl now (with_rscs (upd P g) d).
Proof.
  intros HT Hg. apply (tl_nexts now d); [done|done| |].
  - nproj. intros r' (r & Hin & ->)%upd_elem. exists r. split; [done|]. destruct (decide (P r)); [apply Hg|done].
  - nproj. apply upd_fmap_id. intros x _ _. apply Hg.
Qed.
Lemma state_tl now date id s f d d' : tl now d -> now <= date -> 0 < date -> id ∈ r_id <$> rscs d -> set_resource_state date id s f d = Ok d' -> tl date d'.
Proof.
  intros HT Hd H0 Hid. unfold set_resource_state. destruct (state_to_num s) as [n|]; [|done]. intros [= <-]. nproj. constructor; nproj.
  - rewrite upd_fmap_id by done. apply HT.
  - rewrite upd_fmap_id by done. intros e [Hin|Hin]%elem_of_app Ha; [|by apply elem_of_list_singleton in Hin as ->]. unfold close_rlog in Hin. apply upd_elem in Hin as (x & Hx & ->).
    assert (g_attr x = "state"%string) by (by destruct (decide _)). destruct (decide _); cbn [g_res]; by apply (tl_known _ _ HT).
  - intros r' (r & Hin & ->)%upd_elem. nproj. rewrite history_app, history_close. destruct (decide (r_id r = id)) as [E|E].
    + cbn [set_state r_id r_state]. rewrite E, Z.eqb_refl.
      assert (history id [mkRlog id "state" s date 0 f] = [mkRlog id "state" s date 0 f]) as -> by (unfold history; rewrite filter_cons_True by done; done).
      apply (faithful_change now date (r_state r) (history id (rlogs d)) (mkRlog id "state" s date 0 f)); try done. rewrite <- E. by apply (tl_line _ _ HT).
    + replace (r_id r =? id) with false by lia.
      assert (history (r_id r) [mkRlog id "state" s date 0 f] = []) as -> by (unfold history; rewrite filter_cons_False by (cbn; intros [? _]; congruence); done). rewrite app_nil_r.
      replace ((fun e => if decide (g_stop e = 0 /\ false = true) then closed date e else e) <$> history (r_id r) (rlogs d)) with (history (r_id r) (rlogs d)).
      * apply (faithful_later now); [by apply (tl_line _ _ HT)|done].
      * rewrite <- (list_fmap_id (history _ _)) at 1. apply list_fmap_ext. intros ? x _. by rewrite decide_False by (by intros [_ ?]).
Qed.
Lemma on_node_true d h id : on_node d h id = true <-> exists r, r ∈ rscs d /\ r_host r = h /\ r_id r = id.
Proof.
  unfold on_node. rewrite existsb_exists. split.
  - intros (r & Hin & [E1 E2]%andb_true_iff). apply bool_decide_eq_true in E1. exists r. split; [by apply elem_of_list_In|]. split; [done|lia].
  - intros (r & Hin & E1 & E2). exists r. split; [by apply elem_of_list_In|]. rewrite bool_decide_eq_true_2 by done. cbn. lia.
Qed.
Lemma nodup_same {B} (f : rsc -> B) (l : list rsc) r r' : NoDup (f <$> l) -> r ∈ l -> r' ∈ l -> f r = f r' -> r = r'.
Proof.
  intros HN H1 H2 E. apply elem_of_list_lookup in H1 as [i Hi]. apply elem_of_list_lookup in H2 as [k Hk].
  assert (i = k) as ->; [|congruence]. apply (NoDup_lookup _ i k (f r) HN); rewrite list_lookup_fmap, ?Hi, ?Hk; cbn; congruence.
Qed.
Lemma history_new (l : list rsc) id g : (forall r, g_res (g r) = r_id r /\ g_attr (g r) = "state"%string) -> NoDup (r_id <$> l) ->
  history id (g <$> l) = match filter (fun r => r_id r = id) l with r :: _ => [g r] | [] => [] end.
Proof.
  intros Hg. unfold history. induction l as [|r l IH]; intros HN; [done|]. cbn [fmap list_fmap] in *. apply NoDup_cons in HN as [H1 H2]. rewrite !filter_cons. destruct (Hg r) as [E1 E2].
  destruct (decide (r_id r = id)) as [E|E].
  - rewrite decide_True by (rewrite E1; done). f_equal. rewrite (IH H2). destruct (filter (fun r => r_id r = id) l) as [|x k] eqn:Ef; [done|]. exfalso. apply H1.
    assert (x ∈ filter (fun r => r_id r = id) l) as Hx by (rewrite Ef; left). apply elem_of_list_filter in Hx as [Hx1 Hx2]. apply elem_of_list_fmap. exists x. split; [congruence|done].
  - rewrite decide_False by (rewrite E1; tauto). apply (IH H2).
Qed.
Lemma node_tl now date h s f d d' : tl now d -> now <= date -> 0 < date -> set_node_state true date h s f d = Ok d' -> tl date d'.
Proof.
  intros HT Hd H0. unfold set_node_state. case_bool_decide; [done|]. destruct (state_to_num s) as [n|]; [|done]. intros [= <-]. unfold with_rlogs, with_rscs. nproj.
  set (rs := upd (fun r => r_host r = h) (set_state s n f) (rscs d)).
  assert (Hids : r_id <$> rs = r_id <$> rscs d) by (by apply upd_fmap_id).
  assert (Hon : forall r, r ∈ rs -> on_node (mkNdb rs (rlogs d)) h (r_id r) = true <-> r_host r = h).
  { intros r Hin. rewrite on_node_true. nproj. split; [|by exists r]. intros (r' & Hin' & E1 & E2). rewrite <- E1. f_equal. apply (nodup_same r_id rs); [|done..]. rewrite Hids. apply HT. }
  constructor; nproj.
  - rewrite Hids. apply HT.
  - rewrite Hids. intros e [Hin|Hin]%elem_of_app Ha.
    + apply upd_elem in Hin as (x & Hx & ->). assert (g_attr x = "state"%string) by (by destruct (decide _)). destruct (decide _); cbn [g_res]; by apply (tl_known _ _ HT).
    + apply elem_of_list_fmap in Hin as (r & -> & Hin). apply elem_of_list_filter in Hin as [_ Hin]. cbn [g_res]. rewrite <- Hids. apply elem_of_list_fmap. by exists r.
  - intros r Hr. nproj. rewrite history_app, history_close, (history_new _ _ (fun r => mkRlog (r_id r) "state" s date 0 f)); [|done|].
    2: { assert (NoDup (r_id <$> rs)) as HN by (rewrite Hids; apply HT). revert HN. generalize rs. clear. intros l. induction l as [|x l IH]; [done|]. cbn [fmap list_fmap]. intros [H1 H2]%NoDup_cons. rewrite filter_cons. destruct (decide _); [|auto]. cbn [fmap list_fmap]. apply NoDup_cons. split; [|auto].
         intros (y & E & Hy)%elem_of_list_fmap. apply elem_of_list_filter in Hy as [_ Hy]. apply H1. apply elem_of_list_fmap. eauto. }
    assert (Hold : exists r0, r0 ∈ rscs d /\ r_id r0 = r_id r /\ (if decide (r_host r0 = h) then r_state r = s /\ r_host r = h else r = r0)).
    { unfold rs in Hr. apply upd_elem in Hr as (r0 & H1 & ->). exists r0. split; [done|]. destruct (decide (r_host r0 = h)); done. }
    destruct Hold as (r0 & Hin0 & Eid & Hcase). destruct (decide (r_host r0 = h)) as [Eh|Eh].
    + destruct Hcase as [Es Ehr]. replace (on_node _ h (r_id r)) with true by (symmetry; by apply Hon).
      assert (r ∈ filter (fun r' => r_id r' = r_id r) (filter (fun r' => r_host r' = h) rs)) as Hf by (apply elem_of_list_filter; split; [done|]; by apply elem_of_list_filter).
      destruct (filter (fun r' => r_id r' = r_id r) _) as [|r1 k] eqn:Ef; [by apply elem_of_nil in Hf|].
      assert (r_id r1 = r_id r) as E1. { assert (r1 ∈ filter (fun r' => r_id r' = r_id r) (filter (fun r' => r_host r' = h) rs)) as Hx by (rewrite Ef; left). by apply elem_of_list_filter in Hx as [? _]. }
      rewrite Es, E1. apply (faithful_change now date (r_state r0) (history (r_id r) (rlogs d)) (mkRlog (r_id r) "state" s date 0 f)); try done. rewrite <- Eid. by apply (tl_line _ _ HT).
    + subst r. assert (on_node (mkNdb rs (rlogs d)) h (r_id r0) = false) as Hoff by (apply not_true_is_false; rewrite Hon by done; done).
      rewrite Hoff.
      destruct (filter (fun r' => r_id r' = r_id r0) (filter (fun r' => r_host r' = h) rs)) as [|r1 k] eqn:Ef.
      * rewrite app_nil_r. replace ((fun e => if decide (g_stop e = 0 /\ false = true) then closed date e else e) <$> history (r_id r0) (rlogs d)) with (history (r_id r0) (rlogs d)).
        -- apply (faithful_later now); [by apply (tl_line _ _ HT)|done].
        -- rewrite <- (list_fmap_id (history _ _)) at 1. apply list_fmap_ext. intros ? x _. by rewrite decide_False by (by intros [_ ?]).
      * exfalso. assert (r1 ∈ filter (fun r' => r_id r' = r_id r0) (filter (fun r' => r_host r' = h) rs)) as Hx by (rewrite Ef; left).
        apply elem_of_list_filter in Hx as [Hx1 Hx]. apply elem_of_list_filter in Hx as [Hx2 Hx]. rewrite <- not_true_iff_false in Hoff. apply Hoff. apply on_node_true. exists r1. done.
Qed.
Lemma add_tl now date id h s d d' : tl now d -> now <= date -> id ∉ r_id <$> rscs d -> add_resource date id h s d = Ok d' -> tl date d'.
Proof.
  intros HT Hd Hid. unfold add_resource. destruct (state_to_num s) as [n|]; [|done]. intros [= <-]. constructor; nproj.
  - rewrite fmap_app. apply NoDup_app. split; [apply HT|]. split; [|apply NoDup_singleton]. intros x Hx. cbn [fmap list_fmap r_id]. intros Hy. apply elem_of_list_singleton in Hy as ->. done.
  - intros e [Hin|Hin]%elem_of_app Ha; rewrite fmap_app; apply elem_of_app; [left; by apply (tl_known _ _ HT)|right]. apply elem_of_list_singleton in Hin as ->. by left.
  - intros r [Hin|Hin]%elem_of_app; nproj; rewrite history_app.
    + assert (history (r_id r) [mkRlog id "state" s date 0 "NO"] = []) as ->.
      { unfold history. rewrite filter_cons_False; [done|]. cbn. intros [E _]. apply Hid. rewrite E. apply elem_of_list_fmap. by exists r. }
      rewrite app_nil_r. apply (faithful_later now); [by apply (tl_line _ _ HT)|done].
    + apply elem_of_list_singleton in Hin as ->. cbn [r_id r_state].
      assert (history id (rlogs d) = []) as ->.
      { destruct (history id (rlogs d)) as [|e k] eqn:E; [done|]. exfalso. apply Hid. assert (e ∈ history id (rlogs d)) as He by (rewrite E; left). apply elem_of_list_filter in He as [[E1 E2] He]. rewrite <- E1. by apply (tl_known _ _ HT). }
      unfold history. rewrite filter_cons_True by done. exists [], (mkRlog id "state" s date 0 "NO"). split; [done|]. split; [done|]. split; [done|]. split; [cbn; lia|]. split; [|done]. by intros x ?%elem_of_nil.
Qed.
Lemma frag_all_db date user l s : n_db (frag_all date user l s) = n_db s /\ n_heal (frag_all date user l s) = n_heal s.
Proof. unfold frag_all. revert s. induction l as [|j l IH]; intros s; [done|]. cbn [fold_left]. destruct (IH (mkNcs (n_db s) (snd (frag_job date user j (n_jobs s))) 2 (n_heal s))) as [-> ->]. done. Qed.
Lemma unchanged_tl now id s d : tl now d -> tl now (set_resource_next id s d).
Proof. intros HT. by apply upd_next_tl. Qed.
Lemma change_one_db date user asgs cur s c s' : change_one date user asgs cur s c = Ok s' ->
  exists r, filter (fun r => r_id r = c.1) (rscs (n_db s)) = [r] /\
  ((r_state r = c.2 /\ n_db s' = set_resource_next c.1 "UnChanged" (n_db s)) \/
   (r_state r <> c.2 /\ exists nd, set_resource_state date c.1 c.2 (r_nextf r) (n_db s) = Ok nd /\ n_db s' = set_resource_next c.1 "UnChanged" nd)).
Proof.
  unfold change_one. destruct (filter _ _) as [|r [|]] eqn:Ef; [done| |done]. intros H. exists r. split; [done|]. case_bool_decide as E; [injection H as <-; by left|]. right. split; [done|].
  apply rbind_Ok in H as (nd & Hs & H). exists nd. split; [done|]. destruct (_ || _); injection H as <-; [apply frag_all_db|done].
Qed.
Lemma change_one_tl now date user asgs cur s c s' : tl now (n_db s) -> now <= date -> 0 < date -> change_one date user asgs cur s c = Ok s' -> tl date (n_db s').
Proof.
  intros HT Hd H0 H. destruct (change_one_db _ _ _ _ _ _ _ H) as (r & Hf & [[E ->]|(E & nd & Hs & ->)]).
  - apply unchanged_tl. constructor; try apply HT. intros r' Hr'. apply (faithful_later now); [by apply (tl_line _ _ HT)|done].
  - apply unchanged_tl. apply (state_tl now date c.1 c.2 (r_nextf r) (n_db s)); try done. assert (r ∈ filter (fun r => r_id r = c.1) (rscs (n_db s))) as Hin by (rewrite Hf; left).
    apply elem_of_list_filter in Hin as [E1 Hin]. rewrite <- E1. apply elem_of_list_fmap. by exists r.
Qed.
Lemma change_all_tl now date user asgs cur l s s' : tl now (n_db s) -> now <= date -> 0 < date -> change_all date user asgs cur l s = Ok s' -> tl date (n_db s').
Proof.
  revert now s. induction l as [|c l IH]; intros now s HT Hd H0 H; cbn [change_all] in H.
  - injection H as <-. constructor; try apply HT. intros r' Hr'. apply (faithful_later now); [by apply (tl_line _ _ HT)|done].
  - apply rbind_Ok in H as (s1 & H1 & H2). apply (IH date s1); [|lia|done|done]. by apply (change_one_tl now date user asgs cur s c).
Qed.
(** The histories: whatever is done to the resources, at dates that do not go back. *)
Inductive reach : Z -> ndb -> Prop :=
| reach_init : reach 0 (mkNdb [] [])
| reach_add t date id h s d d' : reach t d -> t <= date -> 0 < date -> id ∉ r_id <$> rscs d -> add_resource date id h s d = Ok d' -> reach date d'
| reach_state t date id s f d d' : reach t d -> t <= date -> 0 < date -> id ∈ r_id <$> rscs d -> set_resource_state date id s f d = Ok d' -> reach date d'
| reach_node t date h s f d d' : reach t d -> t <= date -> 0 < date -> set_node_state true date h s f d = Ok d' -> reach date d'
| reach_next t ids s d : reach t d -> reach t (set_resources_next ids s d)
| reach_node_next t h s d : reach t d -> reach t (set_node_next h s d)
| reach_finaud t pick busy bad d : reach t d -> reach t (finaud pick busy bad d)
| reach_dead t date timeout d : reach t d -> reach t (dead_switch date timeout d)
| reach_treat t date user asgs cur s s' : reach t (n_db s) -> t <= date -> 0 < date -> treat_changes date user asgs cur s = Ok s' -> reach date (n_db s')
| reach_remove t asgs user id d jd c d' jd' asgs' : reach t d -> remove_resource asgs user id d jd = Ok (c, d', jd', asgs') -> reach t d'.
Lemma finaud_tl now pick bad d : tl now d -> tl now (fold_left (finaud_one bad) pick d).
Proof.
  revert d. induction pick as [|r pick IH]; intros d HT; [done|]. cbn [fold_left]. apply IH. unfold finaud_one, set_node_next_finaud, set_node_next. destruct (_ && _); [by repeat apply upd_next_tl|]. destruct (_ && _); [by repeat apply upd_next_tl|done].
Qed.
Lemma dead_tl now date timeout d : tl now d -> tl now (dead_switch date timeout d).
Proof.
  unfold dead_switch. destruct (0 <? timeout); [|done]. generalize (timed_out date timeout d). intros l. revert d. induction l as [|i l IH]; intros d HT; [done|]. cbn [fold_left]. apply IH. unfold set_resource_next_finaud, set_resource_next. by repeat apply upd_next_tl.
Qed.
Lemma remove_tl now asgs user id d jd c d' jd' asgs' : tl now d -> remove_resource asgs user id d jd = Ok (c, d', jd', asgs') -> tl now d'.
Proof.
  intros HT. unfold remove_resource. destruct (negb (admin user)); [intros [= <- <- <- <-]; done|]. destruct (filter _ _) as [|r [|]]; [done| |done]. case_bool_decide; intros [= <- <- <- <-]; [|done].
  constructor; nproj.
  - pose proof (tl_ids _ _ HT) as HN. revert HN. generalize (rscs d). clear. intros l. induction l as [|x l IH]; [done|]. cbn [fmap list_fmap]. intros [H1 H2]%NoDup_cons. rewrite filter_cons. destruct (decide _); [|auto]. cbn [fmap list_fmap]. apply NoDup_cons. split; [|auto].
    intros (y & E & Hy)%elem_of_list_fmap. apply elem_of_list_filter in Hy as [_ Hy]. apply H1. apply elem_of_list_fmap. eauto.
  - intros e [Hne Hin]%elem_of_list_filter Ha. pose proof (tl_known _ _ HT _ Hin Ha) as Hk. apply elem_of_list_fmap in Hk as (x & Ex & Hx). apply elem_of_list_fmap. exists x. split; [done|]. apply elem_of_list_filter. split; [congruence|done].
  - intros x [Hne Hin]%elem_of_list_filter. nproj. replace (history (r_id x) (filter (fun e => g_res e <> id) (rlogs d))) with (history (r_id x) (rlogs d)); [by apply (tl_line _ _ HT)|].
    unfold history. rewrite list_filter_filter. apply list_filter_iff. intros e. split; [intros [E1 E2]; split; [done|]; congruence|tauto].
Qed.
Lemma reach_tl t d : reach t d -> tl t d.
Proof.
  induction 1 as [|t date id h s d d' Hr IH Hd H0 Hid H|t date id s f d d' Hr IH Hd H0 Hid H|t date h s f d d' Hr IH Hd H0 H|t ids s d Hr IH|t h s d Hr IH|t pick busy bad d Hr IH|t date timeout d Hr IH|t date user asgs cur s s' Hr IH Hd H0 H|t asgs user id d jd c d' jd' asgs' Hr IH H].
  - constructor; cbn; [apply NoDup_nil_2|by intros ? ?%elem_of_nil|by intros ? ?%elem_of_nil].
  - by apply (add_tl t date id h s d).
  - by apply (state_tl t date id s f d).
  - by apply (node_tl t date h s f d).
  - by apply upd_next_tl.
  - by apply upd_next_tl.
  - by apply finaud_tl.
  - by apply dead_tl.
  - unfold treat_changes in H. destruct (changes (n_db s)) as [|c l] eqn:E; [injection H as <-|].
    + constructor; try apply IH. intros r' Hr'. apply (faithful_later t); [by apply (tl_line _ _ IH)|done].
    + by apply (change_all_tl t date user asgs cur (c :: l) (mkNcs (n_db s) (n_jobs s) 1 (n_heal s))).
  - by apply (remove_tl t asgs user id d jd c d' jd' asgs').
Qed.
Theorem C73_timeline_partial t d : reach t d -> timeline t d.
Proof. intros H. by apply reach_tl. Qed.
(** Refuted on SQLite: the entries of a suspected node are not closed. *)
Theorem C73_sqlite_refuted : exists d, reach 100 d /\ exists d', set_node_state false 200 "n1" "Suspected" "NO" d = Ok d' /\
  (g_value <$> filter (fun e => g_stop e = 0) (history 1 (rlogs d'))) = ["Alive"; "Suspected"]%string.
Proof.
  exists (mkNdb [mkRsc 1 "n1" "Alive" 1 "NO" "UnChanged" "NO" "default" "NO"] [mkRlog 1 "state" "Alive" 100 0 "NO"]). split.
  - apply (reach_add 0 100 1 "n1" "Alive" (mkNdb [] [])); [constructor|lia|lia|by apply not_elem_of_nil|done].
  - eexists. split; [reflexivity|]. vm_compute. done.
Qed.
(** Refuted for a resource created by the API: it has no entry, as long as its state does not change. *)
Theorem C73_api_create_refuted t d id h u : reach t d -> id ∉ r_id <$> rscs d -> admin u = true ->
  let d' := api_create id h u d in id ∈ r_id <$> rscs d' /\ history id (rlogs d') = [].
Proof.
  intros Hr Hid Hu. unfold api_create. rewrite Hu. cbv zeta. nproj. split; [rewrite fmap_app; apply elem_of_app; right; by left|].
  pose proof (reach_tl _ _ Hr) as HT. destruct (history id (rlogs d)) as [|e k] eqn:E; [done|]. exfalso. apply Hid. assert (e ∈ history id (rlogs d)) as He by (rewrite E; left). apply elem_of_list_filter in He as [[E1 E2] He]. rewrite <- E1. by apply (tl_known _ _ HT).
Qed.
(** Refuted when the state of an unknown resource is set by the API and the resource is then created:
    two open entries. *)
Theorem C73_unknown_refuted : exists d d', api_state 100 1 "Dead" "oar" (mkNdb [] []) = Ok d /\ add_resource 200 1 "n1" "Alive" d = Ok d' /\
  (g_value <$> filter (fun e => g_stop e = 0) (history 1 (rlogs d'))) = ["Dead"; "Alive"]%string.
Proof. eexists _, _. split; [reflexivity|]. split; [reflexivity|]. vm_compute. done. Qed.

(** * C74. Requested states are applied *)
Definition settle (date : Z) (s : string) (r : rsc) : rsc :=
  set_next "UnChanged" "NO" (if decide (r_state r = s) then r else set_state s (default 0 (state_to_num s)) (r_nextf r) r).
Lemma one_row (l : list rsc) id r : NoDup (r_id <$> l) -> r ∈ l -> r_id r = id -> filter (fun r => r_id r = id) l = [r].
Proof.
  intros HN Hin E. induction l as [|x l IH]; [by apply elem_of_nil in Hin|]. cbn [fmap list_fmap] in HN. apply NoDup_cons in HN as [H1 H2]. rewrite filter_cons. apply elem_of_cons in Hin as [->|Hin].
  - rewrite decide_True by done. f_equal. destruct (filter _ l) as [|y k] eqn:Ef; [done|]. exfalso. apply H1. assert (y ∈ filter (fun r => r_id r = id) l) as Hy by (rewrite Ef; left). apply elem_of_list_filter in Hy as [Hy1 Hy2]. apply elem_of_list_fmap. exists y. split; [congruence|done].
  - rewrite decide_False; [by apply IH|]. intros E'. apply H1. apply elem_of_list_fmap. exists r. split; [congruence|done].
Qed.
Lemma change_one_rscs date user asgs cur s c s' : NoDup (r_id <$> rscs (n_db s)) -> change_one date user asgs cur s c = Ok s' ->
  rscs (n_db s') = upd (fun r => r_id r = c.1) (settle date c.2) (rscs (n_db s)).
Proof.
  intros HN H. destruct (change_one_db _ _ _ _ _ _ _ H) as (r & Hf & Hc).
  assert (Hr : forall x, x ∈ rscs (n_db s) -> r_id x = c.1 -> x = r).
  { intros x Hx E. assert (x ∈ filter (fun r => r_id r = c.1) (rscs (n_db s))) as Hin by (by apply elem_of_list_filter). rewrite Hf in Hin. by apply elem_of_list_singleton in Hin. }
  destruct Hc as [[E ->]|(E & nd & Hs & ->)].
  - unfold set_resource_next. nproj. unfold upd. apply list_fmap_ext. intros ? x Hx. apply elem_of_list_lookup_2 in Hx. destruct (decide (r_id x = c.1)) as [Ex|]; [|done]. rewrite (Hr x Hx Ex). unfold settle. by rewrite decide_True by done.
  - unfold set_resource_state in Hs. destruct (state_to_num c.2) as [n|] eqn:En; [|done]. injection Hs as <-. unfold set_resource_next. nproj. unfold upd. rewrite <- list_fmap_compose. apply list_fmap_ext. intros ? x Hx. apply elem_of_list_lookup_2 in Hx. unfold compose.
    destruct (decide (r_id x = c.1)) as [Ex|]; [|by rewrite decide_False by done]. cbn [set_state r_id]. rewrite decide_True by done. rewrite (Hr x Hx Ex). unfold settle. rewrite decide_False by done. by rewrite En.
Qed.
Lemma change_all_rscs date user asgs cur l s s' : NoDup (r_id <$> rscs (n_db s)) -> NoDup l.*1 -> change_all date user asgs cur l s = Ok s' ->
  rscs (n_db s') = (fun r => match filter (fun c => fst c = r_id r) l with c :: _ => settle date c.2 r | [] => r end) <$> rscs (n_db s).
Proof.
  revert s. induction l as [|c l IH]; intros s HN Hl H; cbn [change_all] in H.
  - injection H as <-. rewrite <- (list_fmap_id (rscs _)) at 1. apply list_fmap_ext. done.
  - apply rbind_Ok in H as (s1 & H1 & H2). cbn [fmap list_fmap] in Hl. apply NoDup_cons in Hl as [Hl1 Hl2]. pose proof (change_one_rscs _ _ _ _ _ _ _ HN H1) as E1.
    assert (r_id <$> rscs (n_db s1) = r_id <$> rscs (n_db s)) as Ei. { rewrite E1. apply upd_fmap_id. intros x _ _. unfold settle. by destruct (decide _). }
    rewrite (IH s1); [|by rewrite Ei|done|done]. rewrite E1. unfold upd. rewrite <- list_fmap_compose. apply list_fmap_ext. intros ? r Hr. unfold compose. rewrite filter_cons. destruct (decide (r_id r = c.1)) as [E|E].
    + assert (r_id (settle date c.2 r) = r_id r) as -> by (unfold settle; by destruct (decide _)). rewrite decide_True by done.
      destruct (filter (fun c0 => c0.1 = r_id r) l) as [|c0 k] eqn:Ef; [done|]. exfalso. apply Hl1. assert (c0 ∈ filter (fun c0 => c0.1 = r_id r) l) as Hc by (rewrite Ef; left).
      apply elem_of_list_filter in Hc as [Hc1 Hc2]. apply elem_of_list_fmap. exists c0. split; [congruence|done].
    + by rewrite (decide_False (P := c.1 = r_id r)) by congruence.
Qed.
Definition valid_state (s : string) : Prop := state_to_num s <> None.
Lemma change_all_ok date user asgs cur l s : NoDup (r_id <$> rscs (n_db s)) -> (forall c, c ∈ l -> c.1 ∈ r_id <$> rscs (n_db s) /\ valid_state c.2) -> exists s', change_all date user asgs cur l s = Ok s'.
Proof.
  revert s. induction l as [|c l IH]; intros s HN Hl; cbn [change_all]; [by eexists|].
  destruct (Hl c ltac:(left)) as [Hin Hv]. apply elem_of_list_fmap in Hin as (r & Er & Hin).
  assert (exists s1, change_one date user asgs cur s c = Ok s1) as [s1 H1].
  { unfold change_one. rewrite (one_row _ c.1 r HN Hin) by done. case_bool_decide; [by eexists|]. unfold set_resource_state. destruct (state_to_num c.2) as [n|] eqn:En; [|by destruct Hv]. cbn [rbind]. destruct (_ || _); by eexists. }
  rewrite H1. cbn [rbind]. pose proof (change_one_rscs _ _ _ _ _ _ _ HN H1) as E1.
  assert (r_id <$> rscs (n_db s1) = r_id <$> rscs (n_db s)) as Ei. { rewrite E1. apply upd_fmap_id. intros x _ _. unfold settle. by destruct (decide _). }
  apply IH; [by rewrite Ei|]. intros c' Hc'. rewrite Ei. apply Hl. by right.
Qed.
Lemma changes_fst (d : ndb) : NoDup (r_id <$> rscs d) -> NoDup (changes d).*1.
Proof.
  unfold changes. rewrite <- list_fmap_compose. unfold compose. cbn [fst]. generalize (rscs d). intros l. induction l as [|x l IH]; [done|]. cbn [fmap list_fmap]. intros [H1 H2]%NoDup_cons. rewrite filter_cons. destruct (decide _); [|auto]. cbn [fmap list_fmap]. apply NoDup_cons. split; [|auto].
  intros (y & E & Hy)%elem_of_list_fmap. apply elem_of_list_filter in Hy as [_ Hy]. apply H1. apply elem_of_list_fmap. eauto.
Qed.
(** Without another request in between: every requested state is applied, nothing else changes. *)
Theorem C74_applied_partial date user asgs cur s : NoDup (r_id <$> rscs (n_db s)) ->
  (forall r, r ∈ rscs (n_db s) -> r_next r <> "UnChanged"%string -> valid_state (r_next r)) ->
  exists s', treat_changes date user asgs cur s = Ok s' /\
    rscs (n_db s') = (fun r => if decide (r_next r = "UnChanged"%string) then r else settle date (r_next r) r) <$> rscs (n_db s) /\
    (forall r, r ∈ rscs (n_db s') -> r_next r = "UnChanged"%string).
Proof.
  intros HN Hv. assert (Hlist : forall r, r ∈ rscs (n_db s) -> filter (fun c => c.1 = r_id r) (changes (n_db s)) = if decide (r_next r = "UnChanged"%string) then [] else [(r_id r, r_next r)]).
  { intros r Hr. unfold changes. revert HN Hr. generalize (rscs (n_db s)). clear. intros l. induction l as [|x l IH]; intros HN Hr; [by apply elem_of_nil in Hr|]. cbn [fmap list_fmap] in HN. apply NoDup_cons in HN as [H1 H2].
    assert (Hno : r = x -> filter (fun c => c.1 = r_id r) ((fun r => (r_id r, r_next r)) <$> filter (fun r => r_next r <> "UnChanged"%string) l) = []).
    { intros ->. destruct (filter _ _) as [|c k] eqn:Ef; [done|]. exfalso. apply H1. match type of Ef with ?f = _ => assert (c ∈ f) as Hc by (rewrite Ef; left) end. apply elem_of_list_filter in Hc as [Hc1 Hc2]. apply elem_of_list_fmap in Hc2 as (y & -> & Hy). cbn in Hc1. apply elem_of_list_filter in Hy as [_ Hy]. apply elem_of_list_fmap. exists y. done. }
    rewrite filter_cons. apply elem_of_cons in Hr as [->|Hr].
    - destruct (decide (r_next x = "UnChanged"%string)) as [E|E]; [rewrite decide_False by tauto; by apply Hno|]. rewrite decide_True by done. cbn [fmap list_fmap]. rewrite filter_cons_True by done. by rewrite Hno.
    - assert (r_id x <> r_id r) as Hne by (intros E; apply H1; apply elem_of_list_fmap; exists r; done).
      destruct (decide (r_next x <> "UnChanged"%string)); [cbn [fmap list_fmap]; rewrite filter_cons_False by (cbn; congruence)|]; by apply IH. }
  assert (Hall : forall r, r ∈ (fun r => if decide (r_next r = "UnChanged"%string) then r else settle date (r_next r) r) <$> rscs (n_db s) -> r_next r = "UnChanged"%string).
  { intros r (x & -> & Hx)%elem_of_list_fmap. destruct (decide _); done. }
  unfold treat_changes. destruct (changes (n_db s)) as [|c l] eqn:Ec.
  - exists s. split; [done|]. assert (rscs (n_db s) = (fun r => if decide (r_next r = "UnChanged"%string) then r else settle date (r_next r) r) <$> rscs (n_db s)) as E.
    { rewrite <- (list_fmap_id (rscs (n_db s))) at 1. apply list_fmap_ext. intros ? r Hr. apply elem_of_list_lookup_2 in Hr. specialize (Hlist r Hr). cbn in Hlist. by destruct (decide (r_next r = "UnChanged"%string)). }
    split; [done|]. rewrite E. done.
  - rewrite <- Ec in *. destruct (change_all_ok date user asgs cur (changes (n_db s)) (mkNcs (n_db s) (n_jobs s) 1 (n_heal s))) as [s' Hs']; [done| |].
    { intros c' Hc'. unfold changes in Hc'. apply elem_of_list_fmap in Hc' as (r & -> & Hr). apply elem_of_list_filter in Hr as [Hn Hr]. cbn [fst snd n_db]. split; [apply elem_of_list_fmap; by exists r|by apply Hv]. }
    exists s'. split; [done|]. pose proof (change_all_rscs date user asgs cur (changes (n_db s)) (mkNcs (n_db s) (n_jobs s) 1 (n_heal s)) s' HN (changes_fst _ HN) Hs') as E. cbn [n_db] in E.
    assert (rscs (n_db s') = (fun r => if decide (r_next r = "UnChanged"%string) then r else settle date (r_next r) r) <$> rscs (n_db s)) as E'.
    { rewrite E. apply list_fmap_ext. intros ? r Hr. apply elem_of_list_lookup_2 in Hr. rewrite (Hlist r Hr). by destruct (decide (r_next r = "UnChanged"%string)). }
    split; [done|]. rewrite E'. done.
Qed.
(** Refuted: a request made while the previous ones are being treated is forgotten.  The list of
    changes is read first; the request to make the resource Alive again comes before the update. *)
Theorem C74_lost_refuted : exists d0 asgs cur jd,
  let l := changes d0 in
  let d1 := set_resource_next 1 "Alive" d0 in
  exists s', change_all 200 "oar" asgs cur l (mkNcs d1 jd 1 []) = Ok s' /\ (r_state <$> rscs (n_db s')) = ["Dead"]%string /\ (r_next <$> rscs (n_db s')) = ["UnChanged"]%string.
Proof.
  exists (mkNdb [mkRsc 1 "n1" "Alive" 1 "NO" "Dead" "NO" "default" "NO"] [mkRlog 1 "state" "Alive" 100 0 "NO"]), [], [], (mkDb [] [] [] [] [] []).
  eexists. split; [reflexivity|]. vm_compute. done.
Qed.
(** Refuted: one request for a state that does not exist blocks all the others. *)
Theorem C74_blocked_refuted date user asgs cur s r l : rscs (n_db s) = r :: l -> r_id r ∉ r_id <$> l -> r_next r <> "UnChanged"%string -> ~ valid_state (r_next r) -> r_state r <> r_next r -> treat_changes date user asgs cur s = Err EKey.
Proof.
  intros E Hn Hnext Hv Hst. unfold treat_changes, changes. rewrite E. rewrite filter_cons_True by done. cbn [fmap list_fmap change_all]. unfold change_one. cbn [fst snd n_db]. rewrite E. rewrite filter_cons_True by done.
  assert (filter (fun r0 => r_id r0 = r_id r) l = []) as ->. { destruct (filter _ l) as [|y k] eqn:Ef; [done|]. exfalso. apply Hn. assert (y ∈ filter (fun r0 => r_id r0 = r_id r) l) as Hy by (rewrite Ef; left). apply elem_of_list_filter in Hy as [Hy1 Hy2]. apply elem_of_list_fmap. exists y. done. }
  rewrite bool_decide_eq_false_2 by done. unfold set_resource_state, valid_state in *. destruct (state_to_num (r_next r)); [exfalso; by apply Hv|]. done.
Qed.

(** * C75. A resource that was withdrawn stays withdrawn *)
Definition withdrawn (s : string) : Prop := s = "Absent"%string \/ s = "Dead"%string.
(** What Finaud asks for a node, from the row it was given. *)
Definition verdict (bad : list string) (p : rsc) : option string :=
  if bool_decide (r_host p ∈ bad) && bool_decide (r_state p = "Alive"%string) then Some "Suspected"%string
  else if negb (bool_decide (r_host p ∈ bad)) && bool_decide (r_state p = "Suspected"%string) then Some "Alive"%string else None.
Definition ask (o : option string) (r : rsc) : rsc := match o with Some s => set_next s "YES" r | None => r end.
Lemma finaud_one_rscs bad d p : rscs (finaud_one bad d p) = (fun r => if decide (r_host r = r_host p) then ask (verdict bad p) r else r) <$> rscs d.
Proof.
  unfold finaud_one, verdict, set_node_next_finaud, set_node_next. destruct (bool_decide (r_host p ∈ bad) && _); [|destruct (negb _ && _)]; nproj; unfold upd; cbn [ask].
  1,2: rewrite <- list_fmap_compose; apply list_fmap_ext; intros ? r _; unfold compose; destruct (decide (r_host r = r_host p)) as [E|E]; [cbn [set_next r_host]; by rewrite decide_True by done|by rewrite decide_False by done].
  rewrite <- (list_fmap_id (rscs d)) at 1. apply list_fmap_ext. intros ? r _. by destruct (decide _).
Qed.
Lemma ask_host o r : r_host (ask o r) = r_host r.
Proof. by destruct o. Qed.
Lemma finaud_other bad pick d r : r ∈ rscs d -> r_host r ∉ r_host <$> pick -> r ∈ rscs (fold_left (finaud_one bad) pick d).
Proof.
  revert d. induction pick as [|p pick IH]; intros d Hr Hn; [done|]. cbn [fold_left fmap list_fmap] in *. apply not_elem_of_cons in Hn as [H1 H2]. apply IH; [|done].
  rewrite finaud_one_rscs. apply elem_of_list_fmap. exists r. by rewrite decide_False by done.
Qed.
Lemma finaud_back bad pick d r' : r' ∈ rscs (fold_left (finaud_one bad) pick d) -> exists r, r ∈ rscs d /\ keeps_but_next r r' /\ (r_host r ∉ r_host <$> pick -> r' = r).
Proof.
  revert d. induction pick as [|p pick IH]; intros d Hr; [exists r'; done|]. cbn [fold_left fmap list_fmap] in *. destruct (IH _ Hr) as (r1 & H1 & H2 & H3). rewrite finaud_one_rscs in H1. apply elem_of_list_fmap in H1 as (r & -> & Hin). exists r. split; [done|]. split.
  - destruct (decide _); [|done]. destruct (verdict bad p); done.
  - intros [Ha Hb]%not_elem_of_cons. rewrite decide_False in H3 by done. by apply H3.
Qed.
Lemma finaud_hit bad pick d p r : NoDup (r_host <$> pick) -> p ∈ pick -> r ∈ rscs d -> r_host r = r_host p -> ask (verdict bad p) r ∈ rscs (fold_left (finaud_one bad) pick d).
Proof.
  revert d r. induction pick as [|q pick IH]; intros d r HN Hp Hr E; [by apply elem_of_nil in Hp|]. cbn [fold_left fmap list_fmap] in *. apply NoDup_cons in HN as [H1 H2]. apply elem_of_cons in Hp as [->|Hp].
  - apply finaud_other; [|by rewrite ask_host, E]. rewrite finaud_one_rscs. apply elem_of_list_fmap. exists r. by rewrite decide_True by done.
  - apply (IH _ r); [done|done| |done]. rewrite finaud_one_rscs. apply elem_of_list_fmap. exists r. rewrite decide_False; [done|]. intros E'. apply H1. rewrite <- E', E. apply elem_of_list_fmap. by exists p.
Qed.
Lemma filter_hosts (P : rsc -> Prop) `{forall r, Decision (P r)} (l : list rsc) : NoDup (r_host <$> l) -> NoDup (r_host <$> filter P l).
Proof.
  induction l as [|x l IH]; [done|]. cbn [fmap list_fmap]. intros [H1 H2]%NoDup_cons. rewrite filter_cons. destruct (decide _); [|auto]. cbn [fmap list_fmap]. apply NoDup_cons. split; [|auto].
  intros (y & E & Hy)%elem_of_list_fmap. apply elem_of_list_filter in Hy as [_ Hy]. apply H1. apply elem_of_list_fmap. eauto.
Qed.
(** Refuted: Finaud, which finds that a node answers again, has all its resources made Alive, whatever
    their state. *)
Theorem C75_finaud_refuted d pick busy bad p r : picked d pick -> p ∈ pick -> r_host p ∉ busy -> r_host p ∉ bad -> r_state p = "Suspected"%string ->
  r ∈ rscs d -> r_host r = r_host p -> withdrawn (r_state r) ->
  exists r', r' ∈ rscs (finaud pick busy bad d) /\ keeps_but_next r r' /\ r_next r' = "Alive"%string.
Proof.
  intros (_ & HN & _) Hp Hb Hbad Hs Hr E _. unfold finaud. exists (ask (verdict bad p) r). split.
  - apply finaud_hit; [by apply filter_hosts| |done|done]. by apply elem_of_list_filter.
  - unfold verdict. rewrite (bool_decide_eq_false_2 (r_host p ∈ bad)) by done. cbn [andb negb]. by rewrite bool_decide_eq_true_2 by done.
Qed.
(** And the request is applied: from Dead to Alive although nobody asked. *)
Definition mixed : ndb := mkNdb
  [mkRsc 1 "n1" "Suspected" 3 "YES" "UnChanged" "NO" "default" "NO"; mkRsc 2 "n1" "Dead" 4 "NO" "UnChanged" "NO" "default" "NO"; mkRsc 3 "n2" "Alive" 1 "NO" "UnChanged" "NO" "default" "NO"]
  [mkRlog 1 "state" "Suspected" 100 0 "YES"; mkRlog 2 "state" "Dead" 100 0 "NO"; mkRlog 3 "state" "Alive" 100 0 "NO"].
Definition mixed_pick : list rsc := [mkRsc 1 "n1" "Suspected" 3 "YES" "UnChanged" "NO" "default" "NO"; mkRsc 3 "n2" "Alive" 1 "NO" "UnChanged" "NO" "default" "NO"].
Lemma mixed_picked : picked mixed mixed_pick.
Proof.
  split; [|split].
  - intros r Hr. unfold mixed_pick in Hr. apply elem_of_cons in Hr as [->|Hr]; [split; [left|by_dec]|]. apply elem_of_list_singleton in Hr as ->. split; [right; right; left|by_dec].
  - by_dec.
  - intros r Hr Hf. cbn [rscs mixed] in Hr. apply elem_of_cons in Hr as [->|Hr]; [by_dec|]. apply elem_of_cons in Hr as [->|Hr]; [by_dec|]. apply elem_of_list_singleton in Hr as ->. by_dec.
Qed.
Theorem C75_resurrected_refuted : exists s', treat_changes 200 "oar" [] [] (mkNcs (finaud mixed_pick [] [] mixed) (mkDb [] [] [] [] [] []) 0 []) = Ok s' /\
  ((fun r => (r_id r, r_state r)) <$> rscs (n_db s')) = [(1, "Alive"); (2, "Alive"); (3, "Alive")]%string.
Proof. eexists. split; [reflexivity|]. vm_compute. done. Qed.
(** Refuted: a node that is suspected takes all its resources along, also those that were withdrawn. *)
Theorem C75_suspected_refuted pg date h f d r : r ∈ rscs d -> r_host r = h -> withdrawn (r_state r) ->
  exists d' r', set_node_state pg date h "Suspected" f d = Ok d' /\ r' ∈ rscs d' /\ r_id r' = r_id r /\ r_state r' = "Suspected"%string.
Proof.
  intros Hr E _. unfold set_node_state. rewrite bool_decide_eq_false_2 by done. cbn [state_to_num]. eexists _, (set_state "Suspected" 3 f r). split; [reflexivity|]. split; [|done].
  destruct pg; nproj; unfold upd; apply elem_of_list_fmap; exists r; by rewrite decide_True by done.
Qed.
(** What holds: Finaud changes no state, and asks nothing for the nodes that have no resource in use or
    suspected by itself. *)
Theorem C75_finaud_partial d pick busy bad r' : picked d pick -> r' ∈ rscs (finaud pick busy bad d) ->
  exists r, r ∈ rscs d /\ keeps_but_next r r' /\ ((forall x, x ∈ rscs d -> r_host x = r_host r -> withdrawn (r_state x)) -> r' = r).
Proof.
  intros (Hp & _ & _) Hr. unfold finaud in Hr. destruct (finaud_back _ _ _ _ Hr) as (r & H1 & H2 & H3). exists r. split; [done|]. split; [done|]. intros Hw. apply H3.
  intros (p & E & Hin)%elem_of_list_fmap. apply elem_of_list_filter in Hin as [_ Hin]. destruct (Hp p Hin) as [Ha ([Hs|[Hs _]] & _)]; destruct (Hw p Ha (eq_sym E)) as [Hx|Hx]; congruence.
Qed.
(** Finaud does its work: a node in use that does not answer is to be suspected, one that it suspected and
    that answers is to be used again. *)
Theorem C75_finaud_works d pick busy bad p r : picked d pick -> p ∈ pick -> r_host p ∉ busy -> r ∈ rscs d -> r_host r = r_host p ->
  (r_state p = "Alive"%string -> r_host p ∈ bad -> set_next "Suspected" "YES" r ∈ rscs (finaud pick busy bad d)) /\
  (r_state p = "Suspected"%string -> r_host p ∉ bad -> set_next "Alive" "YES" r ∈ rscs (finaud pick busy bad d)).
Proof.
  intros (_ & HN & _) Hp Hb Hr E. pose proof (finaud_hit bad (filter (fun r => r_host r ∉ busy) pick) d p r (filter_hosts _ _ HN) ltac:(by apply elem_of_list_filter) Hr E) as H. unfold verdict in H. split; intros Hs Hbad.
  - by rewrite !bool_decide_eq_true_2 in H by done.
  - rewrite bool_decide_eq_false_2 in H by done. cbn [andb negb] in H. by rewrite bool_decide_eq_true_2 in H by done.
Qed.
Example C75_case : picked mixed mixed_pick /\ (exists p, p ∈ mixed_pick /\ r_state p = "Suspected"%string /\ r_host p = "n1"%string) /\
  (exists r, r ∈ rscs mixed /\ r_host r = "n1"%string /\ withdrawn (r_state r)) /\
  ((fun r => (r_id r, r_next r)) <$> rscs (finaud mixed_pick [] ["n2"%string] mixed)) = [(1, "Alive"); (2, "Alive"); (3, "Suspected")]%string.
Proof. split; [apply mixed_picked|]. split; [eexists; split; [left|done]|]. split; [eexists; split; [right; left|split; [done|by right]]|]. vm_compute. done. Qed.

(** * C76. The jobs of a resource that is withdrawn are deleted *)
(** A job runs on a resource: it is not over, and one of its current assignments is that resource. *)
Definition runs_on (asgs : list asg) (cur : list Z) (d : db) (j : job) (id : Z) : Prop :=
  j ∈ jobs d /\ j_state j <> "Terminated"%string /\ j_state j <> "Error"%string /\
  exists m a, m ∈ mlds d /\ m_job m = j_id j /\ m_id m ∈ cur /\ a ∈ asgs /\ a_res a = id /\ a_mld a = m_id m /\ a_index a = "CURRENT"%string.
Definition deletion_asked (d : db) (id : Z) : Prop := exists f, f ∈ frags d /\ f_job f = id.
Lemma jobs_to_frag_in asgs cur d id x : x ∈ jobs_to_frag asgs cur d id <-> exists j, runs_on asgs cur d j id /\ j_id j = x /\ "cosystem"%string ∉ j_types j /\ "noop"%string ∉ j_types j.
Proof.
  unfold jobs_to_frag, runs_on. rewrite elem_of_list_fmap. split.
  - intros (j & -> & (([H1 H2] & [H3 H4] & H5) & Hin)%elem_of_list_filter). exists j. split; [|done]. repeat (split; [done|]). apply existsb_exists in H5 as (m & Hm & H5). apply andb_prop in H5 as [H5 Ha]. apply andb_prop in H5 as [Hj Hc]. apply existsb_exists in Ha as (a & Ha & H6). apply andb_prop in H6 as [H6 H7]. apply andb_prop in H6 as [H6 H8].
    apply bool_decide_eq_true_1 in H7, Hc. exists m, a. apply elem_of_list_In in Hm, Ha. repeat split; try done; lia.
  - intros (j & (Hin & H1 & H2 & m & a & Hm & Hj & Hc & Ha & H6 & H7 & H8) & <- & H3 & H4). exists j. split; [done|]. apply elem_of_list_filter. split; [|done]. split; [done|]. split; [done|].
    apply existsb_exists. exists m. split; [by apply elem_of_list_In|]. apply andb_true_intro. split; [apply andb_true_intro; split; [lia|by apply bool_decide_eq_true_2]|]. apply existsb_exists. exists a. split; [by apply elem_of_list_In|]. apply andb_true_intro. split; [apply andb_true_intro; split; lia|by apply bool_decide_eq_true_2].
Qed.
Lemma frag_job_keeps date u x y d : deletion_asked d y -> deletion_asked (snd (frag_job date u x d)) y.
Proof. intros (f & Hf & E). exists f. split; [|done]. destruct (frag_job_rows date u x d) as [->| ->]; [done|]. apply elem_of_app. by left. Qed.
Lemma frag_job_asks date u x d j : get_job d x = Some j -> admin u = true -> deletion_asked (snd (frag_job date u x d)) x.
Proof.
  intros Hj Ha. unfold frag_job. rewrite Hj, Ha, orb_true_r. destruct (filter _ _) as [|f k] eqn:E.
  - exists (mkFrag x date "LEON"). split; [|done]. cbn. apply elem_of_app. right. by left.
  - assert (f ∈ filter (fun f => f_job f = x) (frags d)) as Hf by (rewrite E; left). apply elem_of_list_filter in Hf as [? ?]. by exists f.
Qed.
Lemma frag_all_spec date user l s : jobs (n_jobs (frag_all date user l s)) = jobs (n_jobs s) /\ mlds (n_jobs (frag_all date user l s)) = mlds (n_jobs s) /\
  (l <> [] -> n_code (frag_all date user l s) = 2) /\ (l = [] -> n_code (frag_all date user l s) = n_code s) /\
  (forall y, deletion_asked (n_jobs s) y -> deletion_asked (n_jobs (frag_all date user l s)) y) /\
  (forall y, deletion_asked (n_jobs (frag_all date user l s)) y -> deletion_asked (n_jobs s) y \/ y ∈ l) /\
  (forall y j, y ∈ l -> get_job (n_jobs s) y = Some j -> admin user = true -> deletion_asked (n_jobs (frag_all date user l s)) y).
Proof.
  unfold frag_all. revert s. induction l as [|x l IH]; intros s; cbn [fold_left]; [split_and!; try done; [tauto|by intros ? ? ?%elem_of_nil]|].
  destruct (IH (mkNcs (n_db s) (frag_job date user x (n_jobs s)).2 2 (n_heal s))) as (H1 & H2 & H3 & H4 & H5 & H6 & H7). cbn [n_jobs n_code] in *.
  rewrite H1, H2, frag_job_jobs, frag_job_mlds. split_and!; try done.
  - intros _. destruct l; [by apply H4|by apply H3].
  - intros y Hy. apply H5. by apply frag_job_keeps.
  - intros y Hy. destruct (H6 y Hy) as [(f & Hf & E)|Hl]; [|right; by right]. destruct (frag_job_rows date user x (n_jobs s)) as [E'|E']; rewrite E' in Hf; [left; by exists f|]. apply elem_of_app in Hf as [Hf|Hf]; [left; by exists f|]. apply elem_of_list_singleton in Hf as ->. cbn in E. subst. right. left.
  - intros y j [->|Hin]%elem_of_cons Hj Ha; [apply H5; by apply (frag_job_asks _ _ _ _ j)|]. apply (H7 y j); try done. unfold get_job in *. by rewrite frag_job_jobs.
Qed.
Lemma get_job_some d j : NoDup (j_id <$> jobs d) -> j ∈ jobs d -> get_job d (j_id j) = Some j.
Proof.
  unfold get_job. generalize (jobs d). intros l HN Hin. assert (filter (fun j0 => j_id j0 = j_id j) l = [j]) as ->; [|done].
  induction l as [|x l IH]; [by apply elem_of_nil in Hin|]. cbn [fmap list_fmap] in HN. apply NoDup_cons in HN as [H1 H2]. rewrite filter_cons. apply elem_of_cons in Hin as [->|Hin].
  - rewrite decide_True by done. f_equal. destruct (filter _ l) as [|y k] eqn:Ef; [done|]. exfalso. apply H1. assert (y ∈ filter (fun j0 => j_id j0 = j_id x) l) as Hy by (rewrite Ef; left). apply elem_of_list_filter in Hy as [Hy1 Hy2]. apply elem_of_list_fmap. exists y. done.
  - rewrite decide_False; [by apply IH|]. intros E'. apply H1. apply elem_of_list_fmap. exists j. done.
Qed.
(** One change, as far as the jobs are concerned. *)
Lemma change_one_jobs date user asgs cur s c s' : change_one date user asgs cur s c = Ok s' ->
  exists r, filter (fun r => r_id r = c.1) (rscs (n_db s)) = [r] /\
  jobs (n_jobs s') = jobs (n_jobs s) /\ mlds (n_jobs s') = mlds (n_jobs s) /\
  (forall y, deletion_asked (n_jobs s) y -> deletion_asked (n_jobs s') y) /\
  (n_code s' = 2 \/ n_code s' = n_code s) /\
  (forall y, deletion_asked (n_jobs s') y -> deletion_asked (n_jobs s) y \/ r_state r <> c.2 /\ withdrawn c.2 /\ y ∈ jobs_to_frag asgs cur (n_jobs s) c.1) /\
  (forall y j, r_state r <> c.2 -> withdrawn c.2 -> y ∈ jobs_to_frag asgs cur (n_jobs s) c.1 -> get_job (n_jobs s) y = Some j -> admin user = true -> deletion_asked (n_jobs s') y /\ n_code s' = 2).
Proof.
  unfold change_one. destruct (filter _ _) as [|r [|]] eqn:Ef; [done| |done]. intros H. exists r. split; [done|]. case_bool_decide as E.
  { injection H as <-. cbn [n_jobs n_code]. split_and!; try done; [by right|tauto]. }
  apply rbind_Ok in H as (nd & Hs & H). cbn [n_jobs] in H. destruct (bool_decide (c.2 = "Dead"%string) || bool_decide (c.2 = "Absent"%string)) eqn:Eb; injection H as <-.
  - assert (withdrawn c.2) as Hw by (apply orb_true_iff in Eb as [Eb|Eb]; apply bool_decide_eq_true_1 in Eb; [by right|by left]).
    match goal with |- context [frag_all date user ?l ?s0] => destruct (frag_all_spec date user l s0) as (H1 & H2 & H3 & H4 & H5 & H6 & H7); set (l0 := l) in * end. cbn [n_jobs n_code] in *.
    split_and!; try done.
    + destruct l0; [right; by apply H4|left; by apply H3].
    + intros y Hy. destruct (H6 y Hy); [by left|by right].
    + intros y j _ _ Hin Hj Ha. split; [by apply (H7 y j)|]. apply H3. intros ->. by apply elem_of_nil in Hin.
  - cbn [n_jobs n_code]. split_and!; try done; [by right|tauto|]. intros y j _ [Hw|Hw]; exfalso; rewrite Hw in Eb; done.
Qed.
Lemma jobs_to_frag_eq asgs cur d d' id : jobs d' = jobs d -> mlds d' = mlds d -> jobs_to_frag asgs cur d' id = jobs_to_frag asgs cur d id.
Proof. unfold jobs_to_frag. by intros -> ->. Qed.
Lemma change_all_jobs date user asgs cur l s s' : NoDup (r_id <$> rscs (n_db s)) -> NoDup l.*1 -> change_all date user asgs cur l s = Ok s' ->
  (forall y, deletion_asked (n_jobs s) y -> deletion_asked (n_jobs s') y) /\ (n_code s = 2 -> n_code s' = 2) /\
  (forall y, deletion_asked (n_jobs s') y -> deletion_asked (n_jobs s) y \/ exists c r, c ∈ l /\ r ∈ rscs (n_db s) /\ r_id r = c.1 /\ r_state r <> c.2 /\ withdrawn c.2 /\ y ∈ jobs_to_frag asgs cur (n_jobs s) c.1) /\
  (forall c r y j, c ∈ l -> r ∈ rscs (n_db s) -> r_id r = c.1 -> r_state r <> c.2 -> withdrawn c.2 -> y ∈ jobs_to_frag asgs cur (n_jobs s) c.1 -> get_job (n_jobs s) y = Some j -> admin user = true -> deletion_asked (n_jobs s') y /\ n_code s' = 2).
Proof.
  revert s. induction l as [|c l IH]; intros s HN Hl H; cbn [change_all] in H.
  { injection H as <-. split_and!; try done; [tauto|]. by intros ? ? ? ? ?%elem_of_nil. }
  apply rbind_Ok in H as (s1 & H1 & H2). cbn [fmap list_fmap] in Hl. apply NoDup_cons in Hl as [Hl1 Hl2]. pose proof (change_one_rscs _ _ _ _ _ _ _ HN H1) as E1.
  assert (r_id <$> rscs (n_db s1) = r_id <$> rscs (n_db s)) as Ei. { rewrite E1. apply upd_fmap_id. intros x _ _. unfold settle. by destruct (decide _). }
  destruct (change_one_jobs _ _ _ _ _ _ _ H1) as (r0 & Hf & Ej & Em & Hmono & Hcode & Hback & Hask).
  destruct (IH s1) as (I1 & I2 & I3 & I4); [by rewrite Ei|done|done|].
  assert (Hrow : forall x, x ∈ rscs (n_db s) -> r_id x <> c.1 -> x ∈ rscs (n_db s1)). { intros x Hx Hne. rewrite E1. unfold upd. apply elem_of_list_fmap. exists x. by rewrite decide_False by done. }
  assert (Hr0 : forall x, x ∈ rscs (n_db s) -> r_id x = c.1 -> x = r0). { intros x Hx E. assert (x ∈ filter (fun r => r_id r = c.1) (rscs (n_db s))) as Hin by (by apply elem_of_list_filter). rewrite Hf in Hin. by apply elem_of_list_singleton in Hin. }
  assert (r0 ∈ rscs (n_db s) /\ r_id r0 = c.1) as [Hr0in Hr0id]. { assert (r0 ∈ filter (fun r => r_id r = c.1) (rscs (n_db s))) as Hin by (rewrite Hf; left). by apply elem_of_list_filter in Hin as [? ?]. }
  split_and!.
  - intros y Hy. apply I1. by apply Hmono.
  - intros E. apply I2. destruct Hcode as [-> | ->]; done.
  - intros y Hy. destruct (I3 y Hy) as [Hy1|(c' & r' & Hc' & Hr' & Hid & Hst & Hw & Hin)].
    + destruct (Hback y Hy1) as [?|(Ha & Hb & Hd)]; [by left|]. right. exists c, r0. split; [left|]. done.
    + right. exists c'. assert (c'.1 <> c.1) as Hne by (intros E; apply Hl1; rewrite <- E; apply elem_of_list_fmap; by exists c').
      rewrite E1 in Hr'. unfold upd in Hr'. apply elem_of_list_fmap in Hr' as (x & Ex & Hx). assert (r_id x = r_id r') as Exi by (rewrite Ex; destruct (decide (r_id x = c.1)); [unfold settle; by destruct (decide _)|done]).
      rewrite decide_False in Ex by (intros E; apply Hne; congruence). subst r'. exists x. split; [by right|]. rewrite (jobs_to_frag_eq _ _ _ _ _ Ej Em) in Hin. done.
  - intros c' r' y j Hc' Hr' Hid Hst Hw Hin Hj Ha. apply elem_of_cons in Hc' as [->|Hc']; [|pose proof (elem_of_list_fmap_1 fst _ _ Hc') as Hc1].
    + assert (r' = r0) as -> by (by apply Hr0). destruct (Hask y j Hst Hw Hin Hj Ha) as [Hd Hc]. split; [by apply I1|by apply I2].
    + assert (c'.1 <> c.1) as Hne by (intros E; apply Hl1; by rewrite <- E). apply (I4 c' r' y j); try done; [apply Hrow; [done|congruence]|by rewrite (jobs_to_frag_eq _ _ _ _ _ Ej Em)|]. unfold get_job in *. by rewrite Ej.
Qed.
Lemma changes_in d c : c ∈ changes d <-> exists r, r ∈ rscs d /\ c = (r_id r, r_next r) /\ r_next r <> "UnChanged"%string.
Proof.
  unfold changes. rewrite elem_of_list_fmap. split; [intros (r & -> & [H1 H2]%elem_of_list_filter); by exists r|]. intros (r & H1 & -> & H2). exists r. split; [done|]. by apply elem_of_list_filter.
Qed.
(** A resource becomes Absent or Dead by request. *)
Definition to_withdraw (r : rsc) : Prop := withdrawn (r_next r) /\ r_state r <> r_next r.
Theorem C76_deleted_partial date user asgs cur s s' r j : NoDup (r_id <$> rscs (n_db s)) -> NoDup (j_id <$> jobs (n_jobs s)) -> admin user = true ->
  treat_changes date user asgs cur s = Ok s' -> r ∈ rscs (n_db s) -> to_withdraw r -> runs_on asgs cur (n_jobs s) j (r_id r) -> "cosystem"%string ∉ j_types j -> "noop"%string ∉ j_types j ->
  deletion_asked (n_jobs s') (j_id j) /\ n_code s' = 2.
Proof.
  intros HN HJ Ha H Hr [Hw Hst] Hrun Hc Hn.
  assert (r_next r <> "UnChanged"%string) as Hu by (destruct Hw as [-> | ->]; done).
  assert ((r_id r, r_next r) ∈ changes (n_db s)) as Hin by (apply changes_in; by exists r).
  unfold treat_changes in H. destruct (changes (n_db s)) as [|c0 l] eqn:Ec; [by apply elem_of_nil in Hin|]. rewrite <- Ec in *.
  destruct (change_all_jobs date user asgs cur (changes (n_db s)) (mkNcs (n_db s) (n_jobs s) 1 (n_heal s)) s' HN (changes_fst _ HN) H) as (_ & _ & _ & H4).
  apply (H4 (r_id r, r_next r) r (j_id j) j); try done; [|apply get_job_some; [done|apply Hrun]]. cbn [n_jobs fst]. apply jobs_to_frag_in. by exists j.
Qed.
(** Only those. *)
Theorem C76_only date user asgs cur s s' x : NoDup (r_id <$> rscs (n_db s)) -> treat_changes date user asgs cur s = Ok s' -> deletion_asked (n_jobs s') x ->
  deletion_asked (n_jobs s) x \/ exists r j, r ∈ rscs (n_db s) /\ to_withdraw r /\ runs_on asgs cur (n_jobs s) j (r_id r) /\ j_id j = x /\ "cosystem"%string ∉ j_types j /\ "noop"%string ∉ j_types j.
Proof.
  intros HN H Hd. unfold treat_changes in H. destruct (changes (n_db s)) as [|c0 l] eqn:Ec; [injection H as <-; by left|]. rewrite <- Ec in *.
  destruct (change_all_jobs date user asgs cur (changes (n_db s)) (mkNcs (n_db s) (n_jobs s) 1 (n_heal s)) s' HN (changes_fst _ HN) H) as (_ & _ & H3 & _).
  destruct (H3 x Hd) as [?|(c & r & Hc & Hr & Hid & Hst & Hw & Hin)]; [by left|]. right. cbn [n_db n_jobs] in *. apply changes_in in Hc as (r1 & Hr1 & -> & _). cbn [fst snd] in *.
  assert (r1 = r) as -> by (pose proof (one_row _ (r_id r1) r1 HN Hr1 eq_refl) as E; assert (r ∈ filter (fun r0 => r_id r0 = r_id r1) (rscs (n_db s))) as Hx by (by apply elem_of_list_filter); rewrite E in Hx; by apply elem_of_list_singleton in Hx as ->).
  apply jobs_to_frag_in in Hin as (j & Hrun & E & Hco & Hno). exists r, j. done.
Qed.
(** Jobs of a resource that is only Suspected are left alone. *)
Theorem C76_suspected date user asgs cur s s' x : NoDup (r_id <$> rscs (n_db s)) -> treat_changes date user asgs cur s = Ok s' ->
  (forall r, r ∈ rscs (n_db s) -> ~ withdrawn (r_next r)) -> deletion_asked (n_jobs s') x -> deletion_asked (n_jobs s) x.
Proof. intros HN H Hno Hd. destruct (C76_only _ _ _ _ _ _ _ HN H Hd) as [?|(r & j & Hr & [Hw _] & _)]; [done|]. by apply Hno in Hr. Qed.
(** Refuted through the API: the state is changed at once, nothing is requested, and the jobs go on. *)
Definition busy_jobs : db := mkDb [mkJob 7 "alice" "Running" "PASSIVE" "default" 100 0 "NO" 70 "None" []; mkJob 8 "bob" "Running" "PASSIVE" "default" 100 0 "NO" 80 "None" ["noop"%string]] [] [] [] [mkMld 70 7 3600; mkMld 80 8 3600] [].
Definition busy_asgs : list asg := [mkAsg 1 70 "CURRENT"; mkAsg 1 80 "CURRENT"; mkAsg 2 80 "CURRENT"].
Definition one_up : ndb := mkNdb [mkRsc 1 "n1" "Alive" 1 "NO" "UnChanged" "NO" "default" "NO"] [mkRlog 1 "state" "Alive" 100 0 "NO"].
Theorem C76_api_refuted : exists d j, api_state 200 1 "Dead" "oar" one_up = Ok d /\ (r_state <$> rscs d) = ["Dead"%string] /\ runs_on busy_asgs [70; 80] busy_jobs j 1 /\ j_id j = 7 /\ j_types j = [] /\
  exists s', treat_changes 201 "oar" busy_asgs [70; 80] (mkNcs d busy_jobs 0 []) = Ok s' /\ frags (n_jobs s') = [] /\ n_code s' = 0.
Proof.
  eexists _, (mkJob 7 "alice" "Running" "PASSIVE" "default" 100 0 "NO" 70 "None" []). split; [reflexivity|]. split; [done|]. split.
  - split; [left|]. split; [done|]. split; [done|]. exists (mkMld 70 7 3600), (mkAsg 1 70 "CURRENT"). split; [left|]. split; [done|]. split; [left|]. split; [left|done].
  - split; [done|]. split; [done|]. eexists. split; [reflexivity|done].
Qed.
Example C76_case : exists r j s', r ∈ rscs (set_resource_next 1 "Dead" one_up) /\ to_withdraw r /\ runs_on busy_asgs [70; 80] busy_jobs j (r_id r) /\ j_id j = 7 /\ "cosystem"%string ∉ j_types j /\ "noop"%string ∉ j_types j /\
  treat_changes 201 "oar" busy_asgs [70; 80] (mkNcs (set_resource_next 1 "Dead" one_up) busy_jobs 0 []) = Ok s' /\ f_job <$> frags (n_jobs s') = [7] /\ n_code s' = 2.
Proof.
  eexists (mkRsc 1 "n1" "Alive" 1 "NO" "Dead" "NO" "default" "NO"), (mkJob 7 "alice" "Running" "PASSIVE" "default" 100 0 "NO" 70 "None" []), _. split; [left|]. split; [split; [by right|done]|]. split.
  - split; [left|]. split; [done|]. split; [done|]. exists (mkMld 70 7 3600), (mkAsg 1 70 "CURRENT"). split; [left|]. split; [done|]. split; [left|]. split; [left|done].
  - split; [done|]. split; [apply not_elem_of_nil|]. split; [apply not_elem_of_nil|]. split; [reflexivity|]. vm_compute. done.
Qed.

(** * C77. Only the administrators change the resources through the API *)
Theorem C77_admin_only user date id host state asgs d jd : user <> "oar"%string -> user <> "root"%string ->
  api_state date id state user d = Ok d /\ api_create id host user d = d /\ exists c, c <> 0 /\ remove_resource asgs user id d jd = Ok (c, d, jd, asgs).
Proof.
  intros H1 H2. assert (admin user = false) as Ha by (unfold admin; by rewrite !bool_decide_eq_false_2 by done). unfold api_state, api_create, remove_resource. rewrite Ha. cbn [negb]. split; [done|]. split; [done|]. by exists 4.
Qed.
Example C77_case : exists d, api_state 200 1 "Dead" "oar" one_up = Ok d /\ d <> one_up /\ api_create 2 "n2" "root" one_up <> one_up.
Proof. eexists. split; [reflexivity|]. split; intros H; by apply (f_equal (fun d => (length (rscs d), length (rlogs d)))) in H. Qed.

(** * C78. Removing a resource *)
(** Refused unless it is Dead; a refusal changes nothing. *)
Theorem C78_dead_only asgs user id n d c n' d' asgs' : remove_resource asgs user id n d = Ok (c, n', d', asgs') ->
  (c = 0 -> (user = "oar"%string \/ user = "root"%string) /\ exists r, r ∈ rscs n /\ r_id r = id /\ r_state r = "Dead"%string) /\
  (c <> 0 -> n' = n /\ d' = d /\ asgs' = asgs).
Proof.
  unfold remove_resource. destruct (admin user) eqn:Ha; cbn [negb]; [|intros [= <- <- <- <-]; done].
  assert (user = "oar"%string \/ user = "root"%string) as Hu. { unfold admin in Ha. apply orb_true_iff in Ha as [Ha|Ha]; apply bool_decide_eq_true_1 in Ha; tauto. }
  destruct (filter _ _) as [|r [|]] eqn:Ef; [done| |done]. assert (r ∈ filter (fun r => r_id r = id) (rscs n)) as Hr by (rewrite Ef; left). apply elem_of_list_filter in Hr as [E Hr].
  case_bool_decide as Hd; intros [= <- <- <- <-]; [|done]. split; [|done]. intros _. split; [done|]. by exists r.
Qed.
(** The resource is gone, with its history; the other resources keep theirs. *)
Theorem C78_gone asgs user id n d n' d' asgs' : remove_resource asgs user id n d = Ok (0, n', d', asgs') ->
  (forall r, r ∈ rscs n' <-> r ∈ rscs n /\ r_id r <> id) /\ (forall e, e ∈ rlogs n' <-> e ∈ rlogs n /\ g_res e <> id) /\ (forall a, a ∈ asgs' -> a ∈ asgs /\ a_res a <> id).
Proof.
  unfold remove_resource. destruct (admin user); cbn [negb]; [|done]. destruct (filter _ _) as [|r [|]]; [done| |done]. case_bool_decide; [|done]. intros [= <- <- <-]. cbn [rscs rlogs].
  split; [intros x; rewrite elem_of_list_filter; tauto|]. split; [intros x; rewrite elem_of_list_filter; tauto|]. intros a. rewrite elem_of_list_filter. tauto.
Qed.
(** Jobs that were never given this resource keep everything. *)
Theorem C78_others_partial asgs user id n d c n' d' asgs' j : remove_resource asgs user id n d = Ok (c, n', d', asgs') -> j ∈ jobs d -> NoDup (j_id <$> jobs d) ->
  (forall a, a ∈ asgs -> a_mld a = j_mld j -> a_res a <> id) ->
  j ∈ jobs d' /\ (forall f, f_job f = j_id j -> (f ∈ frags d' <-> f ∈ frags d)) /\ (forall e, e_job e = j_id j -> (e ∈ events d' <-> e ∈ events d)) /\
  (forall a, a_mld a = j_mld j -> (a ∈ asgs' <-> a ∈ asgs)).
Proof.
  intros H Hj HN Hno. unfold remove_resource in H. destruct (admin user); cbn [negb] in H; [|by injection H as <- <- <- <-]. destruct (filter (fun r => r_id r = id) _) as [|r [|]]; [done| |done]. case_bool_decide; [|by injection H as <- <- <- <-].
  set (gone := filter (fun j => existsb (fun a => (a_res a =? id) && (a_mld a =? j_mld j)) asgs = true) (jobs d)) in *. injection H as <- <- <- <-. cbn [jobs frags events].
  assert (Hg : forall x, x ∈ gone -> j_id x <> j_id j).
  { intros x [Hx Hin]%elem_of_list_filter E. assert (x = j) as ->. { pose proof (get_job_some d x HN Hin) as G1. pose proof (get_job_some d j HN Hj) as G2. rewrite E in G1. congruence. }
    apply existsb_exists in Hx as (a & Ha & Hx). apply elem_of_list_In in Ha. apply (Hno a Ha); lia. }
  assert (Hg2 : j_mld j ∉ j_mld <$> gone).
  { intros (x & E & [Hx Hin]%elem_of_list_filter)%elem_of_list_fmap. apply existsb_exists in Hx as (a & Ha & Hx). apply elem_of_list_In in Ha. apply (Hno a Ha); lia. }
  assert (Hids : j_id j ∉ j_id <$> gone) by (intros (x & E & Hx)%elem_of_list_fmap; by apply (Hg x)).
  split; [apply elem_of_list_filter; done|]. split; [intros f E; rewrite elem_of_list_filter, E; tauto|]. split; [intros e E; rewrite elem_of_list_filter, E; tauto|].
  intros a E. rewrite elem_of_list_filter, E. split; [tauto|]. intros Ha. split; [|done]. split; [done|]. by apply Hno.
Qed.
(** Refuted: a job that also runs elsewhere disappears with the resource: no row, no assignment, while
    it is running on resource 2. *)
Definition two_rsc : ndb := mkNdb [mkRsc 1 "n1" "Dead" 4 "NO" "UnChanged" "NO" "default" "NO"; mkRsc 2 "n2" "Alive" 1 "NO" "UnChanged" "NO" "default" "NO"] [mkRlog 1 "state" "Dead" 100 0 "NO"; mkRlog 2 "state" "Alive" 100 0 "NO"].
Theorem C78_running_refuted : exists n' d' asgs', remove_resource busy_asgs "oar" 1 two_rsc busy_jobs = Ok (0, n', d', asgs') /\
  (exists j, runs_on busy_asgs [70; 80] busy_jobs j 2 /\ j_state j = "Running"%string) /\ jobs d' = [] /\ asgs' = [] /\ r_id <$> rscs n' = [2].
Proof.
  eexists _, _, _. split; [reflexivity|]. split; [|done]. exists (mkJob 8 "bob" "Running" "PASSIVE" "default" 100 0 "NO" 80 "None" ["noop"%string]). split; [|done].
  split; [right; left|]. split; [done|]. split; [done|]. exists (mkMld 80 8 3600), (mkAsg 2 80 "CURRENT"). split; [right; left|]. split; [done|]. split; [right; left|]. split; [right; right; left|done].
Qed.
Example C78_case : exists n' d' asgs', remove_resource [mkAsg 1 70 "LOG"; mkAsg 2 80 "CURRENT"] "root" 1 two_rsc busy_jobs = Ok (0, n', d', asgs') /\ j_id <$> jobs d' = [8] /\ a_res <$> asgs' = [2] /\ g_res <$> rlogs n' = [2].
Proof. eexists _, _, _. split; [reflexivity|done]. Qed.
(** Non-vacuity of C73 and C74. *)
Definition suspected1 : ndb := mkNdb [mkRsc 1 "n1" "Suspected" 3 "YES" "UnChanged" "NO" "default" "NO"] [mkRlog 1 "state" "Alive" 100 200 "NO"; mkRlog 1 "state" "Suspected" 200 0 "YES"].
Example C73_case : exists s', reach 200 (set_resources_next [1] "Dead" (dead_switch 300 1000 suspected1)) /\
  treat_changes 400 "oar" [] [] (mkNcs (set_resources_next [1] "Dead" (dead_switch 300 1000 suspected1)) busy_jobs 0 []) = Ok s' /\
  ((fun e => (g_value e, g_start e, g_stop e)) <$> history 1 (rlogs (n_db s'))) = [("Alive", 100, 200); ("Suspected", 200, 400); ("Dead", 400, 0)]%string.
Proof.
  eexists. split; [|split; [reflexivity|vm_compute; done]]. apply reach_next. apply reach_dead. apply (reach_node 100 200 "n1" "Suspected" "YES" one_up); [|lia|lia|reflexivity].
  apply (reach_add 0 100 1 "n1" "Alive" (mkNdb [] [])); [constructor|lia|lia|by apply not_elem_of_nil|done].
Qed.
Example C74_case : let d := set_resources_next [1] "Dead" suspected1 in NoDup (r_id <$> rscs d) /\ (forall r, r ∈ rscs d -> r_next r <> "UnChanged"%string -> valid_state (r_next r)) /\ exists r, r ∈ rscs d /\ r_next r <> "UnChanged"%string.
Proof. split; [by_dec|]. split; [|eexists; split; [left|done]]. intros r Hr. vm_compute in Hr. apply elem_of_list_singleton in Hr as ->. done. Qed.
Print Assumptions C45_alive_refuted.
Print Assumptions C45_delay_partial.
Print Assumptions C73_timeline_partial.
Print Assumptions C73_sqlite_refuted.
Print Assumptions C73_api_create_refuted.
Print Assumptions C73_unknown_refuted.
Print Assumptions C74_applied_partial.
Print Assumptions C74_lost_refuted.
Print Assumptions C74_blocked_refuted.
Print Assumptions C75_finaud_refuted.
Print Assumptions C75_resurrected_refuted.
Print Assumptions C75_suspected_refuted.
Print Assumptions C75_finaud_partial.
Print Assumptions C75_finaud_works.
Print Assumptions C76_deleted_partial.
Print Assumptions C76_only.
Print Assumptions C76_suspected.
Print Assumptions C76_api_refuted.
Print Assumptions C77_admin_only.
Print Assumptions C78_dead_only.
Print Assumptions C78_gone.
Print Assumptions C78_others_partial.
Print Assumptions C78_running_refuted.
