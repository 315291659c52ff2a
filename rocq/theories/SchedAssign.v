From Verif Require Import Base SlotModel SlotSpec SlotProofs SlotJobs SlotLookup SlotOps SlotCheck SlotProps SlotShare
  HierarchyModel HierarchySpec HierarchyProofs HierarchyProps QuotasModel LoadModel SchedModel SchedSpec SchedProofs.

(** * Slots keep their ids and starts *)
Definition keeps_starts (m m' : gmap Z slot) : Prop :=
  forall i s, m !! i = Some s -> exists s', m' !! i = Some s' /\ sb s' = sb s.
Lemma keeps_refl m : keeps_starts m m. Proof. intros i s H; eauto. Qed.
Lemma keeps_trans m1 m2 m3 : keeps_starts m1 m2 -> keeps_starts m2 m3 -> keeps_starts m1 m3.
Proof. intros H1 H2 i s Hi. destruct (H1 i s Hi) as (s' & Hs' & <-). destruct (H2 i s' Hs') as (s2 & Hs2 & <-). eauto. Qed.

Lemma keeps_insert m k s s' : m !! k = Some s -> sb s' = sb s -> keeps_starts m (<[ k := s' ]> m).
Proof.
  intros Hk Hb i x Hi. destruct (decide (i = k)) as [->|Hne].
  - rewrite lookup_insert. exists s'. split; [done|]. congruence.
  - rewrite lookup_insert_ne by done. eauto.
Qed.
Lemma keeps_new m k s : m !! k = None -> keeps_starts m (<[ k := s ]> m).
Proof. intros Hk i x Hi. rewrite lookup_insert_ne by congruence. eauto. Qed.

Lemma dupd_keeps k f m m' : (forall s, sb (f s) = sb s) -> dupd k f m = Ok m' -> keeps_starts m m'.
Proof.
  intros Hf E. unfold dupd in E. apply rbind_Ok in E as (s & Es & E). apply dget_Ok in Es.
  assert (m' = <[k:=f s]> m) as -> by congruence. by apply (keeps_insert _ _ s).
Qed.

Lemma split_at_after_keeps ss k date ss' p : WF ss -> split_at_after ss k date = Ok (ss', p) ->
  keeps_starts (slots ss) (slots ss').
Proof.
  intros [l H] E. unfold split_at_after in E.
  apply rassert_Ok in E as [_ E]. apply rbind_Ok in E as (s & Es & E).
  apply dget_Ok in Es. apply rassert_Ok in E as [_ E].
  destruct (sb s =? se s); [assert (ss' = ss) as -> by congruence; apply keeps_refl|].
  apply rbind_Ok in E as (m1 & E1 & E). apply rbind_Ok in E as (m2 & E2 & E).
  apply rbind_Ok in E as (m3 & E3 & E). apply rbind_Ok in E as (m4 & E4 & E).
  assert (slots ss' = m4) as -> by (change (Ok (mkSS m4 (begin_ ss) (end_ ss) (last_id ss + 1), (sid s, last_id ss + 1)) = Ok (ss', p)) in E; assert (ss' = mkSS m4 (begin_ ss) (end_ ss) (last_id ss + 1)) as -> by congruence; done).
  assert (K1 : keeps_starts (slots ss) m1 /\ forall i, slots ss !! i = None -> m1 !! i = None).
  { destruct (negb _); [|assert (m1 = slots ss) as -> by congruence; split; [apply keeps_refl|done]].
    split; [eapply dupd_keeps; [|exact E1]; done|]. intros i Hi.
    unfold dupd in E1. apply rbind_Ok in E1 as (x & Ex & E1). apply dget_Ok in Ex.
    assert (m1 = <[next s:=set_prev (last_id ss + 1) x]> (slots ss)) as -> by congruence.
    rewrite lookup_insert_ne; [done|congruence]. }
  assert (Hup : forall k f m m', dupd k f m = Ok m' -> forall i, m !! i = None -> m' !! i = None).
  { clear. intros k f m m' E i Hi. unfold dupd in E. apply rbind_Ok in E as (x & Ex & E). apply dget_Ok in Ex.
    assert (m' = <[k:=f x]> m) as -> by congruence. rewrite lookup_insert_ne; [done|congruence]. }
  destruct K1 as [K1 N1].
  assert (K2 : keeps_starts m1 m2) by (eapply dupd_keeps; [|exact E2]; done). assert (K3 : keeps_starts m2 m3) by (eapply dupd_keeps; [|exact E3]; done).
  assert (N3 : m3 !! (last_id ss + 1) = None).
  { eapply Hup; [exact E3|]. eapply Hup; [exact E2|]. apply N1.
    apply (holds_none _ _ _ (repr_map _ _ H)). intros Hin. apply elem_of_list_fmap in Hin as (x & Ex & Hx).
    pose proof (proj1 (Forall_forall _ _) (repr_ids _ _ H) x Hx) as Hr. cbn in Hr. lia. }
  unfold copy_intervals_set in E4. apply rassert_Ok in E4 as [_ E4]. apply rbind_Ok in E4 as (sf & _ & E4).
  assert (K5 := dupd_keeps _ (set_cont (cont sf)) _ _ ltac:(done) E4).
  eapply keeps_trans; [exact K1|]. eapply keeps_trans; [exact K2|]. eapply keeps_trans; [exact K3|].
  eapply keeps_trans; [|exact K5]. by apply keeps_new.
Qed.

Lemma upd_slots_keeps env sub j ids : forall m m', upd_slots env sub j ids m = Ok m' -> keeps_starts m m'.
Proof.
  induction ids as [|s ids IH]; intros m m' E; cbn [upd_slots] in E.
  - assert (m' = m) as -> by congruence. apply keeps_refl.
  - apply rbind_Ok in E as (x & Ex & E). apply dget_Ok in Ex. apply rbind_Ok in E as (c & _ & E).
    eapply keeps_trans; [|by apply IH]. by apply (keeps_insert _ _ x).
Qed.

Lemma split_slots_keeps env ss i r j sub ss' sl :
  WF ss -> slots ss !! i = Some sl -> start_time j <= sb sl ->
  split_slots env ss i r j sub = Ok ss' -> keeps_starts (slots ss) (slots ss').
Proof.
  intros HW Hi Hst E. unfold split_slots in E. unfold dget in E at 1. rewrite Hi in E. cbn [rbind] in E.
  replace (sb sl <? start_time j) with false in E by lia. cbn [rbind] in E.
  apply rbind_Ok in E as (sr & Esr & E). apply rbind_Ok in E as ([ss1 r1] & E1 & E).
  assert (K1 : keeps_starts (slots ss) (slots ss1)).
  { destruct (_ <? se sr).
    - apply rbind_Ok in E1 as ([ss2 [a b]] & E1 & E2). assert (ss1 = ss2) as -> by congruence.
      by eapply split_at_after_keeps.
    - assert (ss1 = ss) as -> by congruence. apply keeps_refl. }
  apply rbind_Ok in E as (ids & _ & E). apply rbind_Ok in E as (m & Em & E).
  assert (slots ss' = m) as -> by (assert (ss' = mkSS m (begin_ ss1) (end_ ss1) (last_id ss1)) as -> by congruence; done).
  eapply keeps_trans; [exact K1|]. by eapply upd_slots_keeps.
Qed.

(** A split in the middle of a slot makes a slot start there. *)
Lemma split_at_after_start ss k date ss' p s : split_at_after ss k date = Ok (ss', p) ->
  slots ss !! k = Some s -> sb s < date <= se s -> exists i s', slots ss' !! i = Some s' /\ sb s' = date.
Proof.
  intros E Hs Hd. unfold split_at_after in E.
  apply rassert_Ok in E as [_ E]. apply rbind_Ok in E as (s0 & Es & E).
  apply dget_Ok in Es. assert (s0 = s) as -> by congruence. apply rassert_Ok in E as [_ E].
  replace (sb s =? se s) with false in E by lia. replace (sb s =? date) with false in E by lia.
  apply rbind_Ok in E as (m1 & E1 & E). apply rbind_Ok in E as (m2 & E2 & E).
  apply rbind_Ok in E as (m3 & E3 & E). apply rbind_Ok in E as (m4 & E4 & E).
  assert (slots ss' = m4) as -> by (assert (ss' = mkSS m4 (begin_ ss) (end_ ss) (last_id ss + 1)) as -> by congruence; done).
  unfold copy_intervals_set in E4. apply rassert_Ok in E4 as [_ E4]. apply rbind_Ok in E4 as (sf & _ & E4).
  assert (K : keeps_starts (<[last_id ss + 1:=mkSlot (last_id ss + 1) (sid s) (next s) date (se s)
            (fresh_content (bool_decide (is_Some (quotas (cont s)))) ∅)]> m3) m4) by (eapply dupd_keeps; [|exact E4]; done).
  edestruct (K (last_id ss + 1)) as (s' & Hs' & Hb'); [apply lookup_insert|]. cbn [sb] in Hb'. eauto.
Qed.

(** * Placing a job at a slot start *)
Definition inserted (env : qenv) (ss : slotset) (j : job) (ss' : slotset) : Prop :=
  WF ss' /\ begin_ ss' = begin_ ss /\ end_ ss' = end_ ss /\ keeps_starts (slots ss) (slots ss') /\
  ((forall k x, slots ss !! k = Some x -> se x <> start_time j + walltime j) -> start_time j + walltime j <= end_ ss ->
   exists k x, slots ss' !! k = Some x /\ sb x = start_time j + walltime j) /\
  exists h, occ_end j <= h <= occ_end j + 1 /\
    forall t c', content_at ss' t c' <->
       exists c, content_at ss t c /\ c' = if (start_time j <=? t) && (t <=? h) then updc env true j c else c.

Lemma inserted_free env ss j ss' : job_ok j -> inserted env ss j ss' ->
  (forall t r, free_at ss' t r -> free_at ss t r) /\
  (forall t r, free_at ss' t r -> start_time j <= t < start_time j + walltime j -> r ∉ res_set j) /\
  (forall t r, free_at ss t r -> r ∉ res_set j -> free_at ss' t r) /\
  (forall t r, free_at ss t r -> t < start_time j \/ start_time j + walltime j < t -> free_at ss' t r).
Proof.
  intros Hj (_ & _ & _ & _ & _ & h & Hh & HC). unfold occ_end in Hh. split_and!.
  - intros t r (c' & Hc' & Hr). apply HC in Hc' as (c & Hc & ->). exists c. split; [done|].
    destruct (_ && _); [|done]. rewrite updc_sub_itvs in Hr by done. set_solver.
  - intros t r (c' & Hc' & Hr) Ht. apply HC in Hc' as (c & Hc & ->).
    replace ((start_time j <=? t) && (t <=? h)) with true in Hr by lia.
    rewrite updc_sub_itvs in Hr by done. set_solver.
  - intros t r (c & Hc & Hr) Hn. eexists. split; [apply HC; exists c; split; [done|reflexivity]|].
    destruct (_ && _); [|done]. rewrite updc_sub_itvs by done. set_solver.
  - intros t r (c & Hc & Hr) Hn. eexists. split; [apply HC; exists c; split; [done|reflexivity]|].
    replace ((start_time j <=? t) && (t <=? h)) with false by lia. done.
Qed.

Lemma plain_ok j : plain j -> job_ok j.
Proof. intros [H1 H2]. split; [congruence|]. rewrite H2. intros [?|?]; done. Qed.

Lemma place_one env ss s j : WF ss -> slots ss !! sid s = Some s -> job_ok j -> 0 < walltime j ->
  start_time j = sb s ->
  exists el er ss', get_encompassing_slots (slots ss) (sb s) (sb s + walltime j - 1) 0 = Ok (el, er) /\
    split_slots env ss el er j true = Ok ss' /\ inserted env ss j ss'.
Proof.
  intros HW Hs Hj Hw Hst. assert (HW' := HW). destruct HW as [l H].
  destruct l as [|f l]; [destruct (repr_ne _ _ H); done|].
  pose proof (slot_len _ _ HW' Hs) as HL. pose proof (repr_first_begin _ _ _ H) as Hfb.
  destruct (insert_one env ss [] f l j true H Hj) as (ss' & h & l1' & L' & l2' & i & r & EG & ES & HR & Hi & HbL & Hb & He & Hh & _ & HC);
    [lia|lia|lia|lia|].
  destruct (get_encompassing_slots_spec ss [] f l (start_time j) (start_time j + walltime j - 1) H ltac:(lia))
    as (pre & mid & R & l3 & L & Eq & Hhd & EG' & H1 & H2 & H3 & H4).
  assert (sid L = i) as <- by congruence.
  assert (HLin : L ∈ f :: l).
  { change ([] ++ f :: l) with (f :: l) in Eq. rewrite Eq. destruct mid; cbn in Hhd; injection Hhd as <-; mem. }
  assert (HLs : L = s).
  { apply (repr_elem _ _ _ _ H) in Hs as [Hsin _].
    eapply (contig_unique _ _ _ (sb s) _ _ (repr_contig _ _ H)); [done|done| |]; lia. }
  exists (sid L), r, ss'. split.
  { unfold get_encompassing_slots in EG |- *. cbn [Z.eqb negb]. rewrite (first_spec _ _ _ H). cbn [rbind].
    pose proof (repr_nz _ _ f H ltac:(mem)) as Hnz. replace (sid f =? 0) with false in EG by lia. cbn [negb rbind] in EG.
    rewrite <- Hst. exact EG. }
  split; [done|]. split; [eexists; exact HR|]. split; [done|]. split; [done|]. split.
  { apply (split_slots_keeps env ss (sid L) r j true ss' s); [done|rewrite HLs; exact Hs|lia|exact ES]. }
  split.
  { intros Hne Hend. assert (r = sid R) as -> by congruence. subst L.
    assert (HRin : R ∈ f :: l) by (change ([] ++ f :: l) with (f :: l) in Eq; rewrite Eq; mem).
    assert (HRs := repr_lookup _ _ _ H HRin).
    assert (HneR := Hne _ _ HRs).
    unfold split_slots in ES. unfold dget in ES at 1. rewrite Hs in ES. cbn [rbind] in ES.
    replace (sb s <? start_time j) with false in ES by lia. cbn [rbind] in ES.
    unfold dget in ES at 1. rewrite HRs in ES. cbn [rbind] in ES.
    destruct (start_time j + walltime j <? se R) eqn:Elt.
    - apply rbind_Ok in ES as ([ss1 r1] & E1 & ES). apply rbind_Ok in E1 as ([ss2 [a b]] & E1 & E2).
      assert (ss1 = ss2) as -> by congruence.
      destruct (split_at_after_start _ _ _ _ _ R E1 HRs ltac:(lia)) as (k & x & Hk & Hx).
      apply rbind_Ok in ES as (ids & _ & ES). apply rbind_Ok in ES as (m & Em & ES).
      assert (slots ss' = m) as -> by (assert (ss' = mkSS m (begin_ ss2) (end_ ss2) (last_id ss2)) as -> by congruence; done).
      destruct (upd_slots_keeps _ _ _ _ _ _ Em k x Hk) as (x' & Hx' & Hb'). exists k, x'. split; [done|]. lia.
    - cbn [rbind] in ES. apply rbind_Ok in ES as (ids & _ & ES). apply rbind_Ok in ES as (m & Em & ES).
      assert (slots ss' = m) as -> by (assert (ss' = mkSS m (begin_ ss) (end_ ss) (last_id ss)) as -> by congruence; done).
      destruct (contig_cover _ _ _ (start_time j + walltime j) (repr_contig _ _ H) ltac:(lia)) as (q & Hq & Hqs).
      assert (sb q = start_time j + walltime j).
      { destruct (decide (sb q < start_time j + walltime j)); [|lia]. exfalso.
        assert (q = R) as ->; [|lia].
        assert (se R < end_ ss) by lia.
        destruct H3 as [H3| ->].
        - eapply (contig_unique _ _ _ (start_time j + walltime j - 1) _ _ (repr_contig _ _ H)); [done|done|lia|lia].
        - exfalso. change ([] ++ f :: l) with (f :: l) in Eq. rewrite Eq in H. rewrite app_assoc in H.
          pose proof (repr_last_end _ _ _ H). lia. }
      destruct (upd_slots_keeps _ _ _ _ _ _ Em (sid q) q (repr_lookup _ _ _ H Hq)) as (x' & Hx' & Hb').
      exists (sid q), x'. split; [done|]. lia. }
  exists h. split; [done|]. exact HC.
Qed.

(** * The alternatives *)
Inductive alts (qc : option qconf) (hy : hierarchy) (ss : slotset) (w : wjob) (min : Z) :
    list rqt -> cache -> list (option (procset * Z * Z)) -> cache -> Prop :=
| alts_nil ch : alts qc hy ss w min [] ch [] ch
| alts_cons rq rqs ch o ch1 os ch2 :
    find_first qc hy ss ch w rq min = Ok (o, ch1) -> alts qc hy ss w min rqs ch1 os ch2 ->
    alts qc hy ss w min (rq :: rqs) ch (o :: os) ch2.

(** Alternative [rq] can finish at [tf], starting with slot [s] and resources [x]. *)
Definition offer (ss : slotset) (rq : rqt) (o : option (procset * Z * Z)) (s : slot) (x : procset) (tf : Z) : Prop :=
  exists l r, o = Some (x, l, r) /\ slots ss !! l = Some s /\ tf = sb s + r_wall rq - 1.

Lemma assign_loop_alts qc hy ss w min rqs : forall ch fin bst found bst' found' ch',
  assign_loop qc hy ss w min rqs ch fin bst found = Ok (bst', found', ch') ->
  exists os, alts qc hy ss w min rqs ch os ch' /\
    (found' = true <-> found = true \/ exists o, Some o ∈ os) /\
    ((bst' = bst /\ forall k rq o s x tf, rqs !! k = Some rq -> os !! k = Some o -> offer ss rq o s x tf -> fin <= tf) \/
     (exists i rq o s x tf el er, rqs !! i = Some rq /\ os !! i = Some o /\ offer ss rq o s x tf /\ tf < fin /\
        get_encompassing_slots (slots ss) (sb s) tf 0 = Ok (el, er) /\ bst' = Some (tf, sb s, x, rq, el, er) /\
        forall k rq' o' s' x' tf', rqs !! k = Some rq' -> os !! k = Some o' -> offer ss rq' o' s' x' tf' ->
          tf <= tf' /\ ((k < i)%nat -> tf < tf'))).
Proof.
  induction rqs as [|rq rqs IH]; intros ch fin bst found bst' found' ch' E; cbn [assign_loop] in E.
  - exists []. assert (bst' = bst /\ found' = found /\ ch' = ch) as (-> & -> & ->) by (split_and!; congruence).
    split; [constructor|]. split.
    + split; [auto|]. intros [?|[o Ho]]; [done|]. by apply elem_of_nil in Ho.
    + left. split; [done|]. intros k rq o s x tf Hk. by rewrite lookup_nil in Hk.
  - apply rbind_Ok in E as ([o ch1] & Eo & E). destruct o as [[[x l] r]|].
    + apply rbind_Ok in E as (s & Es & E). apply dget_Ok in Es.
      destruct (_ <? fin) eqn:Ef.
      * apply rbind_Ok in E as ([el er] & EG & E). apply IH in E as (os & Ha & Hf & Hcase).
        exists (Some (x, l, r) :: os). split; [by econstructor|]. split.
        { rewrite Hf. split; [intros _; right; exists (x, l, r); by left|]. auto. }
        right. destruct Hcase as [[-> Hall]|(i & rq0 & o0 & s0 & x0 & tf0 & el0 & er0 & H1 & H2 & H3 & H4 & H5 & -> & Hall)].
        -- exists 0%nat, rq, (Some (x, l, r)), s, x, (sb s + r_wall rq - 1), el, er. cbn [lookup list_lookup].
           split; [done|]. split; [done|]. split; [exists l, r; done|]. split; [lia|]. split; [done|]. split; [done|].
           intros [|k] rq' o' s' x' tf' Hk Ho Hoff; cbn in Hk, Ho.
           ++ assert (rq' = rq /\ o' = Some (x, l, r)) as [-> ->] by (split; congruence).
              destruct Hoff as (l' & r' & E1 & E2 & ->). assert (l' = l) as -> by congruence.
              assert (s' = s) as -> by congruence. lia.
           ++ pose proof (Hall k rq' o' s' x' tf' Hk Ho Hoff). lia.
        -- exists (S i), rq0, o0, s0, x0, tf0, el0, er0. cbn [lookup list_lookup].
           split; [done|]. split; [done|]. split; [done|]. split; [lia|]. split; [done|]. split; [done|].
           intros [|k] rq' o' s' x' tf' Hk Ho Hoff; cbn in Hk, Ho.
           ++ assert (rq' = rq /\ o' = Some (x, l, r)) as [-> ->] by (split; congruence).
              destruct Hoff as (l' & r' & E1 & E2 & ->). assert (l' = l) as -> by congruence.
              assert (s' = s) as -> by congruence. lia.
           ++ destruct (Hall k rq' o' s' x' tf' Hk Ho Hoff). split; [lia|]. intros; apply H0; lia.
      * apply IH in E as (os & Ha & Hf & Hcase).
        exists (Some (x, l, r) :: os). split; [by econstructor|]. split.
        { rewrite Hf. split; [intros _; right; exists (x, l, r); by left|]. auto. }
        destruct Hcase as [[-> Hall]|(i & rq0 & o0 & s0 & x0 & tf0 & el0 & er0 & H1 & H2 & H3 & H4 & H5 & -> & Hall)].
        -- left. split; [done|]. intros [|k] rq' o' s' x' tf' Hk Ho Hoff; cbn in Hk, Ho; [|by eapply Hall].
           assert (rq' = rq /\ o' = Some (x, l, r)) as [-> ->] by (split; congruence).
           destruct Hoff as (l' & r' & E1 & E2 & ->). assert (l' = l) as -> by congruence.
           assert (s' = s) as -> by congruence. lia.
        -- right. exists (S i), rq0, o0, s0, x0, tf0, el0, er0. cbn [lookup list_lookup].
           split; [done|]. split; [done|]. split; [done|]. split; [lia|]. split; [done|]. split; [done|].
           intros [|k] rq' o' s' x' tf' Hk Ho Hoff; cbn in Hk, Ho.
           ++ assert (rq' = rq /\ o' = Some (x, l, r)) as [-> ->] by (split; congruence).
              destruct Hoff as (l' & r' & E1 & E2 & ->). assert (l' = l) as -> by congruence.
              assert (s' = s) as -> by congruence. lia.
           ++ destruct (Hall k rq' o' s' x' tf' Hk Ho Hoff). split; [lia|]. intros; apply H0; lia.
    + apply IH in E as (os & Ha & Hf & Hcase).
      exists (None :: os). split; [by econstructor|]. split.
      { rewrite Hf. split; (intros [?|[o Ho]]; [auto|right]).
        - exists o. by right.
        - apply elem_of_cons in Ho as [Ho|Ho]; [done|]. eauto. }
      destruct Hcase as [[-> Hall]|(i & rq0 & o0 & s0 & x0 & tf0 & el0 & er0 & H1 & H2 & H3 & H4 & H5 & -> & Hall)].
      * left. split; [done|]. intros [|k] rq' o' s' x' tf' Hk Ho Hoff; cbn in Hk, Ho; [|by eapply Hall].
        assert (o' = None) as -> by congruence. by destruct Hoff as (l' & r' & E1 & _).
      * right. exists (S i), rq0, o0, s0, x0, tf0, el0, er0. cbn [lookup list_lookup].
        split; [done|]. split; [done|]. split; [done|]. split; [lia|]. split; [done|]. split; [done|].
        intros [|k] rq' o' s' x' tf' Hk Ho Hoff; cbn in Hk, Ho.
        -- assert (o' = None) as -> by congruence. by destruct Hoff as (l' & r' & E1 & _).
        -- destruct (Hall k rq' o' s' x' tf' Hk Ho Hoff). split; [lia|]. intros; apply H0; lia.
Qed.

(** A valid cache stays valid. *)
Lemma find_first_valid qc hy ss ch w rq min o ch' : WF ss -> cache_valid ss ch -> 0 < r_wall rq ->
  find_first qc hy ss ch w rq min = Ok (o, ch') -> cache_valid ss ch'.
Proof.
  intros HW Hv Hw E.
  assert (Hl : forall x l r, o = Some (x, l, r) -> is_Some (slots ss !! l)).
  { intros x l r ->. destruct (find_first_sound _ _ _ _ _ _ _ _ _ _ _ HW Hv Hw E) as (p & (H1 & _) & -> & _). eauto. }
  unfold find_first in E. apply rbind_Ok in E as (i & _ & E). apply rbind_Ok in E as (ws & _ & E).
  apply rbind_Ok in E as (o' & _ & E). fold (eff qc w) in E.
  assert (Hsame : Ok (o', ch) = Ok (o, ch') -> cache_valid ss ch') by (intros E'; assert (ch' = ch) as -> by congruence; done).
  destruct o' as [[[x l] r]|]; [|by apply Hsame]. destruct (eff qc w); [by apply Hsame|].
  destruct (_ && _); [|by apply Hsame]. destruct (w_keys w !! r_mld rq) as [k|]; [|done].
  assert (ch' = <[k:=l]> ch /\ o = Some (x, l, r)) as [-> ->] by (split; congruence).
  intros k' i' Hk. destruct (decide (k' = k)) as [->|Hne].
  - rewrite lookup_insert in Hk. assert (i' = l) as -> by congruence. eauto.
  - rewrite lookup_insert_ne in Hk by done. by apply (Hv k').
Qed.

Lemma alts_sound qc hy ss w min rqs ch os ch' : WF ss -> cache_valid ss ch ->
  Forall (fun rq => 0 < r_wall rq) rqs ->
  alts qc hy ss w min rqs ch os ch' ->
  cache_valid ss ch' /\
  forall k rq x l r, rqs !! k = Some rq -> os !! k = Some (Some (x, l, r)) ->
    exists p, is_window ss (r_wall rq) p /\ l = sid p.1 /\ r = sid p.2 /\
      try_window (eff qc w) hy (slots ss) (w_job w) rq p = Ok (Some x).
Proof.
  intros HW Hv HF HA. induction HA as [ch|rq rqs ch o ch1 os ch2 E HA IH].
  - split; [done|]. intros k rq x l r Hk. by rewrite lookup_nil in Hk.
  - rewrite Forall_cons in HF. destruct HF as [Hw HF].
    assert (Hv1 := find_first_valid _ _ _ _ _ _ _ _ _ HW Hv Hw E). destruct (IH Hv1 HF) as [Hv2 H].
    split; [done|]. intros [|k] rq' x l r Hk Ho; cbn in Hk, Ho; [|by eapply H].
    assert (rq' = rq /\ o = Some (x, l, r)) as [-> ->] by (split; congruence).
    exact (find_first_sound _ _ _ _ _ _ _ _ _ _ _ HW Hv Hw E).
Qed.

(** What assign does, whatever the job. *)
Lemma assign_sound env qc hy ss ch w min ss' ch' w' :
  WF ss -> cache_valid ss ch -> job_ok (w_job w) -> Forall (fun rq => 0 < r_wall rq) (w_rqts w) ->
  assign env qc hy ss ch w min = Ok (ss', ch', w') ->
  cache_valid ss' ch' /\
  ((w' = unplaced w /\ ss' = ss) \/
   exists rq p x, rq ∈ w_rqts w /\ is_window ss (r_wall rq) p /\
     try_window (eff qc w) hy (slots ss) (w_job w) rq p = Ok (Some x) /\
     w' = placed w (sb p.1) x rq /\ inserted env ss (w_job w') ss').
Proof.
  intros HW Hv Hj HF E. unfold assign in E. apply rbind_Ok in E as (s1 & _ & E).
  apply rbind_Ok in E as ([[bst found] ch1] & EL & E).
  destruct (assign_loop_alts _ _ _ _ _ _ _ _ _ _ _ _ _ EL) as (os & HA & _ & Hcase).
  destruct (alts_sound _ _ _ _ _ _ _ _ _ HW Hv HF HA) as [Hv1 Hsound].
  destruct found; cbn [negb] in E.
  - destruct Hcase as [[-> _]|(i & rq & o & s & x & tf & el & er & H1 & H2 & (l & r & -> & H3 & H4) & _ & EG & -> & _)]; [done|].
    apply rbind_Ok in E as (ss1 & ES & E).
    assert (ss' = ss1 /\ ch' = ch1 /\ w' = placed w (sb s) x rq) as (-> & -> & ->) by (split_and!; congruence). clear E.
    destruct (Hsound i rq x l r H1 H2) as (p & Hp & -> & -> & Ht).
    assert (p.1 = s) as <- by (destruct Hp as (Hp1 & _); congruence).
    assert (Hw : 0 < r_wall rq) by (rewrite Forall_forall in HF; apply HF; by eapply elem_of_list_lookup_2).
    destruct (place_one env ss p.1 (w_job (placed w (sb p.1) x rq)) HW (proj1 Hp)) as (el' & er' & ss2 & EG' & ES' & HI); [done|done|done|].
    cbn [w_job placed with_sched walltime] in EG'. rewrite H4 in EG.
    assert (el' = el /\ er' = er) as [-> ->] by (split; congruence).
    assert (ss2 = ss1) as -> by congruence.
    split.
    + intros k i' Hk. destruct (Hv1 k i' Hk) as [z Hz]. destruct HI as (_ & _ & _ & HK & _).
      destruct (HK i' z Hz) as (z' & -> & _). eauto.
    + right. exists rq, p, x. split; [by eapply elem_of_list_lookup_2|]. split_and!; done.
  - assert (ss' = ss /\ ch' = ch1 /\ w' = unplaced w) as (-> & -> & ->) by (split_and!; congruence).
    split; [done|]. left. done.
Qed.

(** Without quotas, plain jobs: what the alternatives answer. *)
Lemma alts_earliest qc hy req_of ss w min rqs ch os ch' : WF ss -> cache_ok hy req_of ss ch -> keys_for req_of w ->
  plain (w_job w) -> eff qc w = None -> (forall rq, rq ∈ rqs -> rq ∈ w_rqts w) -> Forall (known_request hy) rqs ->
  alts qc hy ss w min rqs ch os ch' ->
  cache_ok hy req_of ss ch' /\ length os = length rqs /\
  forall t0, origin ss min t0 ->
  forall k rq o, rqs !! k = Some rq -> os !! k = Some o ->
    match o with
    | None => forall t, t0 <= t -> ~ can_start hy ss rq t
    | Some (x, l, r) => exists sl, slots ss !! l = Some sl /\ t0 <= sb sl /\ can_start hy ss rq (sb sl) /\
        forall t, t0 <= t < sb sl -> ~ can_start hy ss rq t
    end.
Proof.
  intros HW Hc Hkf Hp He Hsub HF HA. induction HA as [ch|rq rqs ch o ch1 os ch2 E HA IH].
  - split; [done|]. split; [done|]. intros t0 _ k rq o Hk. by rewrite lookup_nil in Hk.
  - rewrite Forall_cons in HF. destruct HF as [Hk HF].
    destruct (find_first_earliest qc hy req_of ss ch w rq min HW Hc Hkf ltac:(apply Hsub; by left) Hk Hp He)
      as (o' & ch1' & t1 & E' & Hc1 & Hor1 & Hspec).
    assert (o' = o /\ ch1' = ch1) as [-> ->] by (split; congruence).
    destruct (IH Hc1 ltac:(intros; apply Hsub; by right) HF) as (Hc2 & Hlen & H).
    split; [done|]. split; [cbn; lia|]. intros t0 Hor [|k] rq' o' Hk' Ho; cbn in Hk', Ho; [|by eapply H].
    assert (rq' = rq /\ o' = o) as [-> ->] by (split; congruence).
    assert (t0 = t1) as ->.
    { destruct Hor as [[Hm ->]|(Hm & i & s & Hs & Hms & ->)], Hor1 as [[Hm1 ->]|(Hm1 & i1 & s1 & Hs1 & Hms1 & ->)].
      - done.
      - exfalso. destruct HW as [l H0]. apply (repr_elem _ _ _ _ H0) in Hs1 as [Hs1 _]. pose proof (repr_bounds _ _ _ H0 Hs1). lia.
      - exfalso. destruct HW as [l H0]. apply (repr_elem _ _ _ _ H0) in Hs as [Hs _]. pose proof (repr_bounds _ _ _ H0 Hs). lia.
      - destruct HW as [l H0]. apply (repr_elem _ _ _ _ H0) in Hs as [Hs _], Hs1 as [Hs1 _].
        f_equal. by eapply (contig_unique _ _ _ min _ _ (repr_contig _ _ H0)). }
    destruct o as [[[x l] r]|]; [|done]. destruct Hspec as (sl & sr & H1 & H2 & H3 & H4 & H5 & H6 & H7).
    exists sl. split; [done|]. split; [done|]. split; [|done].
    by apply (try_window_Some None hy ss (w_job w) rq (sl, sr) x).
Qed.
