(** Insertion of jobs into a slot set: from the look-up of the encompassing slots to
    the content of the slot set at every instant. *)
From Verif Require Import Base SlotModel SlotSpec SlotProofs.

Lemma repr_next ss l1 s s' l2 : Repr ss (l1 ++ s :: s' :: l2) -> next s = sid s'.
Proof.
  intros H. pose proof (repr_linked _ _ H) as HL. apply linked_app in HL as [_ HL].
  cbn [linked headid] in HL. tauto.
Qed.
Lemma repr_next_last ss l1 s : Repr ss (l1 ++ [s]) -> next s = 0.
Proof.
  intros H. pose proof (repr_linked _ _ H) as HL. apply linked_app in HL as [_ HL].
  cbn [linked headid] in HL. tauto.
Qed.
Lemma repr_adj ss l1 s s' l2 : Repr ss (l1 ++ s :: s' :: l2) -> sb s' = se s + 1.
Proof.
  intros H. pose proof (repr_contig _ _ H) as HC. apply contig_app in HC as (m & _ & HC).
  cbn [contig] in HC. lia.
Qed.
Lemma repr_last_end ss l1 s : Repr ss (l1 ++ [s]) -> se s = end_ ss.
Proof.
  intros H. pose proof (repr_contig _ _ H) as HC. apply contig_app in HC as (m & _ & HC).
  cbn [contig] in HC. lia.
Qed.
Lemma repr_first_begin ss s l : Repr ss (s :: l) -> sb s = begin_ ss.
Proof. intros H. pose proof (repr_contig _ _ H) as HC. cbn [contig] in HC. lia. Qed.
Lemma repr_bounds ss l s : Repr ss l -> s ∈ l -> begin_ ss <= sb s /\ sb s <= se s /\ se s <= end_ ss.
Proof. intros H Hs. exact (contig_bounds _ _ _ _ (repr_contig _ _ H) Hs). Qed.

Lemma left_loop_spec ss tb l2 : forall l1 s fuel,
  Repr ss (l1 ++ s :: l2) -> tb <= end_ ss -> (length l2 <= fuel)%nat ->
  exists mid L post, s :: l2 = mid ++ L :: post /\
    left_loop fuel (slots ss) (sid s) tb = Ok (sid L) /\
    tb <= se L /\ sb L <= Z.max (sb s) tb.
Proof.
  induction l2 as [|a l2 IH]; intros l1 s fuel H Htb Hf.
  - exists [], s, []. split; [done|].
    assert (Hs : s ∈ l1 ++ [s]) by mem.
    pose proof (repr_last_end _ _ _ H).
    destruct fuel; cbn [left_loop]; rewrite (repr_dget _ _ _ H Hs); cbn [rbind];
      replace (se s <? tb) with false by lia; (split; [done|lia]).
  - assert (Hs : s ∈ l1 ++ s :: a :: l2) by mem.
    destruct (se s <? tb) eqn:E.
    + cbn in Hf. destruct fuel as [|fuel]; [lia|].
      pose proof (repr_next _ _ _ _ _ H) as Hn. pose proof (repr_adj _ _ _ _ _ H) as Ha.
      destruct (IH (l1 ++ [s]) a fuel) as (mid & L & post & Eq & E1 & H1 & H2).
      { rewrite <- app_assoc. exact H. } { done. } { lia. }
      exists (s :: mid), L, post. split; [cbn; congruence|].
      cbn [left_loop]. rewrite (repr_dget _ _ _ H Hs). cbn [rbind]. rewrite E, Hn.
      split; [done|]. lia.
    + exists [], s, (a :: l2). split; [done|].
      destruct fuel; cbn [left_loop]; rewrite (repr_dget _ _ _ H Hs); cbn [rbind];
        rewrite E; (split; [done|lia]).
Qed.

Lemma right_loop_spec ss te l2 : forall l1 s fuel,
  Repr ss (l1 ++ s :: l2) -> (length l2 <= fuel)%nat ->
  exists mid R post, s :: l2 = mid ++ R :: post /\
    right_loop fuel (slots ss) (sid s) te = Ok (sid R) /\
    (te <= se R \/ post = []) /\ sb R <= Z.max (sb s) te.
Proof.
  induction l2 as [|a l2 IH]; intros l1 s fuel H Hf.
  - exists [], s, []. split; [done|].
    assert (Hs : s ∈ l1 ++ [s]) by mem.
    pose proof (repr_next_last _ _ _ H) as Hn.
    destruct fuel; cbn [right_loop]; rewrite (repr_dget _ _ _ H Hs); cbn [rbind];
      rewrite Hn; cbn [Z.eqb negb]; rewrite andb_false_r; (split; [done|split; [auto|lia]]).
  - assert (Hs : s ∈ l1 ++ s :: a :: l2) by mem.
    pose proof (repr_next _ _ _ _ _ H) as Hn. pose proof (repr_adj _ _ _ _ _ H) as Ha.
    assert (Hsa : sid a <> 0).
    { eapply repr_nz; [exact H|]. mem. }
    destruct (se s <? te) eqn:E.
    + cbn in Hf. destruct fuel as [|fuel]; [lia|].
      destruct (IH (l1 ++ [s]) a fuel) as (mid & R & post & Eq & E1 & H1 & H2).
      { rewrite <- app_assoc. exact H. } { lia. }
      exists (s :: mid), R, post. split; [cbn; congruence|].
      cbn [right_loop]. rewrite (repr_dget _ _ _ H Hs). cbn [rbind]. rewrite E, Hn.
      replace (sid a =? 0) with false by lia. cbn [negb andb].
      split; [done|]. split; [done|]. lia.
    + exists [], s, (a :: l2). split; [done|].
      destruct fuel; cbn [right_loop]; rewrite (repr_dget _ _ _ H Hs); cbn [rbind];
        rewrite E; cbn [andb]; (split; [done|split; [left|]; lia]).
Qed.

Lemma head_app_cons {A} (mid : list A) x post L r :
  mid ++ x :: post = L :: r -> head (mid ++ [x]) = Some L.
Proof. destruct mid; cbn; congruence. Qed.

(** The slots found for a window [tb..te], starting the search from slot [s]. *)
Lemma get_encompassing_slots_spec ss l1 s l2 tb te :
  Repr ss (l1 ++ s :: l2) -> tb <= end_ ss ->
  exists pre mid R l3 L, l1 ++ s :: l2 = pre ++ mid ++ R :: l3 /\ head (mid ++ [R]) = Some L /\
    get_encompassing_slots (slots ss) tb te (sid s) = Ok (sid L, sid R) /\
    tb <= se L /\ sb L <= Z.max (sb s) tb /\
    (te <= se R \/ l3 = []) /\ sb R <= Z.max (sb L) te.
Proof.
  intros H Htb.
  assert (Hs : s ∈ l1 ++ s :: l2) by mem.
  pose proof (repr_size _ _ H) as Hsz. rewrite app_length in Hsz. cbn in Hsz.
  destruct (left_loop_spec ss tb l2 l1 s (size (slots ss)) H Htb) as (m1 & L & post & Eq & E1 & H1 & H2); [lia|].
  assert (H' : Repr ss ((l1 ++ m1) ++ L :: post)).
  { rewrite <- app_assoc. rewrite <- Eq. exact H. }
  pose proof (repr_size _ _ H') as Hsz'. rewrite !app_length in Hsz'. cbn in Hsz'.
  destruct (right_loop_spec ss te post (l1 ++ m1) L (size (slots ss)) H') as (m2 & R & l3 & Eq2 & E2 & H3 & H4); [lia|].
  exists (l1 ++ m1), m2, R, l3, L. split.
  { rewrite Eq, Eq2. rewrite <- app_assoc. done. }
  split; [symmetry in Eq2; exact (head_app_cons _ _ _ _ _ Eq2)|].
  unfold get_encompassing_slots. pose proof (repr_nz _ _ _ H Hs).
  replace (sid s =? 0) with false by lia. cbn [negb rbind].
  rewrite E1. cbn [rbind]. rewrite E2. cbn [rbind]. auto.
Qed.

(** * Insertion of one job at any cursor placed before it *)
Definition occ_end (j : job) : Z := start_time j + walltime j - 1.

Lemma insert_one env ss l1 s l2 j sub :
  Repr ss (l1 ++ s :: l2) -> job_ok j -> 0 <= walltime j ->
  begin_ ss <= start_time j + walltime j -> start_time j <= end_ ss ->
  sb s <= Z.max (begin_ ss) (start_time j) ->
  exists ss' h l1' L' l2' i r,
    get_encompassing_slots (slots ss) (start_time j) (start_time j + walltime j - 1) (sid s) = Ok (i, r) /\
    split_slots env ss i r j sub = Ok ss' /\
    Repr ss' (l1' ++ L' :: l2') /\ sid L' = i /\ sb L' <= Z.max (begin_ ss) (start_time j) /\
    begin_ ss' = begin_ ss /\ end_ ss' = end_ ss /\
    occ_end j <= h <= occ_end j + 1 /\
    (1 <= walltime j -> begin_ ss < start_time j + walltime j ->
     (forall k x, slots ss !! k = Some x -> se x <> start_time j + walltime j) -> h = occ_end j) /\
    (forall t c', content_at ss' t c' <->
       exists c, content_at ss t c /\ c' = if (start_time j <=? t) && (t <=? h) then updc env sub j c else c).
Proof.
  intros H Hj Hw Hb He Hs.
  destruct (get_encompassing_slots_spec ss l1 s l2 (start_time j) (start_time j + walltime j - 1) H He)
    as (pre & mid & R & l3 & L & Eq & Hh & EG & H1 & H2 & H3 & H4).
  rewrite Eq in H.
  assert (HL : L ∈ pre ++ mid ++ R :: l3).
  { destruct mid; cbn in Hh; injection Hh as <-; mem. }
  assert (HR : R ∈ pre ++ mid ++ R :: l3) by mem.
  pose proof (repr_bounds _ _ _ H HL) as HbL. pose proof (repr_bounds _ _ _ H HR) as HbR.
  assert (HlastR : l3 = [] -> se R = end_ ss).
  { intros ->. rewrite app_assoc in H. exact (repr_last_end _ _ _ H). }
  destruct (split_slots_spec env ss pre mid R l3 L j sub H Hh Hj Hw H1) as
    (ss' & ES & HWF & Hb' & He' & (l1' & L' & l2' & HR' & HiL & HbL') & HC); [lia|].
  set (lo := Z.max (sb L) (start_time j)) in *.
  set (hi := last_touched (start_time j + walltime j) (Z.max (sb R) (start_time j)) (se R)) in *.
  assert (Hhi : hi <= start_time j + walltime j /\ (occ_end j <= hi \/ hi = end_ ss)).
  { unfold hi, last_touched, occ_end. destruct (_ <? se R) eqn:E1; [destruct (_ =? _) eqn:E2|]; [lia|lia|].
    split; [lia|]. destruct H3 as [H3|H3]; [left; lia|right; auto]. }
  exists ss', (Z.max hi (occ_end j)), l1', L', l2', (sid L), (sid R).
  split; [done|]. split; [done|]. split; [done|]. split; [done|].
  split; [unfold lo in HbL'; lia|]. split; [done|]. split; [done|].
  split; [unfold occ_end in *; lia|]. split.
  { intros Hw1 Hb1 Hex.
    assert (HRex : se R <> start_time j + walltime j).
    { apply (Hex (sid R)). eapply repr_lookup; [exact H|done]. }
    unfold hi, last_touched, occ_end in *.
    destruct (_ <? se R) eqn:E1.
    - destruct (Z.max (sb R) (start_time j) =? _) eqn:E2; [|lia]. lia.
    - lia. }
  intros t c'. rewrite HC.
  assert (HE : forall c, content_at ss t c ->
     (lo <=? t) && (t <=? hi) = (start_time j <=? t) && (t <=? Z.max hi (occ_end j))).
  { intros c Hc. rewrite (content_at_cat _ _ _ _ H) in Hc.
    pose proof (cat_range _ _ _ _ _ (repr_contig _ _ H) Hc). unfold lo in *.
    destruct Hhi as [Hhi1 [Hhi2|Hhi2]]; lia. }
  split; intros (c & Hc & ->); exists c; (split; [done|]); rewrite (HE c Hc); done.
Qed.

(** * Insertion of a sorted list of jobs *)
Definition tails (js : list (job * Z)) : Prop :=
  Forall (fun p => occ_end (fst p) <= snd p <= occ_end (fst p) + 1) js.

Definition apply_jobs (env : qenv) (sub : bool) (t : Z) (js : list (job * Z)) (c : content) : content :=
  fold_left (fun c p => if (start_time (fst p) <=? t) && (t <=? snd p) then updc env sub (fst p) c else c) js c.

Definition sorted_starts (jobs : list job) : Prop :=
  StronglySorted (fun a b => start_time a <= start_time b) jobs.

Lemma content_at_range ss l t c : Repr ss l -> content_at ss t c -> begin_ ss <= t <= end_ ss.
Proof. intros H Hc. rewrite (content_at_cat _ _ _ _ H) in Hc. exact (cat_range _ _ _ _ _ (repr_contig _ _ H) Hc). Qed.

Lemma split_slots_jobs_loop_spec env sub jobs : forall ss l1 s l2,
  Repr ss (l1 ++ s :: l2) -> Forall job_ok jobs -> Forall (fun j => 0 <= walltime j) jobs ->
  sorted_starts jobs ->
  (forall j, j ∈ jobs -> sb s <= Z.max (begin_ ss) (start_time j)) ->
  exists ss' js, split_slots_jobs_loop env jobs sub ss (sid s) = Ok ss' /\
    WF ss' /\ begin_ ss' = begin_ ss /\ end_ ss' = end_ ss /\ fst <$> js = jobs /\ tails js /\
    (forall t c', content_at ss' t c' <->
       exists c, content_at ss t c /\ c' = apply_jobs env sub t js c).
Proof.
  induction jobs as [|j jobs IH]; intros ss l1 s l2 H Hok Hw Hsort Hcur.
  - exists ss, []. split; [done|]. split; [eexists; done|]. split; [done|]. split; [done|]. split; [done|].
    split; [constructor|]. intros t c'. cbn. split; [eauto|]. intros (c & Hc & ->). done.
  - apply Forall_cons in Hok as [Hok1 Hok]. apply Forall_cons in Hw as [Hw1 Hw].
    inversion Hsort as [|? ? Hsort' Hhd]; subst. rewrite Forall_forall in Hhd.
    cbn [split_slots_jobs_loop].
    destruct (negb (start_time j + walltime j <? begin_ ss) && negb (end_ ss <? start_time j)) eqn:EG.
    + destruct (insert_one env ss l1 s l2 j sub H Hok1 Hw1) as
        (ss1 & h & l1' & L' & l2' & i & r & E1 & E2 & H1 & Hi & HbL & Hb1 & He1 & Hh & _ & HC1);
        [lia|lia|apply Hcur; mem|].
      destruct (IH ss1 l1' L' l2' H1 Hok Hw Hsort') as (ss' & js & E3 & HWF & Hb' & He' & Hfst & Htl & HC).
      { intros j' Hj'. specialize (Hhd _ Hj'). cbn in Hhd. rewrite Hb1. lia. }
      exists ss', ((j, h) :: js). rewrite E1. cbn [rbind]. rewrite E2. cbn [rbind]. rewrite <- Hi.
      split; [done|]. split; [done|]. split; [congruence|]. split; [congruence|].
      split; [cbn; congruence|]. split; [constructor; [cbn; lia|done]|].
      intros t c'. rewrite HC. setoid_rewrite HC1. cbn [apply_jobs fold_left fst snd]. split.
      * intros (c & (c0 & Hc0 & ->) & ->). exists c0. done.
      * intros (c0 & Hc0 & ->). eexists. split; [eexists; split; [exact Hc0|reflexivity]|]. done.
    + destruct (IH ss l1 s l2 H Hok Hw Hsort') as (ss' & js & E3 & HWF & Hb' & He' & Hfst & Htl & HC).
      { intros j' Hj'. apply Hcur. apply elem_of_cons. auto. }
      exists ss', ((j, occ_end j) :: js).
      split; [done|]. split; [done|]. split; [congruence|]. split; [congruence|].
      split; [cbn; congruence|]. split; [constructor; [cbn; lia|done]|].
      intros t c'. rewrite HC. cbn [apply_jobs fold_left fst snd].
      assert (HN : forall c, content_at ss t c -> (start_time j <=? t) && (t <=? occ_end j) = false).
      { intros c Hc. pose proof (content_at_range _ _ _ _ H Hc). unfold occ_end. lia. }
      split; intros (c & Hc & ->); exists c; (split; [done|]); rewrite (HN c Hc); done.
Qed.

Lemma split_slots_jobs_spec env sub jobs ss :
  WF ss -> Forall job_ok jobs -> Forall (fun j => 0 <= walltime j) jobs -> sorted_starts jobs ->
  exists ss' js, split_slots_jobs env ss jobs sub = Ok ss' /\
    WF ss' /\ begin_ ss' = begin_ ss /\ end_ ss' = end_ ss /\ fst <$> js = jobs /\ tails js /\
    (forall t c', content_at ss' t c' <->
       exists c, content_at ss t c /\ c' = apply_jobs env sub t js c).
Proof.
  intros [l H] Hok Hw Hs. destruct l as [|s l]; [destruct (repr_ne _ _ H); done|].
  unfold split_slots_jobs. rewrite (first_spec _ _ _ H). cbn [rbind].
  apply (split_slots_jobs_loop_spec env sub jobs ss [] s l H Hok Hw Hs).
  intros j _. rewrite (repr_first_begin _ _ _ H). lia.
Qed.

(** A single job: exact end. *)
Lemma split_slots_jobs_one env sub j ss :
  WF ss -> job_ok j -> 0 <= walltime j ->
  exists ss' h, split_slots_jobs env ss [j] sub = Ok ss' /\
    WF ss' /\ begin_ ss' = begin_ ss /\ end_ ss' = end_ ss /\
    occ_end j <= h <= occ_end j + 1 /\
    (1 <= walltime j -> start_time j + walltime j <> begin_ ss ->
     (forall k x, slots ss !! k = Some x -> se x <> start_time j + walltime j) -> h = occ_end j) /\
    (forall t c', content_at ss' t c' <->
       exists c, content_at ss t c /\ c' = if (start_time j <=? t) && (t <=? h) then updc env sub j c else c).
Proof.
  intros [l H] Hok Hw. destruct l as [|s l]; [destruct (repr_ne _ _ H); done|].
  unfold split_slots_jobs. rewrite (first_spec _ _ _ H). cbn [rbind split_slots_jobs_loop].
  destruct (negb (start_time j + walltime j <? begin_ ss) && negb (end_ ss <? start_time j)) eqn:EG.
  - destruct (insert_one env ss [] s l j sub H Hok Hw) as
      (ss1 & h & l1' & L' & l2' & i & r & E1 & E2 & H1 & Hi & HbL & Hb1 & He1 & Hh & Hex & HC1);
      [lia|lia|rewrite (repr_first_begin _ _ _ H); lia|].
    exists ss1, h. rewrite E1. cbn [rbind]. rewrite E2. cbn [rbind].
    split; [done|]. split; [eexists; done|]. split; [done|]. split; [done|]. split; [lia|].
    split; [|done]. intros. apply Hex; try done. lia.
  - exists ss, (occ_end j). split; [done|]. split; [eexists; done|]. split; [done|]. split; [done|].
    split; [lia|]. split; [done|]. intros t c'.
    assert (HN : forall c, content_at ss t c -> (start_time j <=? t) && (t <=? occ_end j) = false).
    { intros c Hc. pose proof (content_at_range _ _ _ _ H Hc). unfold occ_end. lia. }
    split; [intros Hc|intros (c & Hc & ->)].
    + exists c'. split; [done|]. rewrite (HN _ Hc). done.
    + rewrite (HN _ Hc). done.
Qed.

(** * What remains free *)
Lemma sub_itvs env j c c' : upd_content env true j c = Ok c' -> itvs c' = itvs c ∖ res_set j.
Proof.
  unfold upd_content, sub_content. intros H.
  apply rbind_Ok in H as (c1 & H1 & H). apply rbind_Ok in H as (c2 & H2 & H).
  apply rbind_Ok in H as (c3 & H3 & H). injection H as <-.
  assert (E1 : itvs c1 = itvs c ∖ res_set j).
  { unfold sub_ts in H1. destruct (jts j); [|injection H1 as <-; done].
    destruct (jts_user j); [|done]. destruct (jts_name j); [|done]. cbn in H1. injection H1 as <-. done. }
  assert (E2 : itvs c2 = itvs c1).
  { unfold sub_ph_allow in H2. destruct (_ =? _); [|injection H2 as <-; done].
    destruct (jph_name j); [|done]. cbn in H2. destruct (_ !! _); injection H2 as <-; done. }
  assert (E3 : itvs c3 = itvs c2).
  { unfold sub_ph_set in H3. destruct (_ =? _); [|injection H3 as <-; done].
    destruct (jph_name j); [|done]. cbn in H3. injection H3 as <-; done. }
  unfold sub_quotas. destruct (quotas c3); [destruct (has_type _ _)|]; cbn [itvs]; congruence.
Qed.

Lemma add_itvs env j c c' : upd_content env false j c = Ok c' ->
  itvs c' = if negb (jts j) && (jph j =? NO_PLACEHOLDER) then itvs c ∪ res_set j else itvs c.
Proof.
  unfold upd_content, add_content. intros H.
  apply rbind_Ok in H as (c1 & H1 & H2).
  match type of H1 with add_ts _ ?x = _ => set (c0 := x) in * end.
  assert (E0 : itvs c0 = if negb (jts j) && (jph j =? NO_PLACEHOLDER) then itvs c ∪ res_set j else itvs c).
  { unfold c0. destruct (negb _ && _); done. }
  rewrite <- E0.
  assert (E1 : itvs c1 = itvs c0).
  { unfold add_ts in H1. destruct (jts j); [|injection H1 as <-; done].
    destruct (jts_user j); [|done]. destruct (jts_name j); [|done]. cbn in H1. injection H1 as <-. done. }
  unfold add_ph in H2. destruct (_ =? PLACEHOLDER); [|injection H2 as <-; done].
  destruct (jph_name j); [|done]. cbn in H2. injection H2 as <-. done.
Qed.

Lemma updc_sub_itvs env j c : job_ok j -> itvs (updc env true j c) = itvs c ∖ res_set j.
Proof. intros Hj. apply (sub_itvs env). apply upd_content_ok. done. Qed.

Lemma updc_add_itvs env j c : job_ok j ->
  itvs (updc env false j c) = if negb (jts j) && (jph j =? NO_PLACEHOLDER) then itvs c ∪ res_set j else itvs c.
Proof. intros Hj. apply (add_itvs env). apply upd_content_ok. done. Qed.

Lemma apply_jobs_sub_itvs env t js : forall c r,
  Forall (fun p => job_ok (fst p)) js ->
  r ∈ itvs (apply_jobs env true t js c) <->
  r ∈ itvs c /\ (forall p, p ∈ js -> start_time (fst p) <= t <= snd p -> r ∉ res_set (fst p)).
Proof.
  induction js as [|[j h] js IH]; intros c r Hok.
  - cbn. split; [intros; split; [done|]; intros p Hp; apply elem_of_nil in Hp; done|tauto].
  - apply Forall_cons in Hok as [Hok1 Hok]. cbn [apply_jobs fold_left fst snd].
    change (fold_left _ js ?x) with (apply_jobs env true t js x). rewrite IH by done.
    destruct ((start_time j <=? t) && (t <=? h)) eqn:E.
    + rewrite updc_sub_itvs by done. rewrite elem_of_difference. split.
      * intros [[H1 H2] H3]. split; [done|]. intros p Hp. apply elem_of_cons in Hp as [->|Hp]; [done|]. auto.
      * intros [H1 H2]. split; [split; [done|]|].
        -- apply (H2 (j, h)); [apply elem_of_cons; auto|]. cbn. lia.
        -- intros p Hp. apply H2. apply elem_of_cons; auto.
    + split.
      * intros [H1 H3]. split; [done|]. intros p Hp Ht. apply elem_of_cons in Hp as [->|Hp]; [cbn in Ht; lia|]. auto.
      * intros [H1 H2]. split; [done|]. intros p Hp. apply H2. apply elem_of_cons; auto.
Qed.

Lemma tails_ok js jobs : fst <$> js = jobs -> Forall job_ok jobs -> Forall (fun p : job * Z => job_ok (fst p)) js.
Proof. intros <-. rewrite Forall_fmap. done. Qed.

Lemma insert_jobs_free env jobs ss :
  WF ss -> Forall job_ok jobs -> Forall (fun j => 0 <= walltime j) jobs -> sorted_starts jobs ->
  exists ss', split_slots_jobs env ss jobs true = Ok ss' /\
    WF ss' /\ begin_ ss' = begin_ ss /\ end_ ss' = end_ ss /\
    (forall t r, free_at ss' t r ->
       free_at ss t r /\
       forall j, j ∈ jobs -> start_time j <= t < start_time j + walltime j -> r ∉ res_set j) /\
    (forall t r, free_at ss t r ->
       (forall j, j ∈ jobs -> start_time j <= t <= start_time j + walltime j -> r ∉ res_set j) ->
       free_at ss' t r).
Proof.
  intros HWF Hok Hw Hs.
  destruct (split_slots_jobs_spec env true jobs ss HWF Hok Hw Hs) as (ss' & js & E & HWF' & Hb & He & Hf & Ht & HC).
  pose proof (tails_ok _ _ Hf Hok) as Hokj.
  exists ss'. split; [done|]. split; [done|]. split; [done|]. split; [done|].
  unfold tails in Ht. rewrite Forall_forall in Ht. split.
  - intros t r (c' & Hc' & Hr). apply HC in Hc' as (c & Hc & ->).
    apply apply_jobs_sub_itvs in Hr as [Hr1 Hr2]; [|done]. split; [exists c; done|].
    intros j Hj Hjt. rewrite <- Hf in Hj. apply elem_of_list_fmap in Hj as (p & -> & Hp).
    apply (Hr2 p Hp). specialize (Ht p Hp). cbn in Ht. unfold occ_end in Ht. lia.
  - intros t r (c & Hc & Hr) Hall. exists (apply_jobs env true t js c). split; [apply HC; eauto|].
    apply apply_jobs_sub_itvs; [done|]. split; [done|]. intros p Hp Hpt.
    apply Hall; [rewrite <- Hf; apply elem_of_list_fmap; eauto|].
    specialize (Ht p Hp). cbn in Ht. unfold occ_end in Ht. lia.
Qed.

Lemma insert_one_free_exact env j ss :
  WF ss -> job_ok j -> 1 <= walltime j -> start_time j + walltime j <> begin_ ss ->
  (forall k x, slots ss !! k = Some x -> se x <> start_time j + walltime j) ->
  exists ss', split_slots_jobs env ss [j] true = Ok ss' /\ WF ss' /\
    forall t r, free_at ss' t r <->
       free_at ss t r /\ (start_time j <= t < start_time j + walltime j -> r ∉ res_set j).
Proof.
  intros HWF Hok Hw Hb Hex.
  destruct (split_slots_jobs_one env true j ss HWF Hok) as (ss' & h & E & HWF' & _ & _ & Hh & Hh' & HC); [lia|].
  specialize (Hh' Hw Hb Hex). subst h.
  exists ss'. split; [done|]. split; [done|]. intros t r. unfold free_at. setoid_rewrite HC. split.
  - intros (c' & (c & Hc & ->) & Hr). destruct ((start_time j <=? t) && (t <=? occ_end j)) eqn:E1.
    + rewrite updc_sub_itvs in Hr by done. apply elem_of_difference in Hr as [Hr1 Hr2]. split; [eauto|done].
    + split; [eauto|]. unfold occ_end in E1. lia.
  - intros ((c & Hc & Hr) & Hn). eexists. split; [eauto|].
    destruct ((start_time j <=? t) && (t <=? occ_end j)) eqn:E1; [|done].
    rewrite updc_sub_itvs by done. apply elem_of_difference. split; [done|]. apply Hn. unfold occ_end in E1. lia.
Qed.
