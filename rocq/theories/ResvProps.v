(** Advance reservations: C84-C87. *)
From Verif Require Import Base SlotModel SlotSpec SlotProofs SlotJobs SlotLookup SlotOps SlotCheck SlotProps SlotShare
  HierarchyModel HierarchySpec HierarchyProofs HierarchyProps QuotasModel QuotasSpec QuotasProofs LoadModel SchedModel SchedSpec SchedProofs SchedAssign SchedRound SchedProps QuotasProps ResvModel ResvSpec.

(** * The slots of a reservation *)
Lemma enc_slots ss st te : WF ss -> begin_ ss <= st -> st <= te -> te <= end_ ss ->
  exists L R, get_encompassing_slots (slots ss) st te 0 = Ok (sid L, sid R) /\ slots ss !! sid L = Some L /\ slots ss !! sid R = Some R /\ sb L <= st <= se L /\ sb R <= te <= se R /\ sb L <= sb R.
Proof.
  intros [l H] H1 H2 H3. destruct l as [|s l]; [destruct (repr_ne _ _ H); done|]. pose proof (repr_first_begin _ _ _ H) as Hb.
  destruct (get_encompassing_slots_spec ss [] s l st te H ltac:(lia)) as (pre & mid & R & l3 & L & El & Hh & E & H4 & H5 & H6 & H7).
  cbn [app] in El. exists L, R. assert (HL : L ∈ s :: l).
  { rewrite El. destruct mid; cbn in Hh; injection Hh as <-; mem. }
  assert (HR : R ∈ s :: l) by (rewrite El; mem). split.
  { rewrite <- E. unfold get_encompassing_slots. rewrite (first_spec _ _ _ H). cbn [rbind negb Z.eqb].
    pose proof (repr_nz _ _ s H ltac:(left)). replace (sid s =? 0) with false by lia. done. }
  split; [by eapply repr_lookup|]. split; [by eapply repr_lookup|]. pose proof (repr_bounds _ _ _ H HL). pose proof (repr_bounds _ _ _ H HR).
  split; [lia|]. assert (te <= se R) as HteR.
  { destruct H6 as [?| ->]; [done|]. rewrite El in H. rewrite app_assoc in H. pose proof (repr_last_end _ _ _ H). lia. }
  assert (sb L <= sb R).
  { pose proof (repr_contig _ _ H) as HC. rewrite El in HC. apply contig_app in HC as (a & _ & HC). destruct mid as [|m mid]; cbn in Hh; injection Hh as <-; [lia|]. cbn [app contig] in HC. destruct HC as (E1 & E2 & HC). pose proof (contig_bounds _ _ _ R HC ltac:(mem)). lia. }
  split; [|done]. split; [|done]. lia.
Qed.
Lemma enc_free ss st te L R r : WF ss -> slots ss !! sid L = Some L -> slots ss !! sid R = Some R -> sb L <= st <= se L -> sb R <= te <= se R -> st <= te ->
  (forall u, sb L <= u <= se R -> free_at ss u r) <-> (forall u, st <= u <= te -> free_at ss u r).
Proof.
  intros HW HL HR H1 H2 H3. split; intros H u Hu; [apply H; lia|]. destruct (decide (u < st)) as [Hlt|Hge].
  { apply (free_at_slot ss L); [done|done|lia|]. apply (free_at_slot ss L st); [done|done|lia|]. apply H. lia. }
  destruct (decide (te < u)) as [Hlt|Hge2]; [|apply H; lia].
  apply (free_at_slot ss R); [done|done|lia|]. apply (free_at_slot ss R te); [done|done|lia|]. apply H. lia.
Qed.
Lemma resv_avail ss st te j : WF ss -> plain j -> begin_ ss <= st -> st <= te -> te <= end_ ss ->
  exists L R X, get_encompassing_slots (slots ss) st te 0 = Ok (sid L, sid R) /\ slots ss !! sid L = Some L /\ slots ss !! sid R = Some R /\ sb L <= st <= se L /\ sb R <= te <= se R /\ sb L <= sb R /\
    avail (slots ss) (sid L) (sid R) j = Ok X /\ forall r, r ∈ X <-> forall u, st <= u <= te -> free_at ss u r.
Proof.
  intros HW [Hts Hph] H1 H2 H3. destruct (enc_slots ss st te HW H1 H2 H3) as (L & R & E & HL & HR & H4 & H5 & H6).
  destruct (intersec_WF ss _ _ _ _ HW HL HR H6) as (X & EX & HX). exists L, R, X. split; [done|]. split; [done|]. split; [done|]. split; [done|]. split; [done|]. split; [done|]. split.
  - unfold avail. rewrite Hts, Hph. cbn [orb]. by replace (NO_PLACEHOLDER =? ALLOW) with false by done.
  - intros r. rewrite HX. by apply enc_free.
Qed.
Lemma resv_split env ss j : WF ss -> job_ok j -> 0 <= walltime j -> begin_ ss <= start_time j -> start_time j + walltime j <= end_ ss ->
  exists l r ss' h, get_encompassing_range (slots ss) (start_time j) (start_time j + walltime j) = Ok (l, r) /\ split_slots env ss l r j true = Ok ss' /\
    WF ss' /\ begin_ ss' = begin_ ss /\ end_ ss' = end_ ss /\ occ_end j <= h <= occ_end j + 1 /\
    (forall t c', content_at ss' t c' <-> exists c, content_at ss t c /\ c' = if (start_time j <=? t) && (t <=? h) then updc env true j c else c).
Proof.
  intros HW Hj Hw H1 H2. destruct (get_encompassing_range_spec ss (start_time j) (start_time j + walltime j) HW ltac:(lia) ltac:(lia) ltac:(lia)) as (f & e & L & R & E & HL & H3 & HR & H4).
  destruct HW as [l H]. destruct (repr_elem _ _ _ _ H HL) as [HLin <-]. destruct (repr_elem _ _ _ _ H HR) as [HRin <-].
  assert (Hle : sb L <= sb R).
  { destruct (decide (sb R < sb L)) as [Hlt|]; [|lia]. exfalso. pose proof (contig_unique _ _ _ (sb L) L R (repr_contig _ _ H) HLin HRin ltac:(lia) ltac:(lia)) as ->. lia. }
  destruct (repr_between _ _ _ _ H HLin HRin Hle) as (l1 & mid & l3 & -> & Hh).
  destruct (split_slots_spec env ss l1 mid R l3 L j true H Hh Hj Hw ltac:(lia) ltac:(lia)) as (ss' & E2 & HW' & Hb & He & _ & HC).
  exists (sid L), (sid R), ss', (last_touched (start_time j + walltime j) (Z.max (sb R) (start_time j)) (se R)). split; [done|]. split; [done|]. split; [done|]. split; [done|]. split; [done|]. split.
  - unfold occ_end, last_touched. destruct (_ <? se R) eqn:E1; [destruct (_ =? _) eqn:E3; lia|lia].
  - intros t c'. rewrite HC. by replace (Z.max (sb L) (start_time j)) with (start_time j) by lia.
Qed.

(** * C84. Accepted reservations *)
(** What an acceptance is, whatever the quotas. *)
Definition resv_facts (hy : hierarchy) (sec now : Z) (ss : slotset) (w : wjob) (rq : rqt) (ss' : slotset) (st : Z) (x : procset) : Prop :=
  st = place now w /\ x <> ∅ /\ (forall r t, r ∈ x -> st <= t <= st + r_wall rq - sec -> free_at ss t r) /\
  served_by hy (r_groups rq) (fun r => forall t, st <= t <= st + r_wall rq - sec -> free_at ss t r) x /\
  WF ss' /\ begin_ ss' = begin_ ss /\ end_ ss' = end_ ss /\
  (forall r t, r ∈ x -> st <= t < st + r_wall rq -> ~ free_at ss' t r) /\
  (forall r t, r ∉ x \/ t < st \/ st + r_wall rq < t -> free_at ss' t r <-> free_at ss t r).
Lemma plain_ok j : plain j -> job_ok j.
Proof. intros [H1 H2]. split; [congruence|]. rewrite H2. by intros [?|?]. Qed.
Lemma resv_cases env qc hy sec now ss w rq : WF ss -> ordinary hy sec now ss w rq ->
  exists L R X x, slots ss !! sid L = Some L /\ slots ss !! sid R = Some R /\ sb L <= place now w <= se L /\ sb R <= place now w + r_wall rq - sec <= se R /\ sb L <= sb R /\
    (forall r, r ∈ X <-> forall u, place now w <= u <= place now w + r_wall rq - sec -> free_at ss u r) /\ find_resource_hierarchies_job X (r_groups rq) hy = Ok x /\
    resv_one env qc hy sec now ss w =
      (ok <-- match qc with None => Ok true | Some cf => v <-- check_slots_quotas cf (slots ss) (sid L) (sid R) (w_job w) (nb_counted cf x) (r_wall rq) ;; Ok (match v with QOk => true | _ => false end) end ;;
       if negb ok || negb (nonempty x) then Ok (ss, Refused)
       else '(l, r) <-- get_encompassing_range (slots ss) (place now w) (place now w + r_wall rq) ;;
            ss' <-- split_slots env ss l r (with_sched (w_job w) (place now w) (r_wall rq) x) true ;; Ok (ss', Accepted (place now w) x rq)).
Proof.
  intros HW (Hrq & Hp & (Hne & Hw & Hk) & Hsec & Hb & Hnow & He). assert (Hst : (if start_time (w_job w) <? now then now else start_time (w_job w)) = place now w) by (unfold place; destruct (_ <? _) eqn:E; lia).
  assert (Hbp : begin_ ss <= place now w) by (unfold place; lia).
  destruct (resv_avail ss (place now w) (place now w + r_wall rq - sec) (w_job w) HW Hp Hbp ltac:(lia) ltac:(lia)) as (L & R & X & E1 & HL & HR & H1 & H2 & H3 & E2 & HX).
  destruct (find_job_total X hy _ Hk) as [x Ex]. exists L, R, X, x. repeat (split; [done|]).
  unfold resv_one. destruct (w_rqts w) as [|rq' l]; [done|]. injection Hrq as ->. replace (start_time (w_job w) + r_wall rq <=? now) with false by lia. rewrite Hst, E1. cbn [rbind]. rewrite E2. cbn [rbind]. rewrite Ex. done.
Qed.
Lemma resv_accept env hy sec now ss w rq X x : WF ss -> ordinary hy sec now ss w rq -> (forall r, r ∈ X <-> forall u, place now w <= u <= place now w + r_wall rq - sec -> free_at ss u r) ->
  find_resource_hierarchies_job X (r_groups rq) hy = Ok x -> x <> ∅ ->
  exists ss', ('(l, r) <-- get_encompassing_range (slots ss) (place now w) (place now w + r_wall rq) ;; ss' <-- split_slots env ss l r (with_sched (w_job w) (place now w) (r_wall rq) x) true ;; Ok (ss', Accepted (place now w) x rq)) = Ok (ss', Accepted (place now w) x rq) /\
    resv_facts hy sec now ss w rq ss' (place now w) x.
Proof.
  intros HW (Hrq & Hp & (Hne & Hw & Hk) & Hsec & Hb & Hnow & He) HX Ex Hx. set (j := with_sched (w_job w) (place now w) (r_wall rq) x). assert (Hj : job_ok j) by (apply plain_ok; exact Hp). assert (Hbp : begin_ ss <= place now w) by (unfold place; lia).
  destruct (resv_split env ss j HW Hj ltac:(cbn; lia) ltac:(cbn; lia) ltac:(cbn; lia)) as (l & r & ss' & h & E1 & E2 & HW' & Hb' & He' & Hh & HC). cbn in E1. exists ss'. rewrite E1. cbn [rbind]. rewrite E2. cbn [rbind]. split; [done|].
  unfold occ_end in Hh. change (start_time j) with (place now w) in *. change (walltime j) with (r_wall rq) in *. change (res_set j) with x in *.
  split; [done|]. split; [done|]. destruct (find_job_within _ _ _ _ Ex) as [Hin _]. split; [intros y t Hy; apply HX; set_solver|]. split; [destruct (find_job_sound _ _ _ _ Hk Ex Hx) as (parts & -> & HF); exists X, parts; done|].
  split; [done|]. split; [done|]. split; [done|]. split.
  - intros y t Hy Ht (c' & Hc' & Hr'). apply HC in Hc' as (c & Hc & ->). replace ((place now w <=? t) && (t <=? h)) with true in Hr' by lia. rewrite updc_sub_itvs in Hr' by done. change (res_set j) with x in Hr'. set_solver.
  - intros y t Hy. unfold free_at. setoid_rewrite HC. split.
    + intros (c' & (c & Hc & ->) & Hr'). exists c. split; [done|]. destruct (_ && _); [|done]. rewrite updc_sub_itvs in Hr' by done. set_solver.
    + intros (c & Hc & Hr'). eexists. split; [eauto|]. destruct ((place now w <=? t) && (t <=? h)) eqn:Et; [|done]. rewrite updc_sub_itvs by done. change (res_set j) with x. destruct Hy as [Hy|Hy]; [set_solver|]. exfalso. lia.
Qed.
(** An accepted reservation: placed at the announced start or now, on resources that serve the request
    and are free from there to the end of the announced walltime; they are no longer offered. *)
Theorem C84_accepted : forall env qc hy sec now ss w rq ss' st x rq', WF ss -> ordinary hy sec now ss w rq -> resv_one env qc hy sec now ss w = Ok (ss', Accepted st x rq') ->
  rq' = rq /\ resv_facts hy sec now ss w rq ss' st x.
Proof.
  intros env qc hy sec now ss w rq ss' st x rq' HW Ho H. destruct (resv_cases env qc hy sec now ss w rq HW Ho) as (L & R & X & y & _ & _ & _ & _ & _ & HX & Ex & E). rewrite E in H. apply rbind_Ok in H as (ok & _ & H).
  destruct (negb ok || negb (nonempty y)) eqn:En; [done|]. apply orb_false_iff in En as [_ En]. apply negb_false_iff, nonempty_true in En.
  destruct (resv_accept env hy sec now ss w rq X y HW Ho HX Ex En) as (ss1 & E1 & HF). rewrite E1 in H. injection H as <- <- <- <-. done.
Qed.
(** Without quotas: the answer always comes, and a reservation is accepted exactly when the request
    can be served for its announced walltime. *)
Theorem C84_decision : forall env hy sec now ss w rq, WF ss -> ordinary hy sec now ss w rq ->
  (can_start hy ss (announced sec rq) (place now w) /\ exists ss' x, resv_one env None hy sec now ss w = Ok (ss', Accepted (place now w) x rq)) \/
  (~ can_start hy ss (announced sec rq) (place now w) /\ resv_one env None hy sec now ss w = Ok (ss, Refused)).
Proof.
  intros env hy sec now ss w rq HW Ho. destruct (resv_cases env None hy sec now ss w rq HW Ho) as (L & R & X & x & _ & _ & _ & _ & _ & HX & Ex & E). cbn [rbind negb orb] in E.
  pose proof Ho as (Hrq & Hp & (Hne & Hw & Hk) & Hsec & Hb & Hnow & He). assert (Hbp : begin_ ss <= place now w) by (unfold place; lia).
  destruct (nonempty x) eqn:En; [left|right]; cbn [negb] in E.
  - apply nonempty_true in En. split.
    + split; [done|]. cbn [announced r_wall r_groups]. split; [lia|]. exists X. split; [intros r u Hr Hu; apply HX; [done|lia]|]. by apply (find_job_complete _ _ _ _ Hne Hk Ex).
    + destruct (resv_accept env hy sec now ss w rq X x HW Ho HX Ex En) as (ss1 & E1 & _). rewrite E1 in E. by exists ss1, x.
  - apply nonempty_false in En. split; [|done]. intros (_ & _ & Y & HY & Hs). cbn [announced r_wall r_groups] in *. apply (proj2 (find_job_complete _ _ _ _ Hne Hk Ex)); [|done]. eapply (satisfiable_mono hy _ Y X); [done| |done].
    intros y Hy. apply HX. intros u Hu. apply HY; [done|lia].
Qed.
(** The reservations of a round. *)
Lemma resv_frame env qc hy sec now ss w rq ss' a : WF ss -> ordinary hy sec now ss w rq -> resv_one env qc hy sec now ss w = Ok (ss', a) ->
  WF ss' /\ begin_ ss' = begin_ ss /\ end_ ss' = end_ ss /\ (forall t r, free_at ss' t r -> free_at ss t r) /\
  match a with Accepted st x rq' => rq' = rq /\ resv_facts hy sec now ss w rq ss' st x | _ => ss' = ss end.
Proof.
  intros HW Ho H. destruct a as [| |st x rq'].
  - destruct (resv_cases env qc hy sec now ss w rq HW Ho) as (L & R & X & y & _ & _ & _ & _ & _ & HX & Ex & E). rewrite E in H. apply rbind_Ok in H as (ok & _ & H).
    destruct (negb ok || negb (nonempty y)) eqn:En; [done|]. apply rbind_Ok in H as ([l r] & _ & H). apply rbind_Ok in H as (s2 & _ & H). done.
  - destruct (resv_cases env qc hy sec now ss w rq HW Ho) as (L & R & X & y & _ & _ & _ & _ & _ & HX & Ex & E). rewrite E in H. apply rbind_Ok in H as (ok & _ & H).
    destruct (negb ok || negb (nonempty y)) eqn:En; [injection H as <-; done|]. apply rbind_Ok in H as ([l r] & _ & H). apply rbind_Ok in H as (s2 & _ & H). done.
  - destruct (C84_accepted _ _ _ _ _ _ _ _ _ _ _ _ HW Ho H) as [-> HF]. pose proof HF as (E & Hx & H1 & _ & HW' & Hb & He & H2 & H3). split; [done|]. split; [done|]. split; [done|]. split; [|done].
    intros t r Hf. destruct (decide (r ∈ x /\ st <= t <= st + r_wall rq)) as [[Hr Ht]|Hn].
    + destruct (decide (t < st + r_wall rq)) as [Hlt|Hge]; [by destruct (H2 r t Hr ltac:(lia))|].
      (* the last instant: read the contents *)
      destruct (resv_cases env qc hy sec now ss w rq HW Ho) as (L & R & X & y & _ & _ & _ & _ & _ & HX & Ex & E2). rewrite E2 in H. apply rbind_Ok in H as (ok & _ & H).
      destruct (negb ok || negb (nonempty y)) eqn:En; [done|]. destruct Ho as (Hrq & Hp & (Hne & Hw & Hk) & Hsec & Hb0 & Hnow & He0).
      set (j := with_sched (w_job w) (place now w) (r_wall rq) y) in *. assert (Hj : job_ok j) by (apply plain_ok; exact Hp).
      destruct (resv_split env ss j HW Hj ltac:(cbn; lia) ltac:(cbn; unfold place; lia) ltac:(cbn; lia)) as (l & q & s1 & h & E1 & E3 & _ & _ & _ & _ & HC). cbn in E1. rewrite E1 in H. cbn [rbind] in H. rewrite E3 in H. cbn [rbind] in H. injection H as -> _ _.
      destruct Hf as (c' & Hc' & Hr'). apply HC in Hc' as (c & Hc & ->). exists c. split; [done|]. destruct (_ && _); [|done]. rewrite updc_sub_itvs in Hr' by done. set_solver.
    + apply H3; [|done]. destruct (decide (r ∈ x)); [|by left]. right. destruct (decide (t < st)); [by left|]. right. destruct (decide (st + r_wall rq < t)); [done|]. exfalso. apply Hn. split; [done|lia].
Qed.
Lemma ordinary_frame hy sec now ss ss' w rq : begin_ ss' = begin_ ss -> end_ ss' = end_ ss -> ordinary hy sec now ss w rq -> ordinary hy sec now ss' w rq.
Proof. intros Hb He (H1 & H2 & H3 & H4 & H5 & H6 & H7). unfold ordinary. rewrite Hb, He. done. Qed.
Lemma resv_loop_facts env qc hy sec now ws : forall ss ss' l, WF ss -> Forall (fun w => exists rq, ordinary hy sec now ss w rq) ws -> resv_loop env qc hy sec now ws ss = Ok (ss', l) ->
  length l = length ws /\ WF ss' /\ begin_ ss' = begin_ ss /\ end_ ss' = end_ ss /\ (forall t r, free_at ss' t r -> free_at ss t r) /\
  (forall i st x rq, l !! i = Some (Accepted st x rq) -> (forall r t, r ∈ x -> st <= t <= st + r_wall rq - sec -> free_at ss t r) /\ (forall r t, r ∈ x -> st <= t < st + r_wall rq -> ~ free_at ss' t r)) /\
  (forall i j st1 x1 rq1 st2 x2 rq2, (i < j)%nat -> l !! i = Some (Accepted st1 x1 rq1) -> l !! j = Some (Accepted st2 x2 rq2) -> forall r t, r ∈ x1 -> r ∈ x2 -> st1 <= t < st1 + r_wall rq1 -> ~ (st2 <= t <= st2 + r_wall rq2 - sec)).
Proof.
  induction ws as [|w ws IH]; intros ss ss' l HW HF H; cbn [resv_loop] in H.
  { injection H as <- <-. split; [done|]. split; [done|]. split; [done|]. split; [done|]. split; [done|]. split; [by intros i st x rq Hi|by intros i j st1 x1 rq1 st2 x2 rq2 _ Hi]. }
  apply Forall_cons in HF as [[rq Ho] HF]. apply rbind_Ok in H as ([s1 a] & E1 & H). apply rbind_Ok in H as ([s2 l'] & E2 & H). injection H as -> <-.
  destruct (resv_frame _ _ _ _ _ _ _ _ _ _ HW Ho E1) as (HW1 & Hb1 & He1 & Hm1 & Ha).
  assert (Forall (fun w => exists rq, ordinary hy sec now s1 w rq) ws) as HF' by (eapply Forall_impl; [exact HF|]; intros w' [rq' Ho']; exists rq'; by apply (ordinary_frame hy sec now ss)).
  destruct (IH s1 ss' l' HW1 HF' E2) as (Hlen & HW2 & Hb2 & He2 & Hm2 & H1 & H2). split; [cbn; lia|]. split; [done|]. split; [congruence|]. split; [congruence|]. split; [intros t r Hf; by apply Hm1, Hm2|].
  assert (Hlater : forall i st x rq0, l' !! i = Some (Accepted st x rq0) -> forall r t, r ∈ x -> st <= t <= st + r_wall rq0 - sec -> free_at s1 t r) by (intros i st x rq0 Hi; by destruct (H1 i st x rq0 Hi)).
  split.
  - intros [|i] st x rq0 Hi; cbn in Hi.
    + injection Hi as ->. destruct Ha as [-> (_ & _ & Hf & _ & _ & _ & _ & Hn & _)]. split; [done|]. intros r t Hr Ht Hfr. apply (Hn r t Hr Ht). by apply Hm2.
    + destruct (H1 i st x rq0 Hi) as [H3 H4]. split; [|done]. intros r t Hr Ht. apply Hm1. by apply H3.
  - intros [|i] [|j] st1 x1 rq1 st2 x2 rq2 Hij Hi Hj; [lia| |lia|]; cbn in Hi, Hj.
    + injection Hi as ->. destruct Ha as [-> (_ & _ & _ & _ & _ & _ & _ & Hn & _)]. intros r t Hr1 Hr2 Ht Ht2. apply (Hn r t Hr1 Ht). by apply (Hlater j st2 x2 rq2).
    + apply (H2 i j st1 x1 rq1 st2 x2 rq2); [lia|done|done].
Qed.
(** Two reservations accepted in a round never get the same resource at the same time: the announced
    time of the second is apart from the time of the first, its security time included. *)
Theorem C84_round : forall env qc hy sec now ws ss ss' l, WF ss -> Forall (fun w => exists rq, ordinary hy sec now ss w rq) ws -> resv_loop env qc hy sec now ws ss = Ok (ss', l) ->
  length l = length ws /\ WF ss' /\
  (forall i st x rq, l !! i = Some (Accepted st x rq) -> (forall r t, r ∈ x -> st <= t <= st + r_wall rq - sec -> free_at ss t r) /\ (forall r t, r ∈ x -> st <= t < st + r_wall rq -> ~ free_at ss' t r)) /\
  (forall i j st1 x1 rq1 st2 x2 rq2, (i < j)%nat -> l !! i = Some (Accepted st1 x1 rq1) -> l !! j = Some (Accepted st2 x2 rq2) -> forall r t, r ∈ x1 -> r ∈ x2 -> st1 <= t < st1 + r_wall rq1 -> ~ (st2 <= t <= st2 + r_wall rq2 - sec)).
Proof. intros env qc hy sec now ws ss ss' l HW HF H. destruct (resv_loop_facts _ _ _ _ _ _ _ _ _ HW HF H) as (H1 & H2 & _ & _ & _ & H3 & H4). done. Qed.
(** Without quotas the round always ends. *)
Theorem C84_round_ends : forall env hy sec now ws ss, WF ss -> Forall (fun w => exists rq, ordinary hy sec now ss w rq) ws -> exists out, resv_loop env None hy sec now ws ss = Ok out.
Proof.
  intros env hy sec now ws. induction ws as [|w ws IH]; intros ss HW HF; [by eexists|]. apply Forall_cons in HF as [[rq Ho] HF]. cbn [resv_loop].
  assert (exists ss' a, resv_one env None hy sec now ss w = Ok (ss', a)) as (ss' & a & E) by (destruct (C84_decision env hy sec now ss w rq HW Ho) as [[_ (ss' & x & E)]|[_ E]]; eauto).
  rewrite E. cbn [rbind]. destruct (resv_frame _ _ _ _ _ _ _ _ _ _ HW Ho E) as (HW1 & Hb1 & He1 & _).
  destruct (IH ss' HW1) as [[s2 l] E2]; [|rewrite E2; cbn [rbind]; by eexists]. eapply Forall_impl; [exact HF|]. intros w' [rq' Ho']. exists rq'. by apply (ordinary_frame hy sec now ss).
Qed.

(** Examples: eight cores, all taken from 70 on. *)
Definition rw (id st : Z) (noq : bool) (rqs : list rqt) : wjob :=
  mkWjob (mkJob id st 0 ∅ false None None 0 None "" "bob" "default" "p" []) rqs [] ∅ noq None (-1).
Definition busy70 : slotset := from_ok ex_ss (split_slots_jobs ex_env (ss_of_slot (mkSlot 1 0 0 0 1000 (fresh_content true (range 1 8)))) [ex_job 1 70 50 (range 1 8)] true).
Lemma busy70_WF : WF busy70.
Proof.
  assert (split_slots_jobs ex_env (ss_of_slot (mkSlot 1 0 0 0 1000 (fresh_content true (range 1 8)))) [ex_job 1 70 50 (range 1 8)] true = Ok busy70) as E by (apply from_ok_eq; vm_compute; reflexivity).
  destruct (C03_insert_job ex_env (ss_of_slot (mkSlot 1 0 0 0 1000 (fresh_content true (range 1 8)))) (ex_job 1 70 50 (range 1 8))) as (s & E2 & HW & _); [apply ss_of_slot_wf; lia|apply plain_ok; split; reflexivity|cbn [walltime ex_job]; lia|]. rewrite E in E2. injection E2 as <-. done.
Qed.
Definition answer_of (r : res (slotset * answer)) : option (Z * Z * Z) :=
  match r with Ok (_, Accepted st x rq) => Some (st, r_wall rq, Z.of_nat (size x)) | _ => None end.
Lemma answer_of_eq r st wall n : answer_of r = Some (st, wall, n) -> exists ss x rq, r = Ok (ss, Accepted st x rq) /\ r_wall rq = wall /\ Z.of_nat (size x) = n.
Proof. destruct r as [[ss [| |s x rq]]|]; cbn; try done. intros [= -> <- <-]. by exists ss, x, rq. Qed.
Lemma rw_ordinary id st noq wall n sec now : 0 < wall -> 0 < n -> 0 <= sec <= wall -> 0 <= now -> now < st + wall -> Z.max now st + wall <= 1000 -> ordinary ex_hy sec now busy70 (rw id st noq [ex_rq 1 wall n]) (ex_rq 1 wall n).
Proof.
  intros. assert (begin_ busy70 = 0 /\ end_ busy70 = 1000) as [Eb Ee] by (split; vm_compute; reflexivity). unfold ordinary. rewrite Eb, Ee. split; [done|]. split; [done|]. split; [by apply ex_rq_known|]. cbn [rw w_job start_time place ex_rq r_wall]. unfold place. cbn [rw w_job start_time]. lia.
Qed.
(** Refuted: the security time is not kept between a reservation and what follows it. *)
Theorem C84_security_refuted : exists env hy sec now ss w rq ss' st x t r,
  WF ss /\ ordinary hy sec now ss w rq /\ resv_one env None hy sec now ss w = Ok (ss', Accepted st x rq) /\ r ∈ x /\ st <= t < st + r_wall rq /\ ~ free_at ss t r.
Proof.
  assert (Ho : ordinary ex_hy 60 0 busy70 (rw 5 0 false [ex_rq 1 120 2]) (ex_rq 1 120 2)) by (apply rw_ordinary; lia).
  destruct (answer_of_eq (resv_one ex_env None ex_hy 60 0 busy70 (rw 5 0 false [ex_rq 1 120 2])) 0 120 2) as (ss' & x & rq & E & Ew & Es); [vm_compute; reflexivity|].
  destruct (C84_accepted _ _ _ _ _ _ _ _ _ _ _ _ busy70_WF Ho E) as [-> HF]. destruct HF as (_ & Hx & Hf & _). destruct (set_choose_L x Hx) as [r Hr].
  exists ex_env, ex_hy, 60, 0, busy70, (rw 5 0 false [ex_rq 1 120 2]), (ex_rq 1 120 2), ss', 0, x, 80, r. split; [exact busy70_WF|]. split; [exact Ho|]. split; [exact E|]. split; [done|]. split; [cbn; lia|].
  intros H80. assert (E7 : split_slots_jobs ex_env (ss_of_slot (mkSlot 1 0 0 0 1000 (fresh_content true (range 1 8)))) [ex_job 1 70 50 (range 1 8)] true = Ok busy70) by (apply from_ok_eq; vm_compute; reflexivity).
  destruct (C03_insert_job ex_env (ss_of_slot (mkSlot 1 0 0 0 1000 (fresh_content true (range 1 8)))) (ex_job 1 70 50 (range 1 8))) as (s & E2 & _ & _ & _ & Hn & Hsame & _); [apply ss_of_slot_wf; lia|apply plain_ok; split; reflexivity|cbn [walltime ex_job]; lia|]. rewrite E7 in E2. injection E2 as <-.
  destruct (decide (r ∈ range 1 8)) as [Hin|Hin]; [apply (Hn 80 r); [done|cbn; lia|done]|]. apply Hsame in H80; [|done]. destruct H80 as (c & (i & sl & Hi & _ & <-) & Hr2). cbn in Hi. apply lookup_singleton_Some in Hi as [_ <-]. exact (Hin Hr2).
Qed.
Example C84_case : answer_of (resv_one ex_env None ex_hy 0 0 busy70 (rw 5 0 false [ex_rq 1 120 2])) = None /\ answer_of (resv_one ex_env None ex_hy 10 0 busy70 (rw 5 130 false [ex_rq 1 120 8])) = Some (130, 120, 8) /\
  answer_of (resv_one ex_env None ex_hy 10 200 busy70 (rw 5 130 false [ex_rq 1 120 8])) = Some (200, 120, 8) /\ Forall (fun w => exists rq, ordinary ex_hy 10 0 busy70 w rq) [rw 5 130 false [ex_rq 1 120 8]; rw 6 10 false [ex_rq 1 40 3]].
Proof. split; [vm_compute; reflexivity|]. split; [vm_compute; reflexivity|]. split; [vm_compute; reflexivity|]. repeat apply Forall_cons_2; [| |constructor]; eexists; apply rw_ordinary; lia. Qed.

(** * C87. Reservations and the horizon *)
Lemma left_end ss l2 : forall l1 s tb fuel, Repr ss (l1 ++ s :: l2) -> end_ ss < tb -> left_loop fuel (slots ss) (sid s) tb <> Err EKey -> forall i, left_loop fuel (slots ss) (sid s) tb <> Ok i.
Proof.
  induction l2 as [|s2 l2 IH]; intros l1 s tb fuel H Htb Hk i.
  - destruct fuel; cbn [left_loop] in *; rewrite (repr_dget _ _ s H ltac:(mem)) in *; cbn [rbind] in *; replace (se s <? tb) with true in * by (pose proof (repr_bounds _ _ s H ltac:(mem)); lia); [done|].
    rewrite (repr_next_last _ _ _ H) in *. assert (Herr : forall n, left_loop n (slots ss) 0 tb = Err EKey).
    { intros n. assert (dget 0 (slots ss) = Err EKey) as E; [|destruct n; cbn [left_loop]; by rewrite E]. unfold dget. destruct (slots ss !! 0) as [y|] eqn:Ey; [|done]. apply (repr_elem _ _ _ _ H) in Ey as [Hy Ey]. by pose proof (repr_nz _ _ _ H Hy). }
    rewrite Herr in *. done.
  - destruct fuel; cbn [left_loop] in *; rewrite (repr_dget _ _ s H ltac:(mem)) in *; cbn [rbind] in *; replace (se s <? tb) with true in * by (pose proof (repr_bounds _ _ s H ltac:(mem)); lia); [done|].
    rewrite (repr_next _ _ _ _ _ H) in *. apply (IH (l1 ++ [s])); [by rewrite <- app_assoc|done|done].
Qed.
(** Refuted: a reservation that starts after the end of the slot set (2038-01-19) stops the round. *)
Theorem C87_horizon_refuted : forall env qc hy sec now w ws ss rq, WF ss -> head (w_rqts w) = Some rq -> 0 < r_wall rq -> now <= end_ ss -> end_ ss < start_time (w_job w) -> forall out, resv_loop env qc hy sec now (w :: ws) ss <> Ok out.
Proof.
  intros env qc hy sec now w ws ss rq [l H] Hrq Hw Hnow Hst out Hout. cbn [resv_loop] in Hout. apply rbind_Ok in Hout as ([s1 a] & E & _). unfold resv_one in E. destruct (w_rqts w) as [|rq' rqs]; [done|]. injection Hrq as ->.
  replace (start_time (w_job w) + r_wall rq <=? now) with false in E by lia. replace (start_time (w_job w) <? now) with false in E by lia. apply rbind_Ok in E as ([a1 a2] & E & _). unfold get_encompassing_slots in E.
  destruct l as [|s l]; [destruct (repr_ne _ _ H); done|]. rewrite (first_spec _ _ _ H) in E. cbn [negb Z.eqb rbind] in E. apply rbind_Ok in E as (i & E & _).
  apply (left_end ss l [] s (start_time (w_job w)) (size (slots ss)) H Hst) in E; [done|congruence].
Qed.
Example C87_case : WF busy70 /\ end_ busy70 = 1000 /\ head (w_rqts (rw 5 1001 false [ex_rq 1 120 2])) = Some (ex_rq 1 120 2).
Proof. split; [exact busy70_WF|]. split; [vm_compute; reflexivity|done]. Qed.

(** * C85. Jobs of type no_quotas *)
Lemma find_first_noq qc hy ss ch w rq min : w_noq w = true -> find_first qc hy ss ch w rq min = find_first None hy ss ch w rq min.
Proof. intros H. unfold find_first. by rewrite H. Qed.
Lemma assign_loop_noq qc hy ss w min rqs : w_noq w = true -> forall ch f b fd, assign_loop qc hy ss w min rqs ch f b fd = assign_loop None hy ss w min rqs ch f b fd.
Proof.
  intros H. induction rqs as [|rq rqs IH]; intros ch f b fd; [done|]. cbn [assign_loop]. rewrite find_first_noq by done. destruct (find_first None hy ss ch w rq min) as [[o ch']|]; [|done]. cbn [rbind]. destruct o as [[[x l] r]|]; [|apply IH].
  destruct (dget l (slots ss)) as [s|]; [|done]. cbn [rbind]. destruct (_ <? f); [|apply IH]. destruct (get_encompassing_slots _ _ _ _) as [[el er]|]; [|done]. cbn [rbind]. apply IH.
Qed.
(** A waiting job of that type is placed as if there were no quotas. *)
Theorem C85_waiting_job : forall env qc hy ss ch w min, w_noq w = true -> assign env qc hy ss ch w min = assign env None hy ss ch w min.
Proof. intros env qc hy ss ch w min H. unfold assign. by rewrite (assign_loop_noq qc) by done. Qed.
(** Refuted for reservations. *)
Definition none_cf : qconf := mkQconf ex_env [(("*", "*", "*", "bob")%string, mkRule 1 (-1) (-1))] (fun _ => []).
Lemma refused_eq env qc hy sec now ss w rq : WF ss -> ordinary hy sec now ss w rq -> match resv_one env qc hy sec now ss w with Ok (_, Refused) => true | _ => false end = true -> resv_one env qc hy sec now ss w = Ok (ss, Refused).
Proof.
  intros HW Ho H. destruct (resv_one env qc hy sec now ss w) as [[s a]|] eqn:E; [|done]. destruct (resv_frame _ _ _ _ _ _ _ _ _ _ HW Ho E) as (_ & _ & _ & _ & Ha). destruct a; try done. by rewrite Ha.
Qed.
Theorem C85_reservation_refuted : exists env cf hy sec now ss w rq, WF ss /\ ordinary hy sec now ss w rq /\ w_noq w = true /\
  resv_one env (Some cf) hy sec now ss w = Ok (ss, Refused) /\ (exists ss' st x, resv_one env None hy sec now ss w = Ok (ss', Accepted st x rq)).
Proof.
  assert (Ho : ordinary ex_hy 10 0 busy70 (rw 5 130 true [ex_rq 1 120 8]) (ex_rq 1 120 8)) by (apply rw_ordinary; lia).
  exists ex_env, none_cf, ex_hy, 10, 0, busy70, (rw 5 130 true [ex_rq 1 120 8]), (ex_rq 1 120 8). split; [exact busy70_WF|]. split; [exact Ho|]. split; [reflexivity|]. split.
  - apply (refused_eq _ _ _ _ _ _ _ _ busy70_WF Ho). vm_compute. reflexivity.
  - destruct (answer_of_eq (resv_one ex_env None ex_hy 10 0 busy70 (rw 5 130 true [ex_rq 1 120 8])) 130 120 8) as (ss' & x & rq & E & Ew & Es); [vm_compute; reflexivity|].
    destruct (C84_accepted _ _ _ _ _ _ _ _ _ _ _ _ busy70_WF Ho E) as [-> _]. exists ss', 130, x. exact E.
Qed.

(** * C86. Accepted reservations and quotas *)
(** During its announced time a reservation leaves its user's counters, itself included, within the rule. *)
Theorem C86_within_limits_partial : forall env cf hy sec now ss w rq ss' st x, WF ss -> ordinary hy sec now ss w rq -> slots_nonneg ss -> (forall id, proper_rules (conf_rules cf id)) ->
  resv_one env (Some cf) hy sec now ss w = Ok (ss', Accepted st x rq) ->
  forall t c q key rl, st <= t <= st + r_wall rq - sec -> content_at ss t c -> quotas c = Some q ->
    selects (conf_rules cf (quotas_rules_id c)) (q_job_types (q_env cf)) (w_job w) key rl ->
    key_type key ∈ q_job_types (q_env cf) -> key_type key = "*"%string \/ key_type key ∈ (fst <$> jtypes (w_job w)) ->
    within_rule rl (add3 (cget q (instance key (w_job w))) (nb_counted cf x, 1, nb_counted cf x * r_wall rq)).
Proof.
  intros env cf hy sec now ss w rq ss' st x HW Ho Hnn Hpr H t c q key rl Ht Hc Hq Hsel Hkt Hkm.
  destruct (resv_cases env (Some cf) hy sec now ss w rq HW Ho) as (L & R & X & y & HL & HR & H1 & H2 & H3 & _ & _ & E). rewrite E in H. apply rbind_Ok in H as (ok & Eok & H). apply rbind_Ok in Eok as (v & Ev & Eok).
  destruct (negb ok || negb (nonempty y)) eqn:En; [done|]. apply orb_false_iff in En as [En _]. apply negb_false_iff in En. subst ok. destruct v; try done.
  apply rbind_Ok in H as ([l r] & _ & H). apply rbind_Ok in H as (s2 & _ & H). injection H as _ <- <-.
  destruct Ho as (_ & _ & (_ & Hw & _) & _).
  apply (C23_window_within_limits_partial cf ss (w_job w) (nb_counted cf y) (r_wall rq) (sid L) (sid R) L R HW HL HR H3 Hnn ltac:(unfold nb_counted; lia) ltac:(lia) Ev t c); try done. lia.
Qed.
Example C86_case :
  (match answer_of (resv_one ex_env (Some ex_cf) ex_hy 10 0 busy70 (rw 5 130 false [ex_rq 1 120 4])), answer_of (resv_one ex_env (Some ex_cf) ex_hy 10 0 busy70 (rw 5 130 false [ex_rq 1 120 5])) with Some (st, _, n), None => (st =? 130) && (n =? 4) | _, _ => false end &&
   forallb (fun s => match quotas (cont s) with Some q => forallb (fun x => let '(a, b, d) := x in (0 <=? a) && (0 <=? b) && (0 <=? d)) ((map_to_list q).*2) | None => false end) (slots_list busy70)) = true.
Proof. vm_compute. reflexivity. Qed.
(** Without "the type of the rule is listed": false, as for C23.  A reservation on six resources is accepted for a job of
    type deploy although the rule chosen for it allows two. *)
Definition deploy_key : qkey := ("*", "*", "deploy", "*")%string.
Definition deploy_cf : qconf := mkQconf ex_env [(deploy_key, mkRule 2 (-1) (-1))] (fun _ => []).
Definition deploy_w : wjob := mkWjob (mkJob 5 0 0 ∅ false None None 0 None "" "bob" "default" "p" [("deploy", "true")]%string) [ex_rq 1 120 6] [] ∅ false None (-1).
Definition counted_of (cf : qconf) (r : res (slotset * answer)) : option Z := match r with Ok (_, Accepted st x rq) => Some (nb_counted cf x) | _ => None end.
Lemma counted_of_eq cf r n : counted_of cf r = Some n -> exists ss st x rq, r = Ok (ss, Accepted st x rq) /\ nb_counted cf x = n.
Proof. destruct r as [[ss [| |s x rq]]|]; unfold counted_of; try done. intros [= <-]. by exists ss, s, x, rq. Qed.
Theorem C86_unlisted_type_refuted : exists env cf hy sec now ss w rq ss' st x key rl,
  WF ss /\ ordinary hy sec now ss w rq /\ proper_rules (conf_rules cf (-1)) /\ (forall t c, content_at ss t c -> quotas_rules_id c = -1) /\
  resv_one env (Some cf) hy sec now ss w = Ok (ss', Accepted st x rq) /\
  selects (conf_rules cf (-1)) (q_job_types (q_env cf)) (w_job w) key rl /\ key_type key ∈ (fst <$> jtypes (w_job w)) /\
  -1 < lim_res rl < nb_counted cf x.
Proof.
  assert (HW : WF (ss_of_pair true (range 1 8) 0)) by (apply (ss_of_slot_wf 0 MAX_TIME (fresh_content true (range 1 8))); done).
  assert (Ho : ordinary ex_hy 10 0 (ss_of_pair true (range 1 8) 0) deploy_w (ex_rq 1 120 6)).
  { split; [done|]. split; [done|]. split; [by apply ex_rq_known|]. vm_compute. repeat split; discriminate. }
  destruct (counted_of_eq deploy_cf (resv_one ex_env (Some deploy_cf) ex_hy 10 0 (ss_of_pair true (range 1 8) 0) deploy_w) 6) as (ss' & st & x & rq & E & En); [vm_compute; reflexivity|].
  destruct (C84_accepted _ _ _ _ _ _ _ _ _ _ _ _ HW Ho E) as [-> _].
  assert (Hp : proper_rules [(deploy_key, mkRule 2 (-1) (-1))]) by (split; [by_dec|repeat constructor; done]).
  exists ex_env, deploy_cf, ex_hy, 10, 0, (ss_of_pair true (range 1 8) 0), deploy_w, (ex_rq 1 120 6), ss', st, x, deploy_key, (mkRule 2 (-1) (-1)).
  split; [exact HW|]. split; [exact Ho|]. split; [exact Hp|]. split.
  { intros t c (i & s & Hi & _ & <-). unfold ss_of_pair in Hi. cbn [slots] in Hi. apply lookup_singleton_Some in Hi as [_ <-]. reflexivity. }
  split; [exact E|]. split.
  { assert (find_applicable ["*"%string] (init_rule_tree [(deploy_key, mkRule 2 (-1) (-1))]) (w_job deploy_w) = Some (mkRule 2 (-1) (-1), deploy_key, deploy_key)) as H by (vm_compute; reflexivity).
    apply find_applicable_spec in H as [H _]; [exact H|exact Hp]. }
  split; [left|]. rewrite En. cbn [lim_res]. lia.
Qed.
Print Assumptions C84_accepted.
Print Assumptions C84_decision.
Print Assumptions C84_round.
Print Assumptions C84_round_ends.
Print Assumptions C84_security_refuted.
Print Assumptions C87_horizon_refuted.
Print Assumptions C85_waiting_job.
Print Assumptions C85_reservation_refuted.
Print Assumptions C86_within_limits_partial.
Print Assumptions C86_unlisted_type_refuted.
