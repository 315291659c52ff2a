(** The FIFO scheduler: C206-C210. *)
From Verif Require Import Base HierarchyModel HierarchySpec HierarchyProofs SchedModel FifoModel.

Lemma in_order_perm x : in_order x ≡ₚ elements x.
Proof. apply merge_sort_Permutation. Qed.
Lemma in_order_length x : length (in_order x) = size x.
Proof. unfold size, set_size. cbn. by rewrite in_order_perm. Qed.
Lemma in_order_elem x i : i ∈ in_order x <-> i ∈ x.
Proof. by rewrite in_order_perm, elem_of_elements. Qed.
Lemma upto_sub n l : exists k, upto n l = take k l.
Proof. unfold upto. destruct (0 <=? n); eauto. Qed.
Lemma take_elem {A} k (l : list A) x : x ∈ take k l -> x ∈ l.
Proof. intros H. rewrite <- (take_drop k l). apply elem_of_app. by left. Qed.
Lemma take_set_size k (x : procset) : (k <= size x)%nat -> size (list_to_set (take k (in_order x)) : procset) = k.
Proof.
  intros H. rewrite size_list_to_set; [rewrite take_length, in_order_length; lia|].
  assert (ND : NoDup (in_order x)) by (rewrite in_order_perm; apply NoDup_elements). rewrite <- (take_drop k (in_order x)) in ND. by apply NoDup_app in ND as [ND _].
Qed.

(** What one job receives from the resources that are left. *)
Definition picks (hu : bool) (hy : hierarchy) (free : procset) (groups : list rgroup) : res procset :=
  if hu then basic_loop free groups hy ∅ else by_number free groups.
Lemma by_number_sub free groups x : by_number free groups = Ok x -> x ⊆ free.
Proof.
  unfold by_number. destruct groups as [|[[|[nm n] lv] cs] gs]; [done..|]. intros E. assert (E' : (if Z.of_nat (length (in_order (cs ∩ free))) <? n then ∅ else list_to_set (upto n (in_order (cs ∩ free)))) = x) by congruence. subst x. destruct (_ <? n); [set_solver|].
  intros i Hi. apply elem_of_list_to_set in Hi. destruct (upto_sub n (in_order (cs ∩ free))) as [k Hk]. rewrite Hk in Hi. apply take_elem, in_order_elem in Hi. set_solver.
Qed.
Lemma basic_loop_sub free hy groups : forall acc x, basic_loop free groups hy acc = Ok x -> acc ⊆ x /\ forall i, i ∈ x -> i ∈ acc \/ i ∈ free.
Proof.
  induction groups as [|[l cs] gs IH]; intros acc x E; cbn [basic_loop] in E; [assert (acc = x) as -> by congruence; split; [done|by left]|].
  apply rbind_Ok in E as (ls & _ & E). apply rbind_Ok in E as (r & E2 & E). apply find_scattered_free in E2. apply IH in E as [H1 H2]. split; [set_solver|]. intros i Hi. apply H2 in Hi as [Hi|Hi]; [|by right]. set_solver.
Qed.
Lemma picks_sub hu hy free groups x : picks hu hy free groups = Ok x -> x ⊆ free.
Proof. destruct hu; cbn [picks]; intros E; [|by eapply by_number_sub]. apply basic_loop_sub in E as [_ H]. intros i Hi. apply H in Hi as [Hi|Hi]; [by apply not_elem_of_empty in Hi|done]. Qed.

(** The loop, job by job: [given free js l rest]. *)
Lemma fifo_loop_spec hu hy : forall js free l, fifo_loop hu hy js free = Ok l ->
  (a_job <$> l) = take (length l) js /\
  (forall i a, l !! i = Some a -> exists rq rqs, f_rqts (a_job a) = rq :: rqs /\ a_mld a = r_mld rq /\ a_res a <> ∅ /\ picks hu hy (free ∖ ⋃ (a_res <$> take i l)) (r_groups rq) = Ok (a_res a)) /\
  (forall j, js !! length l = Some j -> exists rq rqs, f_rqts j = rq :: rqs /\ picks hu hy (free ∖ ⋃ (a_res <$> l)) (r_groups rq) = Ok ∅).
Proof.
  induction js as [|j js IH]; intros free l E; cbn [fifo_loop] in E; [assert (l = []) as -> by congruence; done|].
  destruct (f_rqts j) as [|rq rqs] eqn:Ej; [done|]. apply rbind_Ok in E as (x & Ex & E). fold (picks hu hy free (r_groups rq)) in Ex.
  assert (H0 : forall s : procset, free ∖ ⋃ [] = free /\ free ∖ (s ∪ ⋃ []) = free ∖ s) by (intros s; cbn; split; apply set_eq; set_solver).
  destruct (nonempty x) eqn:En.
  - apply nonempty_true in En. apply rbind_Ok in E as (r & Er & E). assert (l = mkAssigned j (r_mld rq) x :: r) as -> by congruence. clear E. apply IH in Er as (H1 & H2 & H3).
    assert (HU : forall k, free ∖ x ∖ ⋃ (a_res <$> k) = free ∖ ⋃ (a_res <$> (mkAssigned j (r_mld rq) x :: k))).
    { intros k. rewrite fmap_cons. cbn [a_res union_list foldr]. apply set_eq. intros i. rewrite !elem_of_difference, elem_of_union. unfold union_list. tauto. }
    split; [cbn [length take]; rewrite fmap_cons; by rewrite H1|]. split.
    + intros [|i] a Ha; cbn [lookup list_lookup] in Ha.
      * assert (a = mkAssigned j (r_mld rq) x) as -> by congruence. exists rq, rqs. cbn [a_job a_mld a_res take]. split; [done|]. split; [done|]. split; [done|]. cbn [fmap list_fmap]. by rewrite (proj1 (H0 ∅)).
      * destruct (H2 i a Ha) as (rq' & rqs' & A1 & A2 & A3 & A4). exists rq', rqs'. split; [done|]. split; [done|]. split; [done|]. cbn [take]. by rewrite <- HU.
    + intros j' Hj. cbn [length lookup list_lookup] in Hj. destruct (H3 j' Hj) as (rq' & rqs' & A1 & A2). exists rq', rqs'. split; [done|]. by rewrite <- HU.
  - apply nonempty_false in En as ->. assert (l = []) as -> by congruence. split; [done|]. split; [done|]. intros j' Hj. cbn in Hj. assert (j' = j) as -> by congruence. exists rq, rqs. split; [done|]. cbn [fmap list_fmap]. by rewrite (proj1 (H0 ∅)).
Qed.
Lemma cycle_parts hu hy all q jobs sched l : fifo_cycle hu hy all q jobs sched = Ok l -> fifo_loop hu hy (waiting q jobs) all = Ok l.
Proof.
  unfold fifo_cycle. destruct (waiting q jobs) as [|j w]; [done|]. intros E. apply rbind_Ok in E as (free & E1 & E2). assert (free = all) as ->; [|done].
  clear E2. induction sched as [|s sched IH]; cbn in E1; [congruence|]. case_bool_decide; [done|]. by apply IH.
Qed.

(** * C206: free resources, as many as asked *)
Theorem C206_free hu hy all q jobs sched l : fifo_cycle hu hy all q jobs sched = Ok l ->
  (forall a, a ∈ l -> a_res a <> ∅ /\ a_res a ⊆ all) /\ (forall i j a b, l !! i = Some a -> l !! j = Some b -> i <> j -> a_res a ## a_res b).
Proof.
  intros E. apply cycle_parts, fifo_loop_spec in E as (_ & H & _). split.
  - intros a Ha. apply elem_of_list_lookup in Ha as [i Hi]. destruct (H i a Hi) as (rq & rqs & _ & _ & Hne & Hp). split; [done|]. apply picks_sub in Hp. set_solver.
  - assert (W : forall i j a b, l !! i = Some a -> l !! j = Some b -> (i < j)%nat -> a_res a ## a_res b).
    { intros i j a b Hi Hj Hlt. destruct (H j b Hj) as (rq & rqs & _ & _ & _ & Hp). apply picks_sub in Hp. assert (Hin : a ∈ take j l) by (apply elem_of_list_lookup; exists i; rewrite lookup_take; done).
      intros x Hx Hy. apply Hp, elem_of_difference in Hy as [_ Hy]. apply Hy. apply elem_of_union_list. exists (a_res a). split; [|done]. apply elem_of_list_fmap. eauto. }
    intros i j a b Hi Hj Hne. destruct (decide (i < j)%nat); [by eapply W|]. symmetry. apply (W j i b a); [done..|lia].
Qed.
Theorem C206_number hy all q jobs sched l a : fifo_cycle false hy all q jobs sched = Ok l -> a ∈ l ->
  exists rq rqs name n lv cs gs, f_rqts (a_job a) = rq :: rqs /\ r_groups rq = ((name, n) :: lv, cs) :: gs /\ a_mld a = r_mld rq /\ a_res a ⊆ cs /\ (0 < n -> Z.of_nat (size (a_res a)) = n).
Proof.
  intros E Ha. apply cycle_parts, fifo_loop_spec in E as (_ & H & _). apply elem_of_list_lookup in Ha as [i Hi]. destruct (H i a Hi) as (rq & rqs & H1 & H2 & Hne & Hp). set (free := all ∖ _) in Hp. clearbody free.
  cbn [picks] in Hp. unfold by_number in Hp. destruct (r_groups rq) as [|[[|[nm n] lv] cs] gs] eqn:Eg; [done..|].
  exists rq, rqs, nm, n, lv, cs, gs. split; [done|]. split; [done|]. split; [done|].
  assert (E' : (if Z.of_nat (length (in_order (cs ∩ free))) <? n then ∅ else list_to_set (upto n (in_order (cs ∩ free)))) = a_res a) by congruence. clear Hp. rewrite <- E'. destruct (_ <? n) eqn:El; [by rewrite E' in *|]. clear E'. split.
  - intros x Hx. apply elem_of_list_to_set in Hx. destruct (upto_sub n (in_order (cs ∩ free))) as [k Hk]. rewrite Hk in Hx. apply take_elem, in_order_elem in Hx. set_solver.
  - intros Hn. rewrite in_order_length in El. unfold upto. rewrite (proj2 (Z.leb_le 0 n)) by lia. rewrite take_set_size by lia. lia.
Qed.
(** Refuted: the level that is asked for, the levels below it and the other groups are not looked at: the resources are the same whatever they are. *)
Definition same_first (j j' : fjob) : Prop :=
  exists rq rqs rq' rqs' name name' n lv lv' cs gs gs', f_rqts j = rq :: rqs /\ f_rqts j' = rq' :: rqs' /\ r_groups rq = ((name, n) :: lv, cs) :: gs /\ r_groups rq' = ((name', n) :: lv', cs) :: gs'.
Theorem C206_ignored_refuted hy hy' all js js' : Forall2 same_first js js' ->
  (forall l, fifo_loop false hy js all = Ok l -> exists l', fifo_loop false hy' js' all = Ok l' /\ a_res <$> l = a_res <$> l').
Proof.
  intros HF. revert all. induction HF as [|j j' js js' Hj HF IH]; intros all l E; cbn [fifo_loop] in E |- *; [assert (l = []) as -> by congruence; by exists []|].
  destruct Hj as (rq & rqs & rq' & rqs' & nm & nm' & n & lv & lv' & cs & gs & gs' & E1 & E2 & G1 & G2). rewrite E1 in E. rewrite E2. rewrite G1 in E. rewrite G2. cbn [by_number rbind] in E |- *.
  set (x := if Z.of_nat (length (in_order (cs ∩ all))) <? n then ∅ else list_to_set (upto n (in_order (cs ∩ all)))) in *. clearbody x. destruct (nonempty x); [|exists []; assert (l = []) as -> by congruence; done].
  apply rbind_Ok in E as (r & Er & E). destruct (IH _ _ Er) as (r' & -> & Hr). cbn [rbind]. assert (l = mkAssigned j (r_mld rq) x :: r) as -> by congruence. eexists. split; [reflexivity|]. rewrite !fmap_cons. cbn [a_res]. by rewrite Hr.
Qed.
(** Refuted: ALL (-1) leaves the last resource. *)
Theorem C206_all_refuted hy all q j cs name lv gs rq rqs sched l : f_state j = "Waiting"%string -> f_queue j = q -> f_resv j = "None"%string -> f_rqts j = rq :: rqs -> r_groups rq = ((name, -1) :: lv, cs) :: gs ->
  fifo_cycle false hy all q [j] sched = Ok l -> forall a, a ∈ l -> Z.of_nat (size (a_res a)) = Z.of_nat (size (cs ∩ all)) - 1.
Proof.
  intros Hs Hq Hr Hrq Hg E a Ha. apply cycle_parts in E. assert (waiting q [j] = [j]) as Hw by (unfold waiting; rewrite filter_cons_True by done; reflexivity). rewrite Hw in E. cbn [fifo_loop] in E. rewrite Hrq, Hg in E. cbn [by_number rbind] in E.
  rewrite (proj2 (Z.ltb_ge _ (-1))) in E by lia. unfold upto in E. cbn [Z.leb Z.compare Z.opp] in E. set (k := (length (in_order (cs ∩ all)) - Z.to_nat (- (-1)))%nat) in E. assert (Hk : (k <= size (cs ∩ all))%nat) by (unfold k; rewrite in_order_length; lia).
  destruct (nonempty (list_to_set (take k (in_order (cs ∩ all))))) eqn:En; [|assert (l = []) as -> by congruence; by apply elem_of_nil in Ha].
  cbn [rbind] in E. assert (l = [mkAssigned j (r_mld rq) (list_to_set (take k (in_order (cs ∩ all))))]) as -> by congruence. apply elem_of_list_singleton in Ha as ->. cbn [a_res]. rewrite take_set_size by done.
  apply nonempty_true in En. assert (size (cs ∩ all) <> 0)%nat. { intros H0. apply En. assert (k = 0)%nat as -> by lia. done. } unfold k. rewrite in_order_length. lia.
Qed.
Definition fj (id : Z) (q : string) (groups : list rgroup) : fjob := mkFjob id "Waiting" q "None" 0 [mkRqt (10 * id) 60 groups].
Definition two_hosts : hierarchy := {[ "network_address"%string := [{[1; 2]}; {[3; 4]}]; "resource_id"%string := [{[1]}; {[2]}; {[3]}; {[4]}] ]}.
(** Two hosts are asked for: two resources of one host are given. *)
Theorem C206_case : exists l, fifo_cycle false two_hosts {[1; 2; 3; 4]} "default" [fj 8 "default" [([("network_address"%string, 2)], {[1; 2; 3; 4]})]; fj 7 "default" [([("resource_id"%string, 1)], {[2; 3; 4]})]] [] = Ok l /\
  (f_id <$> (a_job <$> l)) = [7; 8] /\ (in_order <$> (a_res <$> l)) = [[2]; [1; 3]] /\
  exists l2, fifo_cycle false two_hosts {[1; 2; 3; 4]} "default" [fj 8 "default" [([("network_address"%string, 2)], {[1; 2; 3; 4]})]] [] = Ok l2 /\ (in_order <$> (a_res <$> l2)) = [[1; 2]].
Proof.
  match goal with |- exists l, ?c = Ok l /\ _ => destruct c as [l|] eqn:E; [|vm_compute in E; discriminate]; exists l; split; [done|]; assert (H : (match c with Ok l => (f_id <$> (a_job <$> l), in_order <$> (a_res <$> l)) | _ => ([], []) end) = ([7; 8], [[2]; [1; 3]])) by (vm_compute; reflexivity) end.
  rewrite E in H. cbv beta iota in H. pose proof (f_equal fst H) as H1. pose proof (f_equal snd H) as H2. cbn [fst snd] in H1, H2. split; [exact H1|]. split; [exact H2|]. clear.
  match goal with |- exists l, ?c = Ok l /\ _ => destruct c as [l2|] eqn:E; [|vm_compute in E; discriminate]; exists l2; split; [done|]; assert (H : (match c with Ok l => (in_order <$> (a_res <$> l)) | _ => [] end) = [[1; 2]]) by (vm_compute; reflexivity) end.
  rewrite E in H. cbv beta iota in H. exact H.
Qed.

(** * C207: strict order *)
Lemma waiting_spec q jobs : waiting q jobs ≡ₚ base.filter (fun j => f_state j = "Waiting"%string /\ f_queue j = q /\ f_resv j = "None"%string) jobs /\ StronglySorted (fun a b => f_id a <= f_id b) (waiting q jobs).
Proof. split; [apply merge_sort_Permutation|]. assert (T1 : Transitive id_le) by (intros ? ? ?; unfold id_le; lia). assert (T2 : Total id_le) by (intros ? ?; unfold id_le; lia). apply (StronglySorted_merge_sort id_le). Qed.
(** The jobs that start are the first ones, by number; the next one cannot be served from what is left. *)
Theorem C207_order hu hy all q jobs sched l : fifo_cycle hu hy all q jobs sched = Ok l ->
  exists w, w ≡ₚ base.filter (fun j => f_state j = "Waiting"%string /\ f_queue j = q /\ f_resv j = "None"%string) jobs /\ StronglySorted (fun a b => f_id a <= f_id b) w /\ (a_job <$> l) = take (length l) w /\
    (hu = false -> forall j, w !! length l = Some j -> exists rq rqs name n lv cs gs, f_rqts j = rq :: rqs /\ r_groups rq = ((name, n) :: lv, cs) :: gs /\
       (0 < n -> Z.of_nat (size (cs ∩ (all ∖ ⋃ (a_res <$> l)))) < n)).
Proof.
  intros E. exists (waiting q jobs). destruct (waiting_spec q jobs) as [W1 W2]. split; [done|]. split; [done|]. apply cycle_parts, fifo_loop_spec in E as (H1 & _ & H3). split; [done|].
  intros -> j Hj. destruct (H3 j Hj) as (rq & rqs & Hr & Hp). cbn [picks] in Hp. unfold by_number in Hp. destruct (r_groups rq) as [|[[|[nm n] lv] cs] gs] eqn:Eg; [done..|]. exists rq, rqs, nm, n, lv, cs, gs. split; [done|]. split; [done|]. intros Hn.
  set (x := cs ∩ (all ∖ ⋃ (a_res <$> l))) in *. rewrite <- in_order_length. destruct (Z.of_nat (length (in_order x)) <? n) eqn:El; [lia|]. exfalso.
  assert (E' : list_to_set (upto n (in_order x)) = (∅ : procset)) by congruence. rewrite in_order_length in El. unfold upto in E'. rewrite (proj2 (Z.leb_le 0 n)) in E' by lia. pose proof (take_set_size (Z.to_nat n) x ltac:(lia)) as Hs. rewrite E' in Hs. rewrite size_empty in Hs. lia.
Qed.
Theorem C207_case : exists l, fifo_cycle false ∅ {[1; 2; 3]} "default" [fj 9 "default" [([("resource_id"%string, 1)], {[1; 2; 3]})]; fj 8 "default" [([("resource_id"%string, 2)], {[1; 2; 3]})]; fj 7 "default" [([("resource_id"%string, 2)], {[1; 2; 3]})]] [] = Ok l /\ (f_id <$> (a_job <$> l)) = [7].
Proof.
  match goal with |- exists l, ?c = Ok l /\ _ => destruct c as [l|] eqn:E; [|vm_compute in E; discriminate]; exists l; split; [done|]; assert (H : (match c with Ok l => f_id <$> (a_job <$> l) | _ => [] end) = [7]) by (vm_compute; reflexivity) end.
  rewrite E in H. cbv beta iota in H. exact H.
Qed.

(** * C208: the jobs that have resources already *)
(** Refuted: as soon as a job is running, the scheduler fails and nothing is given. *)
Theorem C208_running_refuted hu hy all q jobs sched j s : j ∈ jobs -> f_state j = "Waiting"%string -> f_queue j = q -> f_resv j = "None"%string -> s ∈ sched -> s_state s = "Running"%string -> fifo_cycle hu hy all q jobs sched = Err EAttr.
Proof.
  intros Hj H1 H2 H3 Hs Hr. unfold fifo_cycle. destruct (waiting q jobs) as [|j0 w] eqn:Ew.
  - exfalso. assert (Hin : j ∈ waiting q jobs) by (rewrite (proj1 (waiting_spec q jobs)); by apply elem_of_list_filter). rewrite Ew in Hin. by apply elem_of_nil in Hin.
  - assert (remove_running sched all = Err EAttr) as ->; [|done]. clear -Hs Hr. induction sched as [|s' sched IH]; [by apply elem_of_nil in Hs|]. cbn [remove_running]. case_bool_decide as Hd; [done|]. apply IH. apply elem_of_cons in Hs as [->|Hs]; [by exfalso|done].
Qed.
(** Refuted: the resources of the jobs in every other state (toLaunch, Launching, Suspended, reservations to come) are given again. *)
Theorem C208_other_refuted hu hy all q jobs sched : (forall s, s ∈ sched -> s_state s <> "Running"%string) -> fifo_cycle hu hy all q jobs sched = fifo_cycle hu hy all q jobs [].
Proof.
  intros H. unfold fifo_cycle. destruct (waiting q jobs); [done|]. assert (remove_running sched all = Ok all) as ->; [|done]. induction sched as [|s sched IH]; [done|]. cbn [remove_running]. rewrite bool_decide_false by (apply H; left). apply IH. intros s' Hs'. apply H. by right.
Qed.
Theorem C208_case : exists s l a, s_state s = "Launching"%string /\ s_res s = {[1; 2]} /\ fifo_cycle false ∅ {[1; 2; 3]} "default" [fj 7 "default" [([("resource_id"%string, 2)], {[1; 2; 3]})]] [s] = Ok l /\ a ∈ l /\ in_order (a_res a) = [1; 2] /\
  waiting "default" [fj 7 "default" [([("resource_id"%string, 2)], {[1; 2; 3]})]] <> [].
Proof.
  exists (mkSjob 3 "Launching" {[1; 2]}).
  match goal with |- exists l a, _ /\ _ /\ ?c = Ok l /\ _ => destruct c as [l|] eqn:E; [|vm_compute in E; discriminate]; assert (H : (match c with Ok l => in_order <$> (a_res <$> l) | _ => [] end) = [[1; 2]]) by (vm_compute; reflexivity) end.
  rewrite E in H. cbv beta iota in H. destruct l as [|a l]; [discriminate H|]. exists (a :: l), a. split; [done|]. split; [done|]. split; [done|]. split; [left|]. rewrite !fmap_cons in H. assert (in_order (a_res a) = [1; 2]) as -> by congruence. split; [done|]. clear. intros H. apply (f_equal length) in H. vm_compute in H. discriminate.
Qed.

(** * C209: with the hierarchy *)
Lemma basic_loop_spec free hy groups : forall acc x, basic_loop free groups hy acc = Ok x ->
  exists parts, x = acc ∪ ⋃ parts /\ Forall2 (fun (g : rgroup) y => exists ls, levels_of hy (fst g) ls /\ find_scattered (snd g ∩ free) ls = Ok y) groups parts.
Proof.
  induction groups as [|[l cs] gs IH]; intros acc x E; cbn [basic_loop] in E; [assert (x = acc) as -> by congruence; exists []; cbn; split; [by rewrite union_empty_r_L|constructor]|].
  apply rbind_Ok in E as (ls & E1 & E). apply rbind_Ok in E as (r & E2 & E). apply get_levels_Ok in E1. apply IH in E as (parts & -> & HF). exists (r :: parts). split; [cbn [union_list foldr]; by rewrite union_assoc_L'|]. constructor; [|done]. exists ls. done.
Qed.
(** What each job receives: for each group either what it asks for, from the resources left by the jobs before, or nothing; with one group, what it asks for. *)
Theorem C209_groups hy all q jobs sched l i a : fifo_cycle true hy all q jobs sched = Ok l -> l !! i = Some a ->
  exists rq rqs parts, f_rqts (a_job a) = rq :: rqs /\ a_mld a = r_mld rq /\ a_res a = ⋃ parts /\
   (Forall (fun g : rgroup => exists ls, levels_of hy (fst g) ls /\ proper_levels ls) (r_groups rq) ->
    Forall2 (fun (g : rgroup) y => exists ls, levels_of hy (fst g) ls /\ (served (snd g ∩ (all ∖ ⋃ (a_res <$> take i l))) ls y \/ (y = ∅ /\ forall z, ~ served (snd g ∩ (all ∖ ⋃ (a_res <$> take i l))) ls z))) (r_groups rq) parts /\
    (forall g, r_groups rq = [g] -> exists ls, levels_of hy (fst g) ls /\ served (snd g ∩ (all ∖ ⋃ (a_res <$> take i l))) ls (a_res a))).
Proof.
  intros E Hi. apply cycle_parts, fifo_loop_spec in E as (_ & H & _). destruct (H i a Hi) as (rq & rqs & H1 & H2 & Hne & Hp). set (free := all ∖ _) in *. clearbody free. cbn [picks] in Hp. apply basic_loop_spec in Hp as (parts & Hx & HF).
  rewrite union_empty_l_L in Hx. exists rq, rqs, parts. split; [done|]. split; [done|]. split; [done|]. intros Hprop.
  assert (HF' : Forall2 (fun (g : rgroup) y => exists ls, levels_of hy (fst g) ls /\ (served (snd g ∩ free) ls y \/ (y = ∅ /\ forall z, ~ served (snd g ∩ free) ls z))) (r_groups rq) parts).
  { apply Forall2_same_length_lookup in HF as [Hl HF]. apply Forall2_same_length_lookup. split; [done|]. intros k g y Hg Hy. destruct (HF k g y Hg Hy) as (ls & L1 & L2). exists ls. split; [done|].
    rewrite Forall_forall in Hprop. destruct (Hprop g) as (ls' & P1 & P2); [by eapply elem_of_list_lookup_2|]. assert (ls' = ls) as -> by (by eapply levels_of_fun). destruct (find_scattered_served _ _ _ P2 L2) as [S1 S2].
    destruct (decide (y = ∅)) as [->|Hy0]; [right; split; [done|]; intros z Hz; by apply (S2 z Hz)|left; by apply S1]. }
  split; [done|]. intros g Hg. rewrite Hg in HF'. apply Forall2_cons_inv_l in HF' as (y & parts' & (ls & L1 & L2) & Hnil & ->). apply Forall2_nil_inv_l in Hnil as ->. exists ls. split; [done|].
  assert (Hxy : a_res a = y) by (rewrite Hx; cbn; by rewrite union_empty_r_L). rewrite Hxy. destruct L2 as [L2|[-> _]]; [done|]. by rewrite Hxy in Hne.
Qed.
(** The first job that does not start cannot be served, for any of its groups. *)
Theorem C209_next hy all q jobs sched l : fifo_cycle true hy all q jobs sched = Ok l ->
  exists w, w ≡ₚ base.filter (fun j => f_state j = "Waiting"%string /\ f_queue j = q /\ f_resv j = "None"%string) jobs /\ StronglySorted (fun a b => f_id a <= f_id b) w /\ (a_job <$> l) = take (length l) w /\
    forall j, w !! length l = Some j -> exists rq rqs, f_rqts j = rq :: rqs /\
      forall g ls z, g ∈ r_groups rq -> levels_of hy (fst g) ls -> proper_levels ls -> ~ served (snd g ∩ (all ∖ ⋃ (a_res <$> l))) ls z.
Proof.
  intros E. exists (waiting q jobs). destruct (waiting_spec q jobs) as [W1 W2]. split; [done|]. split; [done|]. apply cycle_parts, fifo_loop_spec in E as (H1 & _ & H3). split; [done|].
  intros j Hj. destruct (H3 j Hj) as (rq & rqs & Hr & Hp). exists rq, rqs. split; [done|]. cbn [picks] in Hp. apply basic_loop_spec in Hp as (parts & Hx & HF). intros g ls z Hg Hls Hpr Hz.
  apply elem_of_list_lookup in Hg as [k Hk]. destruct (Forall2_lookup_l _ _ _ _ _ HF Hk) as (y & Hy & ls' & L1 & L2). assert (ls' = ls) as -> by (by eapply levels_of_fun). destruct (find_scattered_served _ _ _ Hpr L2) as [_ S2]. apply (S2 z Hz).
  rewrite union_empty_l_L in Hx. apply set_eq. intros i. split; [|set_solver]. intros Hi. rewrite Hx. apply elem_of_union_list. exists y. split; [by eapply elem_of_list_lookup_2|done].
Qed.
(** Refuted: a job with a group that cannot be served starts without it; and two groups get the same resources. *)
Theorem C209_missing_refuted : exists hy all jobs l a, fifo_cycle true hy all "default" jobs [] = Ok l /\ l = [a] /\ f_rqts (a_job a) = [mkRqt 70 60 [([("network_address"%string, 1)], {[1; 2; 3; 4]}); ([("resource_id"%string, 2)], {[5]})]] /\ in_order (a_res a) = [1; 2].
Proof.
  exists two_hosts, {[1; 2; 3; 4]}, [fj 7 "default" [([("network_address"%string, 1)], {[1; 2; 3; 4]}); ([("resource_id"%string, 2)], {[5]})]].
  match goal with |- exists l a, ?c = Ok l /\ _ => destruct c as [l|] eqn:E; [|vm_compute in E; discriminate]; assert (H : (match c with Ok l => (length l, a_job <$> l, in_order <$> (a_res <$> l)) | _ => (0%nat, [], []) end) = (1%nat, [fj 7 "default" [([("network_address"%string, 1)], {[1; 2; 3; 4]}); ([("resource_id"%string, 2)], {[5]})]], [[1; 2]])) by (vm_compute; reflexivity) end.
  rewrite E in H. cbv beta iota in H. destruct l as [|a [|b l]]; [discriminate H| |discriminate H]. exists [a], a. split; [done|]. split; [done|]. rewrite !fmap_cons in H. assert (H1 : a_job a = fj 7 "default" [([("network_address"%string, 1)], {[1; 2; 3; 4]}); ([("resource_id"%string, 2)], {[5]})]) by congruence. assert (H2 : in_order (a_res a) = [1; 2]) by congruence. rewrite H1, H2. split; reflexivity.
Qed.
Theorem C209_shared_refuted : exists hy all jobs l a, fifo_cycle true hy all "default" jobs [] = Ok l /\ l = [a] /\ f_rqts (a_job a) = [mkRqt 70 60 [([("network_address"%string, 1)], {[1; 2; 3; 4]}); ([("resource_id"%string, 2)], {[1; 2; 3; 4]})]] /\ in_order (a_res a) = [1; 2].
Proof.
  exists two_hosts, {[1; 2; 3; 4]}, [fj 7 "default" [([("network_address"%string, 1)], {[1; 2; 3; 4]}); ([("resource_id"%string, 2)], {[1; 2; 3; 4]})]].
  match goal with |- exists l a, ?c = Ok l /\ _ => destruct c as [l|] eqn:E; [|vm_compute in E; discriminate]; assert (H : (match c with Ok l => (length l, a_job <$> l, in_order <$> (a_res <$> l)) | _ => (0%nat, [], []) end) = (1%nat, [fj 7 "default" [([("network_address"%string, 1)], {[1; 2; 3; 4]}); ([("resource_id"%string, 2)], {[1; 2; 3; 4]})]], [[1; 2]])) by (vm_compute; reflexivity) end.
  rewrite E in H. cbv beta iota in H. destruct l as [|a [|b l]]; [discriminate H| |discriminate H]. exists [a], a. split; [done|]. split; [done|]. rewrite !fmap_cons in H. assert (H1 : a_job a = fj 7 "default" [([("network_address"%string, 1)], {[1; 2; 3; 4]}); ([("resource_id"%string, 2)], {[1; 2; 3; 4]})]) by congruence. assert (H2 : in_order (a_res a) = [1; 2]) by congruence. rewrite H1, H2. split; reflexivity.
Qed.

(** * C210: the queue the command is called for *)
(** Refuted: whatever the arguments, only jobs of the queue default are placed. *)
Theorem C210_queue_refuted argv hy all jobs sched l a : fifo_main argv hy all jobs sched = Ok l -> a ∈ l -> f_queue (a_job a) = "default"%string /\ f_state (a_job a) = "Waiting"%string /\ f_resv (a_job a) = "None"%string /\ a_job a ∈ jobs.
Proof.
  intros E Ha. unfold fifo_main in E. apply C207_order in E as (w & W1 & _ & W3 & _). assert (Hw : a_job a ∈ w) by (apply (take_elem (length l)); rewrite <- W3; apply elem_of_list_fmap; eauto).
  rewrite W1 in Hw. apply elem_of_list_filter in Hw as [(H1 & H2 & H3) H4]. done.
Qed.
(** What is written, for jobs of the queue default. *)
Theorem C210_saved argv hy all jobs sched l o2i : fifo_main argv hy all jobs sched = Ok l ->
  (forall m t, (m, t) ∈ predictions l <-> exists a, a ∈ l /\ m = a_mld a /\ t = f_start (a_job a)) /\ (forall m r, (m, r) ∈ gantt_resources o2i l <-> exists a i, a ∈ l /\ m = a_mld a /\ i ∈ a_res a /\ r = o2i i).
Proof.
  intros _. split.
  - intros m t. unfold predictions. rewrite elem_of_list_fmap. split; [intros (a & E & Ha); exists a; split; [done|]; split; congruence|intros (a & Ha & -> & ->); eauto].
  - intros m r. unfold gantt_resources. rewrite elem_of_list_bind. split.
    + intros (a & Hi & Ha). apply elem_of_list_fmap in Hi as (i & E & Hi). apply in_order_elem in Hi. exists a, i. split; [done|]. split; [congruence|]. split; [done|congruence].
    + intros (a & i & Ha & -> & Hi & ->). exists a. split; [|done]. apply elem_of_list_fmap. exists i. split; [done|]. by apply in_order_elem.
Qed.
Theorem C210_case : exists l, fifo_main ["besteffort"%string; "1700000000"%string] ∅ {[1; 2; 3]} [fj 6 "besteffort" [([("resource_id"%string, 1)], {[1; 2; 3]})]; fj 7 "default" [([("resource_id"%string, 2)], {[1; 2; 3]})]] [] = Ok l /\
  (f_id <$> (a_job <$> l)) = [7] /\ predictions l = [(70, 0)] /\ gantt_resources (fun r => 100 + r) l = [(70, 101); (70, 102)].
Proof.
  match goal with |- exists l, ?c = Ok l /\ _ => destruct c as [l|] eqn:E; [|vm_compute in E; discriminate]; exists l; split; [done|]; assert (H : (match c with Ok l => (f_id <$> (a_job <$> l), predictions l, gantt_resources (fun r => 100 + r) l) | _ => ([], [], []) end) = ([7], [(70, 0)], [(70, 101); (70, 102)])) by (vm_compute; reflexivity) end.
  rewrite E in H. cbv beta iota in H. set (g := gantt_resources _ l) in *. set (p := predictions l) in *. clearbody g p. assert (H1 : (f_id <$> (a_job <$> l)) = [7]) by congruence. assert (H2 : p = [(70, 0)]) by congruence. assert (H3 : g = [(70, 101); (70, 102)]) by congruence. split; [exact H1|]. split; [exact H2|exact H3].
Qed.
Print Assumptions C206_free.
Print Assumptions C206_number.
Print Assumptions C206_ignored_refuted.
Print Assumptions C206_all_refuted.
Print Assumptions C206_case.
Print Assumptions C207_order.
Print Assumptions C207_case.
Print Assumptions C208_running_refuted.
Print Assumptions C208_other_refuted.
Print Assumptions C208_case.
Print Assumptions C209_groups.
Print Assumptions C209_next.
Print Assumptions C209_missing_refuted.
Print Assumptions C209_shared_refuted.
Print Assumptions C210_queue_refuted.
Print Assumptions C210_saved.
Print Assumptions C210_case.
