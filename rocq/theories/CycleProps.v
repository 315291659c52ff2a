(** * A cycle of the basic scheduler: C247, C248 *)
From Verif Require Import Base SlotModel SlotSpec SlotProofs SlotJobs SlotLookup SlotOps SlotCheck SlotProps SlotShare
  HierarchyModel HierarchySpec HierarchyProofs HierarchyProps QuotasModel LoadModel SchedModel SchedSpec SchedProofs SchedAssign SchedRound SchedProps FifoModel FifoProps BasicModel BasicProps CycleModel.

Lemma date_sorted l : StronglySorted date_le (merge_sort date_le l).
Proof.
  assert (Transitive date_le) by (intros a b c; unfold date_le; lia). assert (Total date_le) by (intros a b; unfold date_le; lia).
  exact (StronglySorted_merge_sort date_le l).
Qed.
Lemma pair_free q all now t r : free_at (ss_of_pair q all now) t r <-> now <= t <= MAX_TIME /\ r ∈ all.
Proof.
  split.
  - intros (c & (i & s & Hi & Ht & <-) & Hr). unfold ss_of_pair in Hi. cbn [slots] in Hi. apply lookup_singleton_Some in Hi as [_ <-]. done.
  - intros [Ht Hr]. exists (fresh_content q all). split; [|done]. exists 1, (mkSlot 1 0 0 now MAX_TIME (fresh_content q all)). split; [apply lookup_singleton|]. done.
Qed.
(** No slot is ever forgotten: the first one keeps its id. *)
Lemma key_insert (m : gmap Z slot) i k v : is_Some (m !! i) -> is_Some (<[k := v]> m !! i).
Proof. intros H. apply lookup_insert_is_Some'. by right. Qed.
Lemma key_dupd m i k f m' : dupd k f m = Ok m' -> is_Some (m !! i) -> is_Some (m' !! i).
Proof. intros E H. unfold dupd in E. apply rbind_Ok in E as (s & _ & E). assert (m' = <[k := f s]> m) as -> by congruence. by apply key_insert. Qed.
Lemma key_copy m i a b m' : copy_intervals_set m a b = Ok m' -> is_Some (m !! i) -> is_Some (m' !! i).
Proof. intros E H. unfold copy_intervals_set in E. apply rassert_Ok in E as [_ E]. apply rbind_Ok in E as (s & _ & E). by eapply key_dupd. Qed.
Lemma key_if (b : bool) m i k f m' : (if b then dupd k f m else Ok m) = Ok m' -> is_Some (m !! i) -> is_Some (m' !! i).
Proof. destruct b; [apply key_dupd|]. intros E. assert (m' = m) as -> by congruence. done. Qed.
Lemma key_before ss k date ss' p i : split_at_before ss k date = Ok (ss', p) -> is_Some (slots ss !! i) -> is_Some (slots ss' !! i).
Proof.
  intros E H. unfold split_at_before in E. apply rassert_Ok in E as [_ E]. apply rbind_Ok in E as (s & _ & E). apply rassert_Ok in E as [_ E]. destruct (sb s =? se s); [by assert (ss' = ss) as -> by congruence|].
  apply rbind_Ok in E as (m1 & E1 & E). apply rbind_Ok in E as (m2 & E2 & E). apply rbind_Ok in E as (m3 & E3 & E). apply rbind_Ok in E as (m4 & E4 & E).
  assert (slots ss' = m4) as -> by (assert (ss' = mkSS m4 (begin_ ss) (end_ ss) (last_id ss + 1)) as -> by congruence; done).
  eapply key_copy; [exact E4|]. apply key_insert. eapply key_dupd; [exact E3|]. eapply key_dupd; [exact E2|]. eapply key_if; [exact E1|done].
Qed.
Lemma key_after ss k date ss' p i : split_at_after ss k date = Ok (ss', p) -> is_Some (slots ss !! i) -> is_Some (slots ss' !! i).
Proof.
  intros E H. unfold split_at_after in E. apply rassert_Ok in E as [_ E]. apply rbind_Ok in E as (s & _ & E). apply rassert_Ok in E as [_ E]. destruct (sb s =? se s); [by assert (ss' = ss) as -> by congruence|].
  apply rbind_Ok in E as (m1 & E1 & E). apply rbind_Ok in E as (m2 & E2 & E). apply rbind_Ok in E as (m3 & E3 & E). apply rbind_Ok in E as (m4 & E4 & E).
  assert (slots ss' = m4) as -> by (assert (ss' = mkSS m4 (begin_ ss) (end_ ss) (last_id ss + 1)) as -> by congruence; done).
  eapply key_copy; [exact E4|]. apply key_insert. eapply key_dupd; [exact E3|]. eapply key_dupd; [exact E2|]. eapply key_if; [exact E1|done].
Qed.
Lemma key_upd env sub j i ids : forall m m', upd_slots env sub j ids m = Ok m' -> is_Some (m !! i) -> is_Some (m' !! i).
Proof.
  induction ids as [|s ids IH]; intros m m' E H; cbn [upd_slots] in E; [by assert (m' = m) as -> by congruence|].
  apply rbind_Ok in E as (x & _ & E). apply rbind_Ok in E as (c & _ & E). eapply IH; [exact E|]. by apply key_insert.
Qed.
Lemma key_split env ss l r j sub ss' i : split_slots env ss l r j sub = Ok ss' -> is_Some (slots ss !! i) -> is_Some (slots ss' !! i).
Proof.
  intros E H. unfold split_slots in E. apply rbind_Ok in E as (sl & _ & E). apply rbind_Ok in E as ([ss1 l1] & E1 & E). apply rbind_Ok in E as (sr & _ & E). apply rbind_Ok in E as ([ss2 r1] & E2 & E).
  apply rbind_Ok in E as (ids & _ & E). apply rbind_Ok in E as (m & Em & E). assert (slots ss' = m) as -> by (assert (ss' = mkSS m (begin_ ss2) (end_ ss2) (last_id ss2)) as -> by congruence; done).
  eapply key_upd; [exact Em|].
  assert (H1 : is_Some (slots ss1 !! i)). { destruct (sb sl <? start_time j); [|by assert (ss1 = ss) as -> by congruence]. apply rbind_Ok in E1 as ([ss3 [a b]] & E3 & E1). assert (ss1 = ss3) as -> by congruence. by eapply key_before. }
  destruct (_ <? se sr); [|by assert (ss2 = ss1) as -> by congruence]. apply rbind_Ok in E2 as ([ss3 [a b]] & E3 & E2). assert (ss2 = ss3) as -> by congruence. by eapply key_after.
Qed.
Lemma key_jobs env ss jobs sub ss' i : split_slots_jobs env ss jobs sub = Ok ss' -> is_Some (slots ss !! i) -> is_Some (slots ss' !! i).
Proof.
  intros E. unfold split_slots_jobs in E. apply rbind_Ok in E as (s & _ & E). revert E. generalize (sid s). revert ss. induction jobs as [|j jobs IH]; intros ss k E H; cbn [split_slots_jobs_loop] in E; [by assert (ss' = ss) as -> by congruence|].
  destruct (_ && _); [|by eapply IH]. apply rbind_Ok in E as ([l r] & _ & E). apply rbind_Ok in E as (ss1 & E1 & E). eapply IH; [exact E|]. by eapply key_split.
Qed.
Lemma cycle_slots_first env q all now upto scheduled ss : cycle_slots env q all now upto scheduled = Ok ss -> is_Some (slots ss !! 1).
Proof.
  intros E. unfold cycle_slots in E. apply rbind_Ok in E as (ss1 & E1 & E). assert (H0 : is_Some (slots (ss_of_pair q all now) !! 1)) by (by exists (mkSlot 1 0 0 now MAX_TIME (fresh_content q all))).
  assert (H1 : is_Some (slots ss1 !! 1)). { destruct upto; [by assert (ss1 = ss_of_pair q all now) as -> by congruence|]. by eapply key_jobs. }
  destruct scheduled; [by assert (ss = ss1) as -> by congruence|]. by eapply key_jobs.
Qed.
(** The slot set of the cycle. *)
Lemma cycle_slots_spec env q all now upto scheduled : now <= MAX_TIME -> Forall (fun p => fst p <= MAX_TIME) upto -> Forall job_ok scheduled -> Forall (fun j => 0 <= walltime j) scheduled -> sorted_starts scheduled ->
  exists ss, cycle_slots env q all now upto scheduled = Ok ss /\ WF ss /\ begin_ ss = now /\ end_ ss = MAX_TIME /\
    (forall t r, free_at ss t r -> now <= t <= MAX_TIME /\ r ∈ all /\ (forall d x, (d, x) ∈ upto -> r ∈ x -> t < d \/ t = MAX_TIME) /\ (forall j, j ∈ scheduled -> start_time j <= t < start_time j + walltime j -> r ∉ res_set j)) /\
    (forall t r, now <= t <= MAX_TIME -> r ∈ all -> (forall d x, (d, x) ∈ upto -> r ∈ x -> t < d) -> (forall j, j ∈ scheduled -> start_time j <= t <= start_time j + walltime j -> r ∉ res_set j) -> free_at ss t r).
Proof.
  intros Hn Hu Hok Hw Hs. unfold cycle_slots. assert (HW0 := ss_of_pair_wf q all now Hn).
  assert (H1 : exists ss1, (match upto with [] => Ok (ss_of_pair q all now) | _ => split_slots_jobs env (ss_of_pair q all now) (avail_pseudo <$> merge_sort date_le upto) true end) = Ok ss1 /\ WF ss1 /\ begin_ ss1 = now /\ end_ ss1 = MAX_TIME /\
    (forall t r, free_at ss1 t r -> now <= t <= MAX_TIME /\ r ∈ all /\ (forall d x, (d, x) ∈ upto -> r ∈ x -> t < d \/ t = MAX_TIME)) /\
    (forall t r, now <= t <= MAX_TIME -> r ∈ all -> (forall d x, (d, x) ∈ upto -> r ∈ x -> t < d) -> free_at ss1 t r)).
  { assert (HP := merge_sort_Permutation date_le upto). assert (HS := date_sorted upto). set (l := merge_sort date_le upto) in *. clearbody l.
    destruct upto as [|u upto'] eqn:Eu.
    - exists (ss_of_pair q all now). split; [done|]. split; [done|]. split; [done|]. split; [done|]. split; [|intros t r Ht Hr _; by apply pair_free]. intros t r Hf. apply pair_free in Hf as [H1 H2]. split; [done|]. split; [done|]. intros d x Hd. by apply elem_of_nil in Hd.
    - rewrite <- Eu in *. clear Eu. destruct (insert_jobs_free env (avail_pseudo <$> l) (ss_of_pair q all now) HW0) as (ss' & E & HW' & B1 & B2 & F1 & F2).
      + apply Forall_fmap, Forall_forall. intros p _. split; [done|]. cbn. intros [H|H]; vm_compute in H; done.
      + apply Forall_fmap. rewrite HP. eapply Forall_impl; [exact Hu|]. intros [d x]. cbn. lia.
      + clear -HS. unfold sorted_starts. induction HS as [|a l Hs IH HF]; [constructor|]. rewrite fmap_cons. constructor; [done|]. apply Forall_fmap. eapply Forall_impl; [exact HF|]. intros p Hp. exact Hp.
      + exists ss'. split; [done|]. split; [done|]. split; [done|]. split; [done|]. split.
        * intros t r Hf. apply F1 in Hf as [H1 H2]. apply pair_free in H1 as [H3 H4]. split; [done|]. split; [done|]. intros d x Hd Hr. rewrite <- HP in Hd.
          destruct (decide (t < d)) as [|Hge]; [by left|right]. destruct (decide (t = MAX_TIME)) as [|Hne]; [done|exfalso]. apply (H2 (avail_pseudo (d, x))); [apply elem_of_list_fmap; eauto| |done]. cbn [start_time walltime avail_pseudo fst]. lia.
        * intros t r Ht Hr Hall. apply F2; [by apply pair_free|]. intros j Hj Hjt. apply elem_of_list_fmap in Hj as ([d x] & -> & Hd). rewrite HP in Hd. cbn [start_time walltime res_set avail_pseudo fst snd] in *. intros Hx. specialize (Hall d x Hd Hx). lia. }
  destruct H1 as (ss1 & -> & HW1 & B1 & B2 & F1 & F2). cbn [rbind].
  assert (H2 : exists ss2, (match scheduled with [] => Ok ss1 | _ => split_slots_jobs env ss1 scheduled true end) = Ok ss2 /\ WF ss2 /\ begin_ ss2 = begin_ ss1 /\ end_ ss2 = end_ ss1 /\
    (forall t r, free_at ss2 t r -> free_at ss1 t r /\ forall j, j ∈ scheduled -> start_time j <= t < start_time j + walltime j -> r ∉ res_set j) /\
    (forall t r, free_at ss1 t r -> (forall j, j ∈ scheduled -> start_time j <= t <= start_time j + walltime j -> r ∉ res_set j) -> free_at ss2 t r)).
  { destruct scheduled as [|j0 sched'] eqn:Es.
    - exists ss1. split; [done|]. split; [done|]. split; [done|]. split; [done|]. split; [|done]. intros t r Hf. split; [done|]. intros j Hj. by apply elem_of_nil in Hj.
    - rewrite <- Es in *. by apply insert_jobs_free. }
  destruct H2 as (ss2 & E2 & HW2 & B3 & B4 & F3 & F4). exists ss2. split; [done|]. split; [done|]. split; [congruence|]. split; [congruence|]. split.
  - intros t r Hf. apply F3 in Hf as [H1 H2]. apply F1 in H1 as (H3 & H4 & H5). done.
  - intros t r Ht Hr Hu' Hj. apply F4; [by apply F2|done].
Qed.

(** * C247: the jobs of a cycle keep clear of those scheduled before *)
(** Proved when the scheduled jobs come by start (they come by another date: C06): nothing is given before now, to a resource that is taken, that is no more available (but for the very last second), or twice. *)
Theorem C247_cycle_partial env hy q all now upto scheduled ids jobs jobs' :
  now <= MAX_TIME -> Forall (fun p => fst p <= MAX_TIME) upto -> Forall job_ok scheduled -> Forall (fun j => 0 <= walltime j) scheduled -> StronglySorted (fun a b => start_time a <= start_time b) scheduled ->
  NoDup ids -> (forall i w, i ∈ ids -> jobs !! i = Some w -> job_ok (w_job w) /\ Forall (fun rq => 0 < r_wall rq) (w_rqts w)) ->
  basic_cycle env hy q all now upto scheduled ids jobs = Ok jobs' ->
  (forall i w t r, i ∈ ids -> jobs' !! i = Some w -> job_holds w t r -> now <= t <= MAX_TIME /\ r ∈ all /\ (forall d x, (d, x) ∈ upto -> r ∈ x -> t < d \/ t = MAX_TIME) /\
     (forall j, j ∈ scheduled -> start_time j <= t < start_time j + walltime j -> r ∉ res_set j)) /\
  (forall i k wi wk t r, i ∈ ids -> k ∈ ids -> i <> k -> jobs' !! i = Some wi -> jobs' !! k = Some wk -> job_holds wi t r -> ~ job_holds wk t r).
Proof.
  intros Hn Hu Hok Hw Hs Hnd Hr E. destruct (cycle_slots_spec env q all now upto scheduled Hn Hu Hok Hw Hs) as (ss & Ess & HW & _ & _ & F & _).
  unfold basic_cycle in E. destruct ids as [|i0 ids0] eqn:Ei; [split; intros i; [intros ? ? ? H|intros ? ? ? ? ? H]; by apply elem_of_nil in H|]. rewrite <- Ei in *. clear Ei. rewrite Ess in E. cbn [rbind] in E. apply rbind_Ok in E as ([ss' jobs1] & E & E1). assert (jobs1 = jobs') as -> by congruence.
  destruct (C243_no_double env hy ids ss jobs ss' jobs' HW Hnd Hr E) as (P1 & P2 & _). split; [|exact P2]. intros i w t r Hi Hwi Hh. apply F. by apply (P1 i w t r).
Qed.

(** * C248: every waiting job is given a date *)
Lemma assign_basic_ones env hy ss w : WF ss -> is_Some (slots ss !! 1) -> end_ ss < 2 ^ 32 - 1 -> job_ok (w_job w) -> w_rqts w <> [] -> (forall rq, rq ∈ w_rqts w -> known_request hy rq /\ one_group rq /\ r_wall rq <= end_ ss - begin_ ss + 1) ->
  exists ss' w', assign_basic env hy ss w = Ok (ss', w') /\ WF ss' /\ is_Some (slots ss' !! 1) /\ begin_ ss' = begin_ ss /\ end_ ss' = end_ ss /\ is_Some (w_wall w') /\ begin_ ss <= start_time (w_job w') <= end_ ss.
Proof.
  intros HW H1 He Hj Hne Hall. assert (Hpos : Forall (fun rq => 0 < r_wall rq) (w_rqts w)). { apply Forall_forall. intros rq Hin. destruct (Hall rq Hin) as ((_ & Hw & _) & _). done. }
  destruct (assign_basic_total env hy ss w HW H1 Hj He Hne) as (ss' & w' & E).
  { apply Forall_forall. intros rq Hin. rewrite Forall_forall in Hpos. split; [by apply Hpos|]. destruct (Hall rq Hin) as (Hk & Hg & Hle). destruct (bfind_one hy ss rq HW Hk Hg) as [(x & s & sr & Ef & _)|[_ [[_ (s & sr & Ef & _)]|[Hgt _]]]]; [eauto|eauto|lia]. }
  exists ss', w'. split; [done|]. apply assign_basic_spec in E as (rq & x & s & _ & _ & Hs & -> & (I1 & I2 & I3 & I4 & _) & _); [|done..]. split; [done|]. split; [destruct H1 as [s1 H1]; destruct (I4 1 s1 H1) as (s1' & H1' & _); by exists s1'|].
  split; [done|]. split; [done|]. split; [by eexists|]. cbn [w_job placed with_sched start_time]. pose proof (slot_len _ _ HW Hs). lia.
Qed.
Lemma bschedule_total env hy ids : forall ss jobs, WF ss -> is_Some (slots ss !! 1) -> end_ ss < 2 ^ 32 - 1 -> NoDup ids ->
  (forall i, i ∈ ids -> exists w, jobs !! i = Some w /\ set_of w = "default"%string /\ job_ok (w_job w) /\ w_rqts w <> [] /\ forall rq, rq ∈ w_rqts w -> known_request hy rq /\ one_group rq /\ r_wall rq <= end_ ss - begin_ ss + 1) ->
  exists ss' jobs', bschedule env hy ids ss jobs = Ok (ss', jobs') /\ forall i, i ∈ ids -> exists w, jobs' !! i = Some w /\ is_Some (w_wall w) /\ begin_ ss <= start_time (w_job w) <= end_ ss.
Proof.
  induction ids as [|i ids IH]; intros ss jobs HW H1 He Hn Hall; [exists ss, jobs; split; [done|]; intros i Hi; by apply elem_of_nil in Hi|].
  destruct (Hall i ltac:(left)) as (w & Ew & Es & Hj & Hne & Hrq). destruct (assign_basic_ones env hy ss w HW H1 He Hj Hne Hrq) as (ss1 & w1 & E1 & HW1 & H11 & B1 & B2 & Hwall & Hst).
  assert (Hn' := Hn). apply NoDup_cons in Hn' as [Hi Hn']. destruct (IH ss1 (<[i := w1]> jobs)) as (ss' & jobs' & E & Hres); [done|done|by rewrite B2|done| |].
  { intros k Hk. destruct (Hall k ltac:(by right)) as (wk & Ek & G). exists wk. rewrite lookup_insert_ne by set_solver. rewrite B1, B2. done. }
  exists ss', jobs'. split; [cbn [bschedule]; unfold dget at 1; rewrite Ew; cbn [rbind]; unfold set_of in Es; rewrite bool_decide_true by exact Es; rewrite E1; cbn [rbind]; exact E|].
  intros k Hk. apply elem_of_cons in Hk as [-> |Hk]; [exists w1; rewrite (bschedule_other _ _ _ _ _ _ _ _ E Hi), lookup_insert; done|]. rewrite B1, B2 in Hres. by apply Hres.
Qed.
(** Proved for requests of one group shorter than the time there is, when the scheduled jobs come by start (C244, C246 and C06 refute the rest). *)
Theorem C248_dates_partial env hy q all now upto scheduled ids jobs :
  now <= MAX_TIME -> Forall (fun p => fst p <= MAX_TIME) upto -> Forall job_ok scheduled -> Forall (fun j => 0 <= walltime j) scheduled -> StronglySorted (fun a b => start_time a <= start_time b) scheduled -> NoDup ids ->
  (forall i, i ∈ ids -> exists w, jobs !! i = Some w /\ set_of w = "default"%string /\ job_ok (w_job w) /\ w_rqts w <> [] /\ forall rq, rq ∈ w_rqts w -> known_request hy rq /\ one_group rq /\ r_wall rq <= MAX_TIME - now + 1) ->
  exists jobs', basic_cycle env hy q all now upto scheduled ids jobs = Ok jobs' /\ forall i, i ∈ ids -> exists w, jobs' !! i = Some w /\ is_Some (w_wall w) /\ now <= start_time (w_job w) <= MAX_TIME.
Proof.
  intros Hn Hu Hok Hw Hs Hnd Hall. destruct ids as [|i0 ids0] eqn:Ei; [exists jobs; split; [done|]; intros i Hi; by apply elem_of_nil in Hi|]. rewrite <- Ei in *.
  destruct (cycle_slots_spec env q all now upto scheduled Hn Hu Hok Hw Hs) as (ss & Ess & HW & B1 & B2 & _).
  destruct (bschedule_total env hy ids ss jobs) as (ss' & jobs' & E & H); [done|by eapply cycle_slots_first|rewrite B2; vm_compute; reflexivity|done|rewrite B1, B2; exact Hall|].
  exists jobs'. rewrite B1, B2 in H. split; [|exact H]. unfold basic_cycle. rewrite Ei in *. rewrite Ess. cbn [rbind]. rewrite E. reflexivity.
Qed.
(** A cycle: resource 1 leaves at 100, the resources 1 to 4 are taken until 29, and two jobs ask for cores. *)
Definition sched29 : list job := [mkJob 9 0 30 (range 1 4) false None None 0 None "" "eve" "default" "p" []].
Definition read_cycle (r : res (gmap Z wjob)) : res (list (option (Z * option Z * list Z))) :=
  jobs <-- r ;; Ok ((fun i => (fun w => (start_time (w_job w), w_wall w, in_order (res_set (w_job w)))) <$> jobs !! i) <$> [1; 2]).
Theorem C247_case : read_cycle (basic_cycle ex_env ex_hy false (range 1 8) 10 [(100, range 1 1)] sched29 [1; 2] (two_jobs (ex_rq 1 60 6) (ex_rq 2 60 2))) = Ok [Some (30, Some 60, [1; 2; 3; 4; 5; 6]); Some (10, Some 60, [7; 8])] /\
  Forall job_ok sched29 /\ Forall (fun j => 0 <= walltime j) sched29 /\ StronglySorted (fun a b => start_time a <= start_time b) sched29.
Proof.
  split; [vm_compute; reflexivity|]. split; [|split].
  - apply Forall_singleton. split; [discriminate|intros [|]; discriminate].
  - apply Forall_singleton. cbn. lia.
  - repeat constructor.
Qed.
Theorem C248_case : read_cycle (basic_cycle ex_env ex_hy false (range 1 8) 10 [] [] [1; 2] (two_jobs (ex_rq 1 60 6) (ex_rq 2 60 6))) = Ok [Some (10, Some 60, [1; 2; 3; 4; 5; 6]); Some (70, Some 60, [1; 2; 3; 4; 5; 6])] /\
  (forall i, i ∈ [1; 2] -> exists w, two_jobs (ex_rq 1 60 6) (ex_rq 2 60 6) !! i = Some w /\ set_of w = "default"%string /\ job_ok (w_job w) /\ w_rqts w <> [] /\ forall rq, rq ∈ w_rqts w -> known_request ex_hy rq /\ one_group rq /\ r_wall rq <= MAX_TIME - 10 + 1).
Proof.
  split; [vm_compute; reflexivity|]. intros i Hi. apply elem_of_cons in Hi as [-> |Hi]; [|apply elem_of_list_singleton in Hi as ->]; unfold two_jobs; [|rewrite lookup_insert_ne by lia]; rewrite lookup_insert; eexists; (split; [reflexivity|]); (split; [reflexivity|]);
    (split; [split; [discriminate|intros [|]; discriminate]|]); (split; [discriminate|]); intros rq Hrq; apply elem_of_list_singleton in Hrq as ->; (split; [apply ex_rq_known; lia|]); (split; [by eexists|]); vm_compute; discriminate.
Qed.
Print Assumptions C247_cycle_partial.
Print Assumptions C248_dates_partial.
Print Assumptions C247_case.
Print Assumptions C248_case.
