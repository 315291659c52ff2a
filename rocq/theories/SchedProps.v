(** * Placement of waiting jobs: C17-C21, C56 *)
From Verif Require Import Base SlotModel SlotSpec SlotProofs SlotJobs SlotLookup SlotOps SlotCheck SlotProps SlotShare
  HierarchyModel HierarchySpec HierarchyProofs HierarchyProps QuotasModel LoadModel SchedModel SchedSpec SchedProofs SchedAssign SchedRound.

(** Examples: a waiting job, requests for cores of [ex_hy], a result read back. *)
Definition ex_w (id : Z) (types : list (string * string)) (deps : list (Z * string * option Z)) (keys : gmap Z string) (rqs : list rqt) : wjob :=
  mkWjob (mkJob id 0 0 ∅ false None None 0 None "" "bob" "default" "p" types) rqs deps keys false None (-1).
Definition ex_rq (mld wall n : Z) : rqt := mkRqt mld wall [([("core"%string, n)], range 1 8)].
Lemma ex_rq_known mld wall n : 0 < wall -> 0 < n -> known_request ex_hy (ex_rq mld wall n).
Proof.
  intros Hw Hn. split; [done|]. split; [done|].
  destruct ex_proper as (_ & _ & _ & H4 & _).
  apply Forall_cons in H4 as [_ H4]. apply Forall_cons in H4 as [H4 _]. cbn [fst snd] in *.
  repeat apply Forall_cons_2; [|constructor]; cbn [fst snd].
  exists [(ex_cores, n)]. split; [repeat constructor|]. split; [done|]. split; [done|]. split; [done|].
  split; [constructor|]. split; [constructor|by left].
Qed.
Definition ex_idstr (z : Z) : string := "id"%string.
Definition round (ids : list Z) (sss : csets) (jobs : gmap Z wjob) := schedule_jobs ex_env None ex_hy ex_idstr 60 ids sss jobs.
Definition job_of (r : res (csets * gmap Z wjob)) (i : Z) : wjob :=
  match r with Ok (_, m) => default (ex_w 0 [] [] ∅ []) (m !! i) | Err _ => ex_w 0 [] [] ∅ [] end.
(** start date of job [i] after the round, and the number of its resources *)
Definition start_of r i : Z := start_time (w_job (job_of r i)).
Definition size_of r i : Z := Z.of_nat (size (res_set (w_job (job_of r i)))).
Lemma round_result r i :
  match r with Ok (_, m) => bool_decide (is_Some (m !! i)) | Err _ => false end = true ->
  exists sss' jobs', r = Ok (sss', jobs') /\ jobs' !! i = Some (job_of r i).
Proof.
  destruct r as [[sss' jobs']|]; [|done]. rewrite bool_decide_eq_true. intros [w Hw]. exists sss', jobs'. split; [done|].
  unfold job_of. rewrite Hw. done.
Qed.

(** ** C18: the earliest start.  The search never fails; it answers the first date, from its
    origin on, at which the request can be satisfied, and resources for it; it answers None
    exactly when there is no such date. *)
Theorem C18_earliest : forall hy ss w rq min t0,
  WF ss -> w_keys w = ∅ -> plain (w_job w) -> known_request hy rq -> origin ss min t0 ->
  exists o, find_first None hy ss ∅ w rq min = Ok (o, ∅) /\
    match o with
    | None => forall t, t0 <= t -> ~ can_start hy ss rq t
    | Some (x, l, r) => exists s, slots ss !! l = Some s /\ t0 <= sb s /\ can_start hy ss rq (sb s) /\
        (forall t, t0 <= t < sb s -> ~ can_start hy ss rq t) /\
        (forall y u, y ∈ x -> sb s <= u < sb s + r_wall rq -> free_at ss u y) /\
        exists X parts, (forall y, y ∈ X <-> forall u, sb s <= u < sb s + r_wall rq -> free_at ss u y) /\ x = ⋃ parts /\
          Forall2 (fun (g : rgroup) y => exists ls, levels_of hy (fst g) ls /\ served (snd g ∩ X) ls y) (r_groups rq) parts
    end.
Proof.
  intros hy ss w rq min t0 HW Hk Hp Hkn Hor.
  set (w1 := mkWjob (w_job w) [rq] (w_deps w) ∅ (w_noq w) (w_wall w) (w_mld w)).
  assert (Hc : cache_ok hy (fun _ => (0, [])) ss ∅) by (intros k i H; by rewrite lookup_empty in H).
  assert (He : eff None w1 = None) by (unfold eff; by destruct (w_noq w1)).
  destruct (find_first_earliest None hy (fun _ => (0, [])) ss ∅ w1 rq min HW Hc ltac:(intros H; done) ltac:(by left) Hkn Hp He)
    as (o & ch' & t1 & E & _ & Ho1 & HS).
  rewrite (origin_unique _ _ _ _ HW Hor Ho1).
  assert (E' : find_first None hy ss ∅ w rq min = find_first None hy ss ∅ w1 rq min).
  { unfold find_first, start_id. change (w_keys w1) with (∅ : gmap Z string). rewrite Hk. done. }
  assert (ch' = ∅) as ->.
  { unfold find_first in E. apply rbind_Ok in E as (i & _ & E). apply rbind_Ok in E as (ws & _ & E). apply rbind_Ok in E as (o1 & _ & E).
    assert (Hs : Ok (o1, ∅) = Ok (o, ch') -> ch' = ∅) by congruence.
    change (w_keys w1) with (∅ : gmap Z string) in E. rewrite (bool_decide_true (∅ = ∅)) in E by done.
    destruct o1 as [[[a b] c]|]; [|by apply Hs]. destruct (if w_noq w1 then None else None : option qconf); by apply Hs. }
  exists o. split; [congruence|]. destruct o as [[[x l] r]|]; [|done].
  destruct HS as (sl & sr & H1 & _ & _ & H4 & H5 & H6 & H7). exists sl. split; [done|]. split; [done|].
  destruct (try_window_Some _ _ _ _ _ _ _ HW Hkn H4 Hp H6) as (H8 & _ & H9 & H10).
  split; [done|]. split; [done|]. split; done.
Qed.
Print Assumptions C18_earliest.
(* five cores for 20 s are free only from 15 on *)
Example C18_example : WF ex_ss3 /\ plain (w_job (ex_w 1 [] [] ∅ [])) /\ known_request ex_hy (ex_rq 1 20 5) /\ origin ex_ss3 (-1) 0 /\
  exists x r, find_first None ex_hy ex_ss3 ∅ (ex_w 1 [] [] ∅ []) (ex_rq 1 20 5) (-1) = Ok (Some (x, 3, r), ∅) /\
    sb (slot_of ex_ss3 3) = 15.
Proof.
  split; [exact ex_ss3_WF|]. split; [done|]. split; [by apply ex_rq_known|]. split; [left; split; [lia|vm_compute; reflexivity]|].
  set (r := find_first None ex_hy ex_ss3 ∅ (ex_w 1 [] [] ∅ []) (ex_rq 1 20 5) (-1)).
  assert (H : (match r with Ok (Some (_, l, _), ch) => (l =? 3) && bool_decide (ch = ∅) | _ => false end) = true) by (vm_compute; reflexivity).
  destruct r as [[[[[x l] rr]|] ch]|]; try done. apply andb_true_iff in H as [H1 H2]. apply bool_decide_eq_true in H2.
  exists x, rr. split; [|vm_compute; reflexivity]. assert (l = 3) as -> by lia. by subst ch.
Qed.

(** ** C20: the alternative that finishes first, the first listed on ties. *)
Theorem C20_moldable : forall env hy ss w min t0,
  WF ss -> is_Some (slots ss !! 1) -> end_ ss < 2 ^ 32 - 1 ->
  w_keys w = ∅ -> plain (w_job w) -> Forall (known_request hy) (w_rqts w) -> origin ss min t0 ->
  exists ss' w', assign env None hy ss ∅ w min = Ok (ss', ∅, w') /\
   ((* no alternative is possible: nothing changes, the job is marked unscheduled *)
    (ss' = ss /\ start_time (w_job w') = -1 /\ res_set (w_job w') = ∅ /\ w_mld w' = -1 /\
     forall rq t, rq ∈ w_rqts w -> t0 <= t -> ~ can_start hy ss rq t) \/
    (* the alternative of rank [i] is chosen *)
    exists i rq, w_rqts w !! i = Some rq /\ w_mld w' = r_mld rq /\ w_wall w' = Some (r_wall rq) /\
      let st := start_time (w_job w') in
      t0 <= st /\ can_start hy ss rq st /\ res_set (w_job w') <> ∅ /\
      (forall r u, r ∈ res_set (w_job w') -> st <= u < st + r_wall rq -> free_at ss u r) /\
      forall k rq' t, w_rqts w !! k = Some rq' -> t0 <= t -> can_start hy ss rq' t ->
        st + r_wall rq <= t + r_wall rq' /\ ((k < i)%nat -> st + r_wall rq < t + r_wall rq')).
Proof.
  intros env hy ss w min t0 HW H1 Hend Hk Hp HF Hor.
  assert (Hc : cache_ok hy (fun _ => (0, [])) ss ∅) by (intros k i H; by rewrite lookup_empty in H).
  assert (Hkf : keys_for (fun _ => (0, [])) w) by (intros H; done).
  assert (He : eff None w = None) by (unfold eff; by destruct (w_noq w)).
  destruct (assign_earliest env None hy _ ss ∅ w min t0 HW Hc Hkf Hp He HF H1 Hend Hor) as (ss' & ch' & w' & E & Hcase).
  assert (Hw : w = nokeys w) by (destruct w; cbn in Hk; by rewrite Hk).
  assert (ch' = ∅) as ->.
  { destruct (assign_cache_ok env None hy _ ss ∅ w min HW Hc Hkf (plain_ok _ Hp) HF) as [E2 _]. rewrite <- Hw, E in E2. congruence. }
  exists ss', w'. split; [done|]. destruct Hcase as [(-> & -> & H)|(i & rq & st & x & H2 & -> & H3 & H4 & H5 & H6 & _ & H7)].
  - left. split_and!; done.
  - right. exists i, rq. split_and!; done.
Qed.
Print Assumptions C20_moldable.
(* the first alternative starts at once but is longer; the second waits and finishes first *)
Example C20_example : WF ex_ss3 /\ is_Some (slots ex_ss3 !! 1) /\ end_ ex_ss3 < 2 ^ 32 - 1 /\
  let w := ex_w 7 [] [] ∅ [ex_rq 1 50 2; ex_rq 2 20 5; ex_rq 3 20 5] in
  Forall (known_request ex_hy) (w_rqts w) /\
  exists ss' w', assign ex_env None ex_hy ex_ss3 ∅ w (-1) = Ok (ss', ∅, w') /\ w_mld w' = 2 /\ start_time (w_job w') = 15.
Proof.
  split; [exact ex_ss3_WF|]. split; [exists (slot_of ex_ss3 1); apply slot_of_eq; vm_compute; reflexivity|].
  split; [vm_compute; reflexivity|]. intros w. split; [subst w; unfold ex_w, w_rqts; rewrite !Forall_cons, Forall_nil; split_and!; [by apply ex_rq_known..|done]|].
  set (r := assign ex_env None ex_hy ex_ss3 ∅ w (-1)).
  assert (H : (match r with Ok (_, ch, w') => bool_decide (ch = ∅) && (w_mld w' =? 2) && (start_time (w_job w') =? 15) | _ => false end) = true) by (vm_compute; reflexivity).
  destruct r as [[[ss' ch] w']|]; [|done]. apply andb_true_iff in H as [H H3]. apply andb_true_iff in H as [H1 H2].
  apply bool_decide_eq_true in H1. exists ss', w'. subst ch. split; [done|]. lia.
Qed.

(** ** C17: no double booking.  In any round, with or without quotas, containers and time-sharing
    elsewhere, the jobs placed in a slot set of plain jobs hold only resources that were free,
    and never two the same resource at the same instant. *)
Theorem C17_no_double_booking : forall env qc hy idstr sec n ids sss jobs sss' jobs' ss ch,
  schedule_jobs env qc hy idstr sec ids sss jobs = Ok (sss', jobs') ->
  c_get n sss = Some (ss, ch) -> WF ss -> (forall k i, ch !! k = Some i -> is_Some (slots ss !! i)) -> NoDup ids ->
  (forall id w, id ∈ ids -> jobs !! id = Some w -> w_wall w = None) ->
  (forall id w, id ∈ ids -> jobs !! id = Some w -> set_of w = n ->
     plain (w_job w) /\ Forall (fun rq => 0 < r_wall rq) (w_rqts w)) ->
  (forall id w, id ∈ ids -> jobs !! id = Some w -> has_type "container" (w_job w) = true -> container_name idstr (w_job w) <> n) ->
  (forall id w, id ∈ ids -> jobs' !! id = Some w -> set_of w = n ->
     forall t r, job_holds w t r -> free_at ss t r) /\
  (forall id1 id2 w1 w2, id1 ∈ ids -> id2 ∈ ids -> id1 <> id2 -> jobs' !! id1 = Some w1 -> jobs' !! id2 = Some w2 ->
     set_of w1 = n -> set_of w2 = n -> forall t r, ~ (job_holds w1 t r /\ job_holds w2 t r)).
Proof. exact round_booking. Qed.
Print Assumptions C17_no_double_booking.
Definition ex_jobs17 : gmap Z wjob :=
  <[1 := ex_w 1 [] [] ∅ [ex_rq 1 20 5]]> (<[2 := ex_w 2 [] [] ∅ [ex_rq 2 30 2]]> (<[3 := ex_w 3 [] [] ∅ [ex_rq 3 10 4; ex_rq 4 100 1]]> ∅)).
Example C17_example :
  (let r := round [1; 2; 3] [("default"%string, (ex_ss3, ∅))] ex_jobs17 in
   is_ok r && (start_of r 1 =? 15) && (size_of r 1 =? 5) && (start_of r 2 =? 20) && (size_of r 2 =? 2) && (start_of r 3 =? 0) && (size_of r 3 =? 4)) = true.
Proof. vm_compute. reflexivity. Qed.

(** With a time-sharing job the claim is false: job 1 (plain) takes the only core during 0..9, and
    job 2 (time-sharing) is then given the same core during 0..14. *)
Definition ex_ts_w (id : Z) (rqs : list rqt) : wjob :=
  mkWjob (mkJob id 0 0 ∅ true (Some "*"%string) (Some "*"%string) 0 None "n" "bob" "default" "p" []) rqs [] ∅ false None (-1).
Definition ex_ss1 : slotset := ss_of_slot (mkSlot 1 0 0 0 99 (fresh_content false (range 1 1))).
Theorem C17_timesharing_refuted : exists env hy idstr sec ss w1 w2 sss' jobs' w1' w2' t r,
  WF ss /\ plain (w_job w1) /\ job_ok (w_job w2) /\
  schedule_jobs env None hy idstr sec [1; 2] [("default"%string, (ss, ∅))] (<[1 := w1]> (<[2 := w2]> ∅)) = Ok (sss', jobs') /\
  jobs' !! 1 = Some w1' /\ jobs' !! 2 = Some w2' /\ job_holds w1' t r /\ job_holds w2' t r.
Proof.
  set (w1 := ex_w 1 [] [] ∅ [ex_rq 1 10 1]). set (w2 := ex_ts_w 2 [ex_rq 2 15 1]).
  set (jobs := <[1 := w1]> (<[2 := w2]> ∅) : gmap Z wjob).
  set (rd := round [1; 2] [("default"%string, (ex_ss1, ∅))] jobs).
  destruct (round_result rd 1 ltac:(vm_compute; reflexivity)) as (sss' & jobs' & E & H1).
  destruct (round_result rd 2 ltac:(vm_compute; reflexivity)) as (sss2 & jobs2 & E2 & H2).
  assert (jobs2 = jobs') as -> by congruence.
  exists ex_env, ex_hy, ex_idstr, 60, ex_ss1, w1, w2, sss', jobs', (job_of rd 1), (job_of rd 2), 3, 1.
  split; [apply ss_of_slot_wf; lia|]. split; [done|]. split; [split; [eauto|intros [H|H]; vm_compute in H; done]|].
  split; [exact E|]. split; [exact H1|]. split; [exact H2|].
  assert (Hr : forall i wl st, w_wall (job_of rd i) = Some wl -> start_of rd i = st -> bool_decide (1 ∈ res_set (w_job (job_of rd i))) = true ->
     st <= 3 < st + wl -> job_holds (job_of rd i) 3 1).
  { intros i wl st Hw Hs Hr Hst. exists wl. split; [done|]. split; [unfold start_of in Hs; lia|]. by apply bool_decide_eq_true in Hr. }
  split; [apply (Hr 1 10 0)|apply (Hr 2 15 0)]; try (vm_compute; reflexivity); lia.
Qed.
Print Assumptions C17_timesharing_refuted.

(** ** C19: the cache.  A round started with empty caches gives the same slots and the same
    placements, or the same exception, as the round without any cache, provided no container of
    the round reopens an existing slot set. *)
Theorem C19_cache_transparent_partial : forall env qc hy req_of idstr sec ids sss jobs,
  (forall n ss ch, c_get n sss = Some (ss, ch) -> WF ss /\ ch = ∅) -> NoDup ids ->
  (forall id w, id ∈ ids -> jobs !! id = Some w ->
     w_wall w = None /\ keys_for req_of w /\ job_ok (w_job w) /\ Forall (known_request hy) (w_rqts w)) ->
  (forall id w, id ∈ ids -> jobs !! id = Some w -> has_type "container" (w_job w) = true ->
     c_get (container_name idstr (w_job w)) sss = None /\ Forall (fun rq => sec <= r_wall rq) (w_rqts w)) ->
  (forall id1 id2 w1 w2, id1 ∈ ids -> id2 ∈ ids -> id1 <> id2 -> jobs !! id1 = Some w1 -> jobs !! id2 = Some w2 ->
     has_type "container" (w_job w1) = true -> has_type "container" (w_job w2) = true ->
     container_name idstr (w_job w1) <> container_name idstr (w_job w2)) ->
  schedule_jobs env qc hy idstr sec ids (erase sss) (nokeys <$> jobs) =
  match schedule_jobs env qc hy idstr sec ids sss jobs with
  | Ok (sss', jobs') => Ok (erase sss', nokeys <$> jobs')
  | Err e => Err e
  end.
Proof.
  intros env qc hy req_of idstr sec ids sss jobs HS Hnd HJ HC HD.
  apply (round_nocache env qc hy req_of); [|done|done|done|done].
  intros n ss ch Hg. destruct (HS n ss ch Hg) as [HW ->]. split; [done|]. intros k i Hk. by rewrite lookup_empty in Hk.
Qed.
Print Assumptions C19_cache_transparent_partial.
(* two equal requests, the second search starts from the cached slot *)
Definition ex_keys (m : Z) : gmap Z string := <[m := "k"%string]> ∅.
Definition ex_jobs19 : gmap Z wjob :=
  <[1 := ex_w 1 [] [] (ex_keys 1) [ex_rq 1 20 5]]> (<[2 := ex_w 2 [] [] (ex_keys 2) [ex_rq 2 20 5]]> ∅).
Example C19_example : exists req_of : string -> Z * list rgroup,
  (forall id w, id ∈ [1; 2] -> ex_jobs19 !! id = Some w ->
     w_wall w = None /\ keys_for req_of w /\ job_ok (w_job w) /\ Forall (known_request ex_hy) (w_rqts w) /\
     has_type "container" (w_job w) = false) /\
  (let r := round [1; 2] [("default"%string, (ex_ss3, ∅))] ex_jobs19 in
   is_ok r && (start_of r 1 =? 15) && (start_of r 2 =? 35)) = true.
Proof.
  exists (fun _ => (20, [([("core"%string, 5)], range 1 8)])). split; [|vm_compute; reflexivity].
  assert (H : forall i m, let w := ex_w i [] [] (ex_keys m) [ex_rq m 20 5] in
     w_wall w = None /\ keys_for (fun _ => (20, [([("core"%string, 5)], range 1 8)])) w /\ job_ok (w_job w) /\
     Forall (known_request ex_hy) (w_rqts w) /\ has_type "container" (w_job w) = false).
  { intros i m w. split; [done|]. split.
    { intros _. split; [done|]. intros rq Hrq. apply elem_of_list_singleton in Hrq as ->. exists "k"%string. split; [|done]. apply lookup_insert. }
    split; [apply plain_ok; done|]. split; [|done]. constructor; [by apply ex_rq_known|constructor]. }
  intros id w Hid. apply elem_of_cons in Hid as [->|Hid]; [|apply elem_of_list_singleton in Hid as ->]; unfold ex_jobs19.
  - rewrite lookup_insert. intros E. assert (w = ex_w 1 [] [] (ex_keys 1) [ex_rq 1 20 5]) as -> by congruence. apply H.
  - rewrite lookup_insert_ne, lookup_insert by done. intros E. assert (w = ex_w 2 [] [] (ex_keys 2) [ex_rq 2 20 5]) as -> by congruence. apply H.
Qed.

(** The claim itself is false: job 1 searches slot set "c", where nothing is free before 50, and
    its start is cached; container job 2 then adds its resources to "c" from 0 on; job 3, with the
    same request as job 1, could start at 0 but the cache makes it start later. *)
Definition ex_ss_c : slotset :=
  from_ok ex_ss (split_slots_jobs ex_env (ss_of_slot (mkSlot 1 0 0 0 199 (fresh_content false (range 1 2)))) [ex_job 90 0 50 (range 1 2)] true).
Definition ex_jobs19c : gmap Z wjob :=
  <[1 := ex_w 1 [("inner"%string, "c"%string)] [] (ex_keys 1) [ex_rq 1 10 1]]>
  (<[2 := ex_w 2 [("container"%string, "c"%string)] [] ∅ [ex_rq 2 100 4]]>
  (<[3 := ex_w 3 [("inner"%string, "c"%string)] [] (ex_keys 3) [ex_rq 3 10 1]]> ∅)).
Theorem C19_cache_refuted : exists env hy idstr sec ids sss jobs sss1 jobs1 sss2 jobs2 w1 w2,
  Forall (fun x : string * (slotset * cache) => WF (fst (snd x)) /\ snd (snd x) = ∅) sss /\
  schedule_jobs env None hy idstr sec ids sss jobs = Ok (sss1, jobs1) /\
  schedule_jobs env None hy idstr sec ids sss (nokeys <$> jobs) = Ok (sss2, jobs2) /\
  jobs1 !! 3 = Some w1 /\ jobs2 !! 3 = Some w2 /\ start_time (w_job w1) = 50 /\ start_time (w_job w2) = 0.
Proof.
  set (sss := [("default"%string, (ss_of_slot (mkSlot 1 0 0 0 999 (fresh_content false (range 1 8))), ∅)); ("c"%string, (ex_ss_c, ∅))] : csets).
  set (r1 := round [1; 2; 3] sss ex_jobs19c). set (r2 := round [1; 2; 3] sss (nokeys <$> ex_jobs19c)).
  destruct (round_result r1 3 ltac:(vm_compute; reflexivity)) as (sss1 & jobs1 & E1 & H1).
  destruct (round_result r2 3 ltac:(vm_compute; reflexivity)) as (sss2 & jobs2 & E2 & H2).
  exists ex_env, ex_hy, ex_idstr, 60, [1; 2; 3], sss, ex_jobs19c, sss1, jobs1, sss2, jobs2, (job_of r1 3), (job_of r2 3).
  split.
  { repeat constructor; cbn [fst snd]; [apply ss_of_slot_wf; lia|].
    assert (E : run_slot_ops ex_env (ss_of_slot (mkSlot 1 0 0 0 199 (fresh_content false (range 1 2)))) [OpSplitSlotsJobs [ex_job 90 0 50 (range 1 2)] true] = Ok ex_ss_c).
    { cbn [run_slot_ops slot_step]. 
      assert (E : split_slots_jobs ex_env (ss_of_slot (mkSlot 1 0 0 0 199 (fresh_content false (range 1 2)))) [ex_job 90 0 50 (range 1 2)] true = Ok ex_ss_c)
        by (apply from_ok_eq; vm_compute; reflexivity). rewrite E. reflexivity. }
    exact (proj1 (run_slot_ops_wf _ _ _ _ (ss_of_slot_wf 0 199 _ ltac:(lia)) E)). }
  split; [exact E1|]. split; [exact E2|]. split; [exact H1|]. split; [exact H2|]. split; vm_compute; reflexivity.
Qed.
Print Assumptions C19_cache_refuted.

(** ** C21: dependencies.  What holds: a placed job of a slot set starts after the end of a job it
    depends on, when that job was scheduled before it in the round in the same slot set, its end
    falls inside the slot set and no slot ended at that very second when it was placed, and all the
    waiting jobs it depends on were treated before it and end inside the slot set. *)
Theorem C21_dependency_partial : forall env qc hy idstr sec n d mid j post sss jobs sss' jobs' ss ch wd wj st wall,
  schedule_jobs env qc hy idstr sec (d :: mid ++ j :: post) sss jobs = Ok (sss', jobs') ->
  c_get n sss = Some (ss, ch) -> WF ss -> 0 <= begin_ ss -> (forall k i, ch !! k = Some i -> is_Some (slots ss !! i)) ->
  NoDup (d :: mid ++ j :: post) ->
  (forall id w, id ∈ d :: mid ++ j :: post -> jobs !! id = Some w ->
     w_wall w = None /\ (set_of w = n -> job_ok (w_job w) /\ Forall (fun rq => 0 < r_wall rq) (w_rqts w)) /\
     (has_type "container" (w_job w) = true -> container_name idstr (w_job w) <> n)) ->
  jobs' !! d = Some wd -> set_of wd = n -> w_wall wd = Some wall -> start_time (w_job wd) = st ->
  (forall i s, slots ss !! i = Some s -> se s <> st + wall) ->
  jobs' !! j = Some wj -> set_of wj = n -> is_Some (w_wall wj) ->
  (exists c, (d, "Waiting"%string, c) ∈ w_deps wj) ->
  (forall d' c wd', (d', "Waiting"%string, c) ∈ w_deps wj -> jobs' !! d' = Some wd' -> d' ∈ d :: mid /\ stop_of wd' <= end_ ss) ->
  st + wall <= start_time (w_job wj).
Proof. exact dependency_respected. Qed.
Print Assumptions C21_dependency_partial.
Definition ex_jobs21 (rq1 rq2 : rqt) : gmap Z wjob :=
  <[1 := ex_w 1 [] [] ∅ [rq1]]> (<[2 := ex_w 2 [] [(1, "Waiting"%string, None)] ∅ [rq2]]> ∅).
Definition ex_ss100 : slotset := ss_of_slot (mkSlot 1 0 0 0 100 (fresh_content false (range 1 8))).
Example C21_example :
  (let r := round [1; 2] [("default"%string, (ex_ss100, ∅))] (ex_jobs21 (ex_rq 1 10 2) (ex_rq 2 10 2)) in
   is_ok r && (start_of r 1 =? 0) && (start_of r 2 =? 10) && forallb (fun s => negb (se s =? 10)) (slots_list ex_ss100)) = true.
Proof. vm_compute. reflexivity. Qed.

(** Refuted: (a) a job whose dependency could not be placed is placed at once; *)
Theorem C21_unplaced_dependency_refuted : exists env hy idstr sec ss jobs sss' jobs' wd wj,
  WF ss /\ schedule_jobs env None hy idstr sec [1; 2] [("default"%string, (ss, ∅))] jobs = Ok (sss', jobs') /\
  jobs' !! 1 = Some wd /\ jobs' !! 2 = Some wj /\ (1, "Waiting"%string, None) ∈ w_deps wj /\
  w_wall wd = None /\ start_time (w_job wd) = -1 /\ is_Some (w_wall wj) /\ start_time (w_job wj) = 0.
Proof.
  set (jobs := ex_jobs21 (ex_rq 1 10 20) (ex_rq 2 10 2)). set (r := round [1; 2] [("default"%string, (ex_ss100, ∅))] jobs).
  destruct (round_result r 1 ltac:(vm_compute; reflexivity)) as (sss1 & jobs1 & E1 & H1).
  destruct (round_result r 2 ltac:(vm_compute; reflexivity)) as (sss2 & jobs2 & E2 & H2).
  assert (jobs2 = jobs1) as -> by congruence.
  exists ex_env, ex_hy, ex_idstr, 60, ex_ss100, jobs, sss1, jobs1, (job_of r 1), (job_of r 2).
  split; [apply ss_of_slot_wf; lia|]. split; [exact E1|]. split; [exact H1|]. split; [exact H2|].
  split; [by_dec|]. split; [vm_compute; reflexivity|]. split; [vm_compute; reflexivity|]. split; [by_dec|]. vm_compute; reflexivity.
Qed.
Print Assumptions C21_unplaced_dependency_refuted.

(** (b) a job treated before its dependency in the round starts with it; *)
Theorem C21_order_refuted : exists env hy idstr sec ss jobs sss' jobs' wd wj,
  WF ss /\ schedule_jobs env None hy idstr sec [2; 1] [("default"%string, (ss, ∅))] jobs = Ok (sss', jobs') /\
  jobs' !! 1 = Some wd /\ jobs' !! 2 = Some wj /\ (1, "Waiting"%string, None) ∈ w_deps wj /\
  w_wall wd = Some 10 /\ start_time (w_job wd) = 0 /\ is_Some (w_wall wj) /\ start_time (w_job wj) = 0.
Proof.
  set (jobs := ex_jobs21 (ex_rq 1 10 2) (ex_rq 2 10 2)). set (r := round [2; 1] [("default"%string, (ex_ss100, ∅))] jobs).
  destruct (round_result r 1 ltac:(vm_compute; reflexivity)) as (sss1 & jobs1 & E1 & H1).
  destruct (round_result r 2 ltac:(vm_compute; reflexivity)) as (sss2 & jobs2 & E2 & H2).
  assert (jobs2 = jobs1) as -> by congruence.
  exists ex_env, ex_hy, ex_idstr, 60, ex_ss100, jobs, sss1, jobs1, (job_of r 1), (job_of r 2).
  split; [apply ss_of_slot_wf; lia|]. split; [exact E1|]. split; [exact H1|]. split; [exact H2|].
  split; [by_dec|]. split; [vm_compute; reflexivity|]. split; [vm_compute; reflexivity|]. split; [by_dec|]. vm_compute; reflexivity.
Qed.
Print Assumptions C21_order_refuted.

(** (c) in the right order, when the dependency ends one second before the end of a slot, the job
    may start with it. *)
Theorem C21_tail_refuted : exists env hy idstr sec ss jobs sss' jobs' wd wj,
  WF ss /\ schedule_jobs env None hy idstr sec [1; 2] [("default"%string, (ss, ∅))] jobs = Ok (sss', jobs') /\
  jobs' !! 1 = Some wd /\ jobs' !! 2 = Some wj /\ (1, "Waiting"%string, None) ∈ w_deps wj /\
  w_wall wd = Some 100 /\ start_time (w_job wd) = 0 /\ is_Some (w_wall wj) /\ start_time (w_job wj) = 0.
Proof.
  set (jobs := ex_jobs21 (ex_rq 1 100 2) (ex_rq 2 50 2)). set (r := round [1; 2] [("default"%string, (ex_ss100, ∅))] jobs).
  destruct (round_result r 1 ltac:(vm_compute; reflexivity)) as (sss1 & jobs1 & E1 & H1).
  destruct (round_result r 2 ltac:(vm_compute; reflexivity)) as (sss2 & jobs2 & E2 & H2).
  assert (jobs2 = jobs1) as -> by congruence.
  exists ex_env, ex_hy, ex_idstr, 60, ex_ss100, jobs, sss1, jobs1, (job_of r 1), (job_of r 2).
  split; [apply ss_of_slot_wf; lia|]. split; [exact E1|]. split; [exact H1|]. split; [exact H2|].
  split; [by_dec|]. split; [vm_compute; reflexivity|]. split; [vm_compute; reflexivity|]. split; [by_dec|]. vm_compute; reflexivity.
Qed.
Print Assumptions C21_tail_refuted.

(** ** C56: one job never prevents the others from being scheduled.  What holds: a round of plain
    jobs without quotas or containers always ends. *)
Theorem C56_round_completes_partial : forall env hy req_of idstr sec ids sss jobs,
  (forall n ss ch, c_get n sss = Some (ss, ch) -> WF ss /\ ch = ∅ /\ is_Some (slots ss !! 1) /\ end_ ss < 2 ^ 32 - 1) ->
  (forall id, id ∈ ids -> exists w, jobs !! id = Some w /\ is_Some (c_get (set_of w) sss) /\
     keys_for req_of w /\ plain (w_job w) /\ Forall (known_request hy) (w_rqts w) /\
     has_type "container" (w_job w) = false) ->
  exists sss' jobs', schedule_jobs env None hy idstr sec ids sss jobs = Ok (sss', jobs').
Proof.
  intros env hy req_of idstr sec ids sss jobs HS HJ. apply (round_total env None hy req_of).
  - intros n ss ch Hg. destruct (HS n ss ch Hg) as (HW & -> & _). split; [done|]. intros k i Hk. by rewrite lookup_empty in Hk.
  - intros n ss ch Hg. by destruct (HS n ss ch Hg) as (_ & _ & H).
  - intros id Hid. destruct (HJ id Hid) as (w & ? & ? & ? & ? & ? & ?). exists w. split_and!; try done. unfold eff. by destruct (w_noq w).
Qed.
Print Assumptions C56_round_completes_partial.
Example C56_example : forall n ss ch, c_get n [("default"%string, (ex_ss3, ∅ : cache))] = Some (ss, ch) ->
  WF ss /\ ch = ∅ /\ is_Some (slots ss !! 1) /\ end_ ss < 2 ^ 32 - 1.
Proof.
  intros n ss ch. cbn [c_get]. case_bool_decide; [|done]. intros E. assert (ss = ex_ss3 /\ ch = ∅) as [-> ->] by (split; congruence).
  split; [exact ex_ss3_WF|]. split; [done|]. split; [exists (slot_of ex_ss3 1); apply slot_of_eq; vm_compute; reflexivity|vm_compute; reflexivity].
Qed.

(** Refuted: a container job that cannot be placed, or a job for an unknown slot set, stops the
    round with an exception, whatever comes after it. *)
Theorem C56_container_refuted : exists env hy idstr sec ss w1, WF ss /\ plain (w_job w1) /\ Forall (known_request hy) (w_rqts w1) /\
  has_type "container" (w_job w1) = true /\
  forall ids jobs, schedule_jobs env None hy idstr sec (1 :: ids) [("default"%string, (ss, ∅))] (<[1 := w1]> jobs) = Err EAttr.
Proof.
  exists ex_env, ex_hy, ex_idstr, 60, ex_ss100, (ex_w 1 [("container"%string, ""%string)] [] ∅ [ex_rq 1 10 20]).
  split; [apply ss_of_slot_wf; lia|]. split; [done|]. split; [constructor; [by apply ex_rq_known|constructor]|]. split; [done|].
  intros ids jobs. cbn [schedule_jobs]. unfold dget at 1. rewrite lookup_insert. cbn [rbind w_deps ex_w deps_loop].
  assert (E : is_ok (assign ex_env None ex_hy ex_ss100 ∅ (ex_w 1 [("container"%string, ""%string)] [] ∅ [ex_rq 1 10 20]) (-1)) = true) by (vm_compute; reflexivity).
  change (c_get (default "default"%string (type_value "inner" (jtypes (w_job (ex_w 1 [("container"%string, ""%string)] [] ∅ [ex_rq 1 10 20]))))) [("default"%string, (ex_ss100, ∅ : cache))])
    with (Some (ex_ss100, ∅ : cache)). cbn iota.
  pose proof (from_ok_eq (ex_ss100, ∅, ex_w 0 [] [] ∅ []) _ E) as E'. rewrite E'. cbn [rbind].
  set (x := from_ok _ _) in *.
  assert (Hx : w_wall x.2 = None) by (subst x; vm_compute; reflexivity).
  assert (Ht : has_type "container" (w_job x.2) = true) by (subst x; vm_compute; reflexivity).
  clearbody x. destruct x as [[a b] w']. cbn [snd] in *. unfold open_container. rewrite Ht, Hx. done.
Qed.
Print Assumptions C56_container_refuted.
Theorem C56_inner_refuted : forall env qc hy idstr sec w1 ids sss jobs,
  jobs !! 1 = Some w1 -> w_deps w1 = [] -> c_get (set_of w1) sss = None ->
  schedule_jobs env qc hy idstr sec (1 :: ids) sss jobs = Err EKey.
Proof.
  intros env qc hy idstr sec w1 ids sss jobs H1 H2 H3. cbn [schedule_jobs]. unfold dget. rewrite H1. cbn [rbind]. rewrite H2. cbn [deps_loop].
  fold (set_of w1). by rewrite H3.
Qed.
Print Assumptions C56_inner_refuted.
Example C56_inner_example : c_get (set_of (ex_w 1 [("inner"%string, "42"%string)] [] ∅ [ex_rq 1 10 1])) [("default"%string, (ex_ss3, ∅ : cache))] = None.
Proof. reflexivity. Qed.
