(** The launch commander: C40, C41, C69. *)
From Verif Require Import Base CommanderModel.
Ltac sproj := cbn [at_ to_run requeue executors alive next started received] in *.

(** ** Invariant *)
Record inv (max : Z) (s : st) : Prop := mkInv {
  i_jobs : NoDup (fst <$> executors s);
  i_enodup : NoDup (snd <$> executors s);
  i_pids : forall j p, (j, p) ∈ executors s -> (p < next s)%nat;
  i_apids : forall p j, (p, j) ∈ alive s -> (p < next s)%nat;
  i_anodup : NoDup (fst <$> alive s);
  i_alive : forall p j, (p, j) ∈ alive s -> (j, p) ∈ executors s;
  i_books : received s ≡ₚ started s ++ requeue s ++ to_run s;
  i_known : forall j p, (j, p) ∈ executors s -> j ∈ fst <$> started s;
  i_len : Z.of_nat (length (executors s)) <= Z.max 0 (max + 1);
  i_recv : at_ s = PRecv -> requeue s = [] }.
Lemma is_alive_true s p : is_alive s p = true <-> exists j, (p, j) ∈ alive s.
Proof.
  unfold is_alive. rewrite existsb_exists. split.
  - intros ([p' j] & Hin & E). apply Nat.eqb_eq in E. cbn in E. subst. exists j. by apply elem_of_list_In.
  - intros (j & Hin). exists (p, j). split; [by apply elem_of_list_In|]. apply Nat.eqb_refl.
Qed.
Lemma executor_of_some s j p : NoDup (fst <$> executors s) -> executor_of s j = Some p <-> (j, p) ∈ executors s.
Proof.
  unfold executor_of. induction (executors s) as [|[j' p'] l IH]; intros HN; [cbn; split; [done|by intros ?%elem_of_nil]|].
  cbn [fmap list_fmap fst] in HN. apply NoDup_cons in HN as [H1 H2]. rewrite filter_cons. cbn [fst]. destruct (decide (j' = j)) as [->|E].
  - cbn. split; [intros [= ->]; left|]. intros [[= ->]|Hin]%elem_of_cons; [done|]. exfalso. apply H1. apply elem_of_list_fmap. by exists (j, p).
  - rewrite (IH H2). rewrite elem_of_cons. split; [by right|]. intros [[= ? ?]|?]; [congruence|done].
Qed.
Lemma executor_of_none s j : executor_of s j = None -> forall p, (j, p) ∉ executors s.
Proof.
  unfold executor_of. intros H p Hin. destruct (filter _ _) as [|x ?] eqn:E; [|done]. assert ((j, p) ∈ filter (fun x => x.1 = j) (executors s)) as Hf by (by apply elem_of_list_filter). rewrite E in Hf. by apply elem_of_nil in Hf.
Qed.
Lemma filter_sub {A B} (f : A -> B) (P : A -> Prop) `{!forall x, Decision (P x)} l : NoDup (f <$> l) -> NoDup (f <$> filter P l).
Proof.
  induction l as [|x l IH]; [done|]. cbn [fmap list_fmap]. intros [H1 H2]%NoDup_cons. rewrite filter_cons. destruct (decide (P x)); [|auto]. cbn [fmap list_fmap]. apply NoDup_cons. split; [|auto].
  intros (y & E & Hy)%elem_of_list_fmap. apply elem_of_list_filter in Hy as [_ Hy]. apply H1. apply elem_of_list_fmap. eauto.
Qed.
Lemma list_filter_all {A} (P : A -> Prop) `{!forall x, Decision (P x)} (l : list A) : (forall x, x ∈ l -> P x) -> filter P l = l.
Proof.
  induction l as [|x l IH]; intros Hl; [done|]. rewrite filter_cons_True by (apply Hl; left). f_equal. apply IH. intros y Hy. apply Hl. by right.
Qed.
Definition running (s : st) (j : Z) : Prop := exists p, (p, j) ∈ alive s.
Definition blocked (s : st) (j : Z) : bool := match executor_of s j with Some p => is_alive s p | None => false end.
Lemma nodup_fst {A B} (l : list (A * B)) x y z : NoDup (fst <$> l) -> (x, y) ∈ l -> (x, z) ∈ l -> y = z.
Proof.
  intros HN Hy Hz. apply elem_of_list_lookup in Hy as [i Hi]. apply elem_of_list_lookup in Hz as [k Hk].
  assert (i = k) as ->; [|congruence]. apply (NoDup_lookup _ i k x HN); rewrite list_lookup_fmap, ?Hi, ?Hk; done.
Qed.
Lemma nodup_snd {A B} (l : list (A * B)) x y z : NoDup (snd <$> l) -> (y, x) ∈ l -> (z, x) ∈ l -> y = z.
Proof.
  intros HN Hy Hz. apply elem_of_list_lookup in Hy as [i Hi]. apply elem_of_list_lookup in Hz as [k Hk].
  assert (i = k) as ->; [|congruence]. apply (NoDup_lookup _ i k x HN); rewrite list_lookup_fmap, ?Hi, ?Hk; done.
Qed.
Lemma blocked_running max s j : inv max s -> blocked s j = true <-> running s j.
Proof.
  intros HI. unfold blocked, running. destruct (executor_of s j) as [p|] eqn:E.
  - apply (executor_of_some _ _ _ (i_jobs _ _ HI)) in E. rewrite is_alive_true. split.
    + intros (j' & Hin). exists p. assert (j' = j) as ->; [|done]. apply (nodup_snd (executors s) p); [apply HI| |done]. by apply (i_alive _ _ HI).
    + intros (p' & Hin). exists j. assert (p = p') as ->; [|done]. apply (nodup_fst (executors s) j); [apply HI|done|]. by apply (i_alive _ _ HI).
  - split; [done|]. intros (p & Hin). apply (i_alive _ _ HI) in Hin. by apply (executor_of_none _ _ E) in Hin.
Qed.
Lemma launch_inv max s c l : inv max s -> to_run s = c :: l -> Z.of_nat (length (executors s)) <= max -> inv max (launch s).
Proof.
  intros HI El Hlen. unfold launch. rewrite El. fold (blocked s c.1). destruct (blocked s c.1) eqn:Eb.
  - constructor; sproj; try apply HI; [|done]. rewrite (i_books _ _ HI), El. rewrite <- app_assoc. done.
  - assert (Hnr : ~ running s c.1) by (rewrite <- (blocked_running max s) by done; congruence).
    constructor; sproj.
    + rewrite fmap_app. apply NoDup_app. split; [by apply filter_sub, HI|]. split; [|apply NoDup_singleton].
      intros x (y & -> & Hy)%elem_of_list_fmap Hx. apply elem_of_list_filter in Hy as [Hy _]. apply elem_of_list_singleton in Hx. done.
    + rewrite fmap_app. apply NoDup_app. split; [by apply filter_sub, HI|]. split; [|apply NoDup_singleton].
      intros x ([j p] & -> & Hy)%elem_of_list_fmap Hx. apply elem_of_list_filter in Hy as [_ Hy]. apply elem_of_list_singleton in Hx. cbn in Hx. apply (i_pids _ _ HI) in Hy. lia.
    + intros j p [Hin|Hin]%elem_of_app; [apply elem_of_list_filter in Hin as [_ Hin]; apply (i_pids _ _ HI) in Hin; lia|]. apply elem_of_list_singleton in Hin as [= -> ->]. lia.
    + intros p j [[= -> ->]|Hin]%elem_of_cons; [lia|]. apply (i_apids _ _ HI) in Hin. lia.
    + cbn [fmap list_fmap fst]. apply NoDup_cons. split; [|apply HI]. intros ([p j] & E & Hy)%elem_of_list_fmap. cbn in E. apply (i_apids _ _ HI) in Hy. lia.
    + intros p j [[= -> ->]|Hin]%elem_of_cons; [set_solver|]. apply elem_of_app. left. apply elem_of_list_filter. split; [|by apply (i_alive _ _ HI)]. cbn. intros ->. apply Hnr. by exists p.
    + rewrite (i_books _ _ HI), El. rewrite <- app_assoc. apply Permutation_app_head. cbn [app]. by rewrite Permutation_middle.
    + intros j p [Hin|Hin]%elem_of_app; rewrite fmap_app; apply elem_of_app; [left; apply elem_of_list_filter in Hin as [_ Hin]; by apply (i_known _ _ HI) in Hin|].
      apply elem_of_list_singleton in Hin as [= -> ->]. right. by apply elem_of_list_singleton.
    + rewrite app_length. cbn [length]. pose proof (filter_length (fun x : Z * nat => x.1 <> c.1) (executors s)). lia.
    + done.
Qed.
Lemma step_inv max a s : inv max s -> inv max (step max a s).
Proof.
  intros HI. unfold step. destruct a as [c| |p|].
  - destruct (at_ s) eqn:E; [|done|done]. constructor; sproj; try apply HI; [|done]. rewrite (i_books _ _ HI). rewrite !app_assoc. done.
  - destruct (at_ s) eqn:E; [|done|done]. destruct (to_run s) eqn:Et; [done|]. rewrite <- Et. constructor; sproj; try apply HI. done.
  - assert (Hsub : forall x, x ∈ filter (fun x : nat * Z => x.1 <> p) (alive s) -> x ∈ alive s) by (by intros x [_ ?]%elem_of_list_filter).
    constructor; sproj; try apply HI.
    + intros q j Hin. apply Hsub in Hin. by apply (i_apids _ _ HI) in Hin.
    + apply filter_sub, HI.
    + intros q j Hin. apply (i_alive _ _ HI). by apply Hsub.
  - destruct (at_ s) eqn:E; [done| |].
    + destruct (to_run s) as [|c l] eqn:Et; [rewrite <- Et; constructor; sproj; try apply HI; done|]. destruct (_ <=? _) eqn:El; [apply (launch_inv _ _ _ _ HI Et); lia|].
      rewrite <- Et. constructor; sproj; try apply HI; done.
    + constructor; sproj; try apply HI.
      * apply filter_sub, HI.
      * apply filter_sub, HI.
      * intros j p [_ Hin]%elem_of_list_filter. by apply (i_pids _ _ HI) in Hin.
      * intros p j Hin. apply elem_of_list_filter. split; [|by apply (i_alive _ _ HI)]. apply is_alive_true. eauto.
      * rewrite (i_books _ _ HI). cbn [app]. apply Permutation_app_head. apply Permutation_app_comm.
      * intros j p [_ Hin]%elem_of_list_filter. by apply (i_known _ _ HI) in Hin.
      * pose proof (filter_length (fun x : Z * nat => is_alive s x.2 = true) (executors s)). pose proof (i_len _ _ HI). lia.
      * done.
Qed.
Lemma init_inv max : inv max init.
Proof. constructor; cbn; try apply NoDup_nil_2; try (by intros ? ? ?%elem_of_nil); try done. lia. Qed.
Lemma run_inv max l s : inv max s -> inv max (run max l s).
Proof. unfold run. revert s. induction l as [|a l IH]; intros s HI; [done|]. cbn [fold_left]. by apply IH, step_inv. Qed.

(** ** C40. Whatever messages arrive, whenever processes end *)
Theorem C40_one_executor max l p p' j : (p, j) ∈ alive (run max l init) -> (p', j) ∈ alive (run max l init) -> p = p'.
Proof.
  pose proof (run_inv max l init (init_inv max)) as HI. intros H1 H2. apply (i_alive _ _ HI) in H1. apply (i_alive _ _ HI) in H2. by apply (nodup_fst _ _ _ _ (i_jobs _ _ HI) H1).
Qed.
Theorem C40_no_loss max l : let s := run max l init in received s ≡ₚ started s ++ requeue s ++ to_run s.
Proof. apply (i_books max). apply run_inv, init_inv. Qed.
Theorem C40_bounded max l : Z.of_nat (length (alive (run max l init))) <= Z.max 0 (max + 1).
Proof.
  pose proof (run_inv max l init (init_inv max)) as HI. set (s := run max l init) in *. pose proof (i_len _ _ HI) as Hl.
  assert (length (alive s) <= length (executors s))%nat; [|lia].
  replace (length (alive s)) with (length ((fun x => (x.2, x.1)) <$> alive s)) by apply fmap_length.
  apply submseteq_length, NoDup_submseteq.
  - apply (NoDup_fmap_1 snd). rewrite <- list_fmap_compose. apply HI.
  - intros x ([p j] & -> & Hin)%elem_of_list_fmap. by apply (i_alive _ _ HI).
Qed.
(** A waiting command is started as soon as the processes have ended: within two passes. *)
Theorem C40_progress max l c r : 0 <= max -> let s := run max l init in
  at_ s = PRecv -> alive s = [] -> to_run s = c :: r ->
  exists k, (forall a, a ∈ k -> a = Timeout \/ a = Go) /\ (length k <= 5)%nat /\ started (run max k s) = started s ++ [c].
Proof.
  intros Hmax s Hat Ha Ht. pose proof (run_inv max l init (init_inv max)) as HI. fold s in HI. clearbody s. clear l.
  assert (Hna : forall ex, match ex with Some p => is_alive s p | None => false end = false) by (intros [p|]; unfold is_alive; by rewrite ?Ha).
  destruct (Z.of_nat (length (executors s)) <=? max) eqn:El.
  - exists [Timeout; Go]. split; [set_solver|]. split; [cbn; lia|]. unfold run. cbn [fold_left]. unfold step at 2. rewrite Hat, Ht. unfold step. sproj. rewrite El. unfold launch. sproj.
    unfold executor_of, is_alive. sproj. rewrite Ha. cbn [existsb]. by destruct (snd <$> _).
  - exists [Timeout; Go; Go; Timeout; Go]. split; [set_solver|]. split; [cbn; lia|]. unfold run. cbn [fold_left]. unfold step at 5. rewrite Hat, Ht. unfold step at 4. sproj. rewrite El. unfold step at 3. sproj.
    unfold step at 2. sproj. rewrite (i_recv _ _ HI Hat), app_nil_r. unfold step. sproj.
    match goal with |- context [filter ?P (executors s)] => assert (filter P (executors s) = []) as -> end.
    { unfold is_alive. sproj. rewrite Ha. cbn [existsb]. clear. induction (executors s) as [|x ex IH]; [done|]. rewrite filter_cons_False by done. apply IH. }
    clear El HI. destruct max; [done|done|lia].
Qed.
(** ** C69. Not more than the configured maximum at once: refuted, it is exceeded by one. *)
Lemma pass_new max s j a : at_ s = PRecv -> to_run s = [] -> requeue s = [] -> Z.of_nat (length (executors s)) <= max ->
  (forall p, (j, p) ∉ executors s) -> (forall j p, (j, p) ∈ executors s -> is_alive s p = true) ->
  run max [Receive (j, a); Go; Go; Go] s =
  mkSt PRecv [] [] (executors s ++ [(j, next s)]) ((next s, j) :: alive s) (S (next s)) (started s ++ [(j, a)]) (received s ++ [(j, a)]).
Proof.
  destruct s as [at0 tr rq ex al nx sd rc]. sproj. intros -> -> -> Hlen Hnone Hliv. unfold run. cbn [fold_left].
  unfold step at 4. sproj. cbn [app]. unfold step at 3. sproj. replace (Z.of_nat (length ex) <=? max) with true by lia. unfold launch. sproj. cbn [fst].
  unfold executor_of. sproj.
  assert (filter (fun x : Z * nat => x.1 = j) ex = []) as ->.
  { destruct (filter _ _) as [|[j' p] ?] eqn:Ef; [done|]. assert ((j', p) ∈ filter (fun x : Z * nat => x.1 = j) ex) as Hin by (rewrite Ef; left). apply elem_of_list_filter in Hin as [E Hin]. cbn in E. subst. by apply Hnone in Hin. }
  cbn [head fmap option_fmap option_map]. unfold step at 2. sproj. unfold step. sproj. cbn [app].
  assert (filter (fun x : Z * nat => x.1 <> j) ex = ex) as Hall.
  { apply list_filter_all. intros [j' p] Hin. cbn. intros ->. by apply Hnone in Hin. }
  rewrite Hall. f_equal. apply list_filter_all. intros [j' p] [Hin|Hin]%elem_of_app; cbn [snd]; apply is_alive_true; sproj.
  - apply Hliv, is_alive_true in Hin as (j'' & Hin). exists j''. by right.
  - apply elem_of_list_singleton in Hin as [= -> ->]. exists j. left.
Qed.
Theorem C69_one_too_many_refuted (n : nat) : exists l, length (alive (run (Z.of_nat n) l init)) = S n.
Proof.
  assert (forall k, (k <= S n)%nat -> exists l, let s := run (Z.of_nat n) l init in at_ s = PRecv /\ to_run s = [] /\ length (alive s) = k /\ length (executors s) = k /\
    (forall j p, (j, p) ∈ executors s -> j < Z.of_nat k) /\ (forall j p, (j, p) ∈ executors s -> is_alive s p = true)) as H.
  { induction k as [|k IH]; intros Hk; [exists []; cbn; repeat split; try (by intros ? ? ?%elem_of_nil); done|].
    destruct IH as (l & Hat & Ht & Hal & Hex & Hj & Hliv); [lia|]. pose proof (run_inv (Z.of_nat n) l init (init_inv _)) as HI. set (s := run _ l init) in *. exists (l ++ [Receive (Z.of_nat k, 0); Go; Go; Go]).
    cbv zeta. unfold run. rewrite fold_left_app. fold (run (Z.of_nat n) l init). fold s. clearbody s.
    pose proof (pass_new (Z.of_nat n) s (Z.of_nat k) 0 Hat Ht (i_recv _ _ HI Hat) ltac:(lia)) as Hp. unfold run in Hp. rewrite Hp; [|by intros p Hin; apply Hj in Hin; lia|done]. clear Hp. sproj.
    split; [done|]. split; [done|]. cbn [length]. split; [lia|]. rewrite app_length. cbn [length]. split; [lia|]. split.
    - intros j p [Hin|Hin]%elem_of_app; [apply Hj in Hin; lia|]. apply elem_of_list_singleton in Hin as [= -> ->]. lia.
    - intros j p [Hin|Hin]%elem_of_app; apply is_alive_true; sproj.
      + apply Hliv, is_alive_true in Hin as (j' & Hin). exists j'. by right.
      + apply elem_of_list_singleton in Hin as [= -> ->]. exists (Z.of_nat k). left. }
  destruct (H (S n) (le_n _)) as (l & _ & _ & Hl & _). by exists l.
Qed.

(** ** C41. The order of the commands of one job *)
Definition of_job (j : Z) (l : list cmd) : list cmd := filter (fun c => fst c = j) l.
(** Refuted: the process of job 1 ends while the commander goes through its list. *)
Theorem C41_race_refuted :
  let s := run 25 [Receive (1, 10); Go; Go; Go; Receive (1, 20); Go; Go; Go; Receive (1, 30); Go; Die 0; Go] init in
  of_job 1 (received s) = [(1, 10); (1, 20); (1, 30)] /\ of_job 1 (started s) = [(1, 10); (1, 30)] /\ requeue s = [(1, 20)].
Proof. vm_compute. done. Qed.
(** Refuted, even when processes end only while the commander waits: the limit of processes is
    reached while the commander goes through its list. *)
Theorem C41_limit_refuted :
  let l := [Receive (1, 10); Go; Go; Go; Receive (2, 10); Go; Go; Go; Receive (1, 20); Go; Go; Receive (2, 20); Go; Go; Die 1;
            Receive (1, 30); Go; Go; Timeout; Go; Go; Go; Go; Die 0; Timeout; Go; Go; Timeout; Go] in
  let s := run 1 l init in
  of_job 1 (received s) = [(1, 10); (1, 20); (1, 30)] /\ of_job 1 (started s) = [(1, 10); (1, 30)] /\ to_run s = [(1, 20)] /\
  at_ (run 1 (take 14 l) init) = PRecv /\ at_ (run 1 (take 23 l) init) = PRecv.
Proof. vm_compute. done. Qed.
(** Proved when processes end only while the commander waits, and the maximum is at least the
    number of different jobs. *)
Lemma of_job_app j l k : of_job j (l ++ k) = of_job j l ++ of_job j k.
Proof. apply filter_app. Qed.
Record ord (js : list Z) (s : st) : Prop := mkOrd {
  o_books : forall j, of_job j (received s) = of_job j (started s) ++ of_job j (requeue s) ++ of_job j (to_run s);
  o_requeue : forall c, c ∈ requeue s -> running s c.1;
  o_end : at_ s = PEnd -> to_run s = [];
  o_jobs : forall c, c ∈ received s -> c.1 ∈ js }.
Lemma step_ord max js a s : NoDup js -> Z.of_nat (length js) <= max -> inv max s -> ord js s ->
  (forall c, a = Receive c -> c.1 ∈ js) -> (forall p, a = Die p -> at_ s = PRecv) -> ord js (step max a s).
Proof.
  intros Hjs Hmax HI HO Hr Hd. unfold step. destruct a as [c| |p|].
  - destruct (at_ s) eqn:E; [|done|done]. constructor; sproj; [| |done|].
    + intros j. rewrite !of_job_app, (o_books _ _ HO), !app_assoc. done.
    + apply HO.
    + intros c' [Hin|Hin]%elem_of_app; [by apply (o_jobs _ _ HO)|]. apply elem_of_list_singleton in Hin as ->. by apply Hr.
  - destruct (at_ s) eqn:E; [|done|done]. destruct (to_run s) eqn:Et; [done|]. rewrite <- Et. constructor; sproj; try apply HO; done.
  - pose proof (i_recv _ _ HI (Hd _ eq_refl)) as Hq. constructor; sproj; try apply HO. rewrite Hq. by intros ? ?%elem_of_nil.
  - destruct (at_ s) eqn:E; [done| |].
    + assert (Hlen : (length (executors s) <= length js)%nat).
      { rewrite <- (fmap_length fst). apply submseteq_length, NoDup_submseteq; [apply HI|]. intros j ([j' p] & -> & Hin)%elem_of_list_fmap. apply (i_known _ _ HI) in Hin. cbn [fst].
        apply elem_of_list_fmap in Hin as (c & -> & Hin). apply (o_jobs _ _ HO). rewrite (i_books _ _ HI). apply elem_of_app. by left. }
      destruct (to_run s) as [|c l] eqn:Et; [rewrite <- Et; constructor; sproj; try apply HO; done|]. replace (_ <=? max) with true by lia.
      unfold launch. rewrite Et. fold (blocked s c.1). destruct (blocked s c.1) eqn:Eb.
      * constructor; sproj; [| |done|apply HO].
        -- intros j. rewrite (o_books _ _ HO), Et. change (c :: l) with ([c] ++ l). by rewrite !of_job_app, <- !app_assoc.
        -- intros c' [Hin|Hin]%elem_of_app; [by apply (o_requeue _ _ HO) in Hin|]. apply elem_of_list_singleton in Hin as ->. by apply (blocked_running _ _ _ HI).
      * assert (Hnr : ~ running s c.1) by (rewrite <- (blocked_running max s) by done; congruence).
        constructor; sproj; [| |done|apply HO].
        -- intros j. rewrite (o_books _ _ HO), Et, of_job_app, <- app_assoc. f_equal. unfold of_job at 2 3. rewrite !filter_cons. destruct (decide (c.1 = j)) as [<-|]; [|done].
           assert (of_job c.1 (requeue s) = []) as Hq; [|by rewrite Hq]. unfold of_job. destruct (filter _ (requeue s)) as [|x ?] eqn:Ef; [done|]. assert (x ∈ filter (fun x => x.1 = c.1) (requeue s)) as Hin by (rewrite Ef; left).
           apply elem_of_list_filter in Hin as [E1 Hin]. apply (o_requeue _ _ HO) in Hin. by rewrite E1 in Hin.
        -- intros c' Hin. apply (o_requeue _ _ HO) in Hin as (p & Hin). exists p. sproj. by right.
    + constructor; sproj; [| |done|apply HO].
      * intros j. rewrite (o_books _ _ HO), (o_end _ _ HO E). cbn [app]. by rewrite app_nil_r.
      * by intros ? ?%elem_of_nil.
Qed.
Theorem C41_in_order_partial max js l j : NoDup js -> Z.of_nat (length js) <= max -> (forall c, Receive c ∈ l -> c.1 ∈ js) ->
  (forall l1 p l2, l = l1 ++ Die p :: l2 -> at_ (run max l1 init) = PRecv) ->
  of_job j (started (run max l init)) `prefix_of` of_job j (received (run max l init)).
Proof.
  intros Hjs Hmax Hr Hd. assert (ord js (run max l init)) as HO; [|rewrite (o_books _ _ HO); by eexists].
  induction l as [|a l IH] using rev_ind.
  - constructor; cbn; try done; by intros ? ?%elem_of_nil.
  - unfold run. rewrite fold_left_app. cbn [fold_left]. fold (run max l init). apply step_ord; [done|done|apply run_inv, init_inv| | |].
    + apply IH; [intros c Hin; apply Hr, elem_of_app; by left|]. intros l1 p l2 ->. apply (Hd l1 p (l2 ++ [a])). by rewrite <- app_assoc.
    + intros c ->. apply Hr, elem_of_app. right. by left.
    + intros p ->. by apply (Hd l p []).
Qed.
(** Not vacuous: two jobs, maximum 2, a process ends while the commander waits; everything is started in order. *)
Example C41_case : let l := [Receive (1, 10); Go; Go; Go; Receive (1, 20); Go; Go; Go; Receive (2, 10); Go; Go; Go; Go; Die 0; Timeout; Go; Go; Go] in
  let s := run 2 l init in
  at_ (run 2 (take 13 l) init) = PRecv /\ (nth 13 l Go) = Die 0 /\ of_job 1 (started s) = [(1, 10); (1, 20)] /\ started s = [(1, 10); (2, 10); (1, 20)].
Proof. vm_compute. done. Qed.
Example C40_case : let s := run 25 [Receive (1, 10); Go; Go; Go; Receive (1, 20); Go; Go; Go; Receive (2, 10); Go; Go; Go; Go] init in
  alive s = [(1%nat, 2); (0%nat, 1)] /\ to_run s = [(1, 20)] /\ received s = [(1, 10); (1, 20); (2, 10)] /\
  (let s' := run 25 [Die 0; Die 1] s in at_ s' = PRecv /\ alive s' = [] /\ to_run s' = [(1, 20)] /\ started (run 25 [Timeout; Go] s') = [(1, 10); (2, 10); (1, 20)]).
Proof. vm_compute. done. Qed.
Print Assumptions C40_one_executor.
Print Assumptions C40_no_loss.
Print Assumptions C40_bounded.
Print Assumptions C40_progress.
Print Assumptions C69_one_too_many_refuted.
Print Assumptions C41_race_refuted.
Print Assumptions C41_limit_refuted.
Print Assumptions C41_in_order_partial.
