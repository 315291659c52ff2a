(** Lemmas on Greta. *)
From Verif Require Import Base EnergyModel.

Section dicts.
  Context {A : Type}.
  Implicit Types m : list (string * A).
  Lemma dfind_dset k k' v m : dfind k (dset k' v m) = if bool_decide (k' = k) then Some v else dfind k m.
  Proof.
    induction m as [|[a b] m IH]; cbn [dset dfind]; [done|]. destruct (decide (a = k')) as [->|H1].
    - rewrite (bool_decide_eq_true_2 (k' = k')) by done. cbn [dfind]. by case_bool_decide.
    - rewrite (bool_decide_eq_false_2 (a = k')) by done. cbn [dfind]. rewrite IH. destruct (decide (a = k)) as [->|H2].
      + rewrite (bool_decide_eq_true_2 (k = k)) by done. by rewrite (bool_decide_eq_false_2 (k' = k)) by congruence.
      + by rewrite (bool_decide_eq_false_2 (a = k)) by done.
  Qed.
  Lemma dfind_None k m : dfind k m = None <-> k ∉ map fst m.
  Proof.
    induction m as [|[a b] m IH]; cbn [dfind map]; [split; [intros _; apply not_elem_of_nil|done]|]. rewrite not_elem_of_cons. cbn [fst].
    case_bool_decide as H; [subst; split; [done|tauto]|]. rewrite IH. split; [intros ?; split; [congruence|done]|tauto].
  Qed.
  Lemma dfind_Some_elem k v m : dfind k m = Some v -> (k, v) ∈ m.
  Proof.
    induction m as [|[a b] m IH]; cbn [dfind]; [done|]. case_bool_decide as H; [intros [= ->]; subst; left|]. intros Hf. right. by apply IH.
  Qed.
  Lemma dfind_elem k v m : NoDup (map fst m) -> (k, v) ∈ m -> dfind k m = Some v.
  Proof.
    induction m as [|[a b] m IH]; cbn [dfind map fst]; intros Hn Hin; [by apply elem_of_nil in Hin|]. apply NoDup_cons in Hn as [H1 H2].
    apply elem_of_cons in Hin as [[= <- <-]|Hin]; [by rewrite bool_decide_eq_true_2|].
    rewrite bool_decide_eq_false_2; [by apply IH|]. intros ->. apply H1. change k with (fst (k, v)). by apply elem_of_list_fmap_1.
  Qed.
  Lemma dset_keys k v m : map fst (dset k v m) = map fst m \/ k ∉ map fst m /\ map fst (dset k v m) = map fst m ++ [k].
  Proof.
    induction m as [|[a b] m IH]; cbn [dset map fst]; [right; split; [apply not_elem_of_nil|done]|]. case_bool_decide as H.
    - subst. by left.
    - cbn [map fst]. destruct IH as [->|[H1 ->]]; [by left|]. right. split; [|done]. rewrite not_elem_of_cons. split; [congruence|done].
  Qed.
  Lemma dset_NoDup k v m : NoDup (map fst m) -> NoDup (map fst (dset k v m)).
  Proof.
    intros H. destruct (dset_keys k v m) as [->|[H1 ->]]; [done|]. apply NoDup_app. split; [done|]. split; [|apply NoDup_singleton].
    intros x Hx Hk. apply elem_of_list_singleton in Hk as ->. done.
  Qed.
  Lemma elem_of_dset_keys k k' v m : k ∈ map fst (dset k' v m) <-> k = k' \/ k ∈ map fst m.
  Proof.
    destruct (dset_keys k' v m) as [E|[H1 ->]].
    - rewrite E. split; [tauto|]. intros [->|?]; [|done]. destruct (decide (k' ∈ map fst m)) as [|Hn]; [done|]. exfalso.
      pose proof (dfind_dset k' k' v m) as Hf. rewrite bool_decide_eq_true_2 in Hf by done. apply dfind_Some_elem in Hf.
      apply Hn. rewrite <- E. change k' with (fst (k', v)). by apply elem_of_list_fmap_1.
    - rewrite elem_of_app, elem_of_list_singleton. tauto.
  Qed.
  Lemma filter_keys_NoDup (P : string * A -> Prop) `{Pdec : !forall x, Decision (P x)} m : NoDup (map fst m) -> NoDup (map fst (base.filter P m)).
  Proof.
    induction m as [|x m IH]; intros H; [done|]. cbn [map] in H. apply NoDup_cons in H as [H1 H2]. rewrite filter_cons. destruct (decide (P x)); [|by apply IH].
    cbn [map]. apply NoDup_cons. split; [|by apply IH]. intros Hc. apply H1. apply elem_of_list_fmap in Hc as (y & -> & Hy).
    apply elem_of_list_filter in Hy as [_ Hy]. by apply elem_of_list_fmap_1.
  Qed.
  Lemma dfind_ddel k k' m : dfind k (ddel k' m) = if bool_decide (k' = k) then None else dfind k m.
  Proof.
    unfold ddel. induction m as [|[a b] m IH]; [by case_bool_decide|]. rewrite filter_cons. cbn [fst]. destruct (decide (a <> k')) as [H|H].
    - cbn [dfind]. rewrite IH. destruct (decide (a = k)) as [->|H2].
      + rewrite (bool_decide_eq_true_2 (k = k)) by done. by rewrite (bool_decide_eq_false_2 (k' = k)) by congruence.
      + by rewrite (bool_decide_eq_false_2 (a = k)) by done.
    - apply dec_stable in H. subst a. rewrite IH. cbn [dfind]. by case_bool_decide.
  Qed.
  Lemma fold_dset_notin (l m : list (string * A)) k : k ∉ map fst l -> dfind k (fold_left (fun m x => dset (fst x) (snd x) m) l m) = dfind k m.
  Proof.
    revert m. induction l as [|x l IH]; intros m H; [done|]. cbn [map] in H. apply not_elem_of_cons in H as [H1 H2]. cbn [fold_left]. rewrite IH by done.
    rewrite dfind_dset. by rewrite bool_decide_eq_false_2 by congruence.
  Qed.
  Lemma fold_dset_in (l m : list (string * A)) k v : NoDup (map fst l) -> (k, v) ∈ l -> dfind k (fold_left (fun m x => dset (fst x) (snd x) m) l m) = Some v.
  Proof.
    revert m. induction l as [|x l IH]; intros m H Hin; [by apply elem_of_nil in Hin|]. cbn [map] in H. apply NoDup_cons in H as [H1 H2]. cbn [fold_left].
    apply elem_of_cons in Hin as [<-|Hin]; [|by apply IH]. cbn [fst snd] in *. rewrite fold_dset_notin by done. rewrite dfind_dset. by rewrite bool_decide_eq_true_2.
  Qed.
  Lemma fold_dset_NoDup (l m : list (string * A)) : NoDup (map fst m) -> NoDup (map fst (fold_left (fun m x => dset (fst x) (snd x) m) l m)).
  Proof. revert m. induction l as [|x l IH]; intros m H; [done|]. cbn [fold_left]. apply IH. by apply dset_NoDup. Qed.
End dicts.

(** The nodes on which a HALT process runs. *)
Definition halting (l : list (string * string * Z)) : list string :=
  map (fun x => fst (fst x)) (base.filter (fun x => snd (fst x) = "HALT"%string) l).
Lemma elem_of_halting l n : n ∈ halting l <-> exists t, (n, "HALT"%string, t) ∈ l.
Proof.
  unfold halting. split.
  - intros H. apply elem_of_list_fmap in H as ([[a b] t] & -> & H). apply elem_of_list_filter in H as [Hb H]. cbn in Hb. subst b. eauto.
  - intros [t H]. change n with ((fun x : string * string * Z => fst (fst x)) (n, "HALT"%string, t)). apply elem_of_list_fmap_1.
    apply elem_of_list_filter. done.
Qed.
Lemma halting_cons n c t l : halting ((n, c, t) :: l) = if bool_decide (c = "HALT"%string) then n :: halting l else halting l.
Proof. unfold halting. rewrite filter_cons. cbn [fst snd]. case_bool_decide as H; destruct (decide (c = "HALT"%string)); done. Qed.
Lemma halting_app l k : halting (l ++ k) = halting l ++ halting k.
Proof. unfold halting. rewrite filter_app, map_app. done. Qed.
Definition is_halt (run : list (string * info)) (n : string) : Prop := exists t, dfind n run = Some ("HALT"%string, t).

Lemma check_execs_spec window now st : forall l i run, NoDup (map fst run) -> NoDup (halting l) -> (forall n, n ∈ halting l -> is_halt run n) ->
  exists k run' ch, check_execs window now st i l run = Ok (k, run', ch) /\ NoDup (map fst run') /\ NoDup (halting k) /\
    (forall x, x ∈ k -> x ∈ l) /\
    (forall n, n ∈ halting k -> dfind n run' = dfind n run) /\
    (forall n, n ∉ halting l -> dfind n run' = dfind n run) /\
    (forall n v, dfind n run' = Some v -> dfind n run = Some v) /\
    (forall j n c t, l !! j = Some (n, c, t) -> st (i + j)%nat = None -> now - t <= window -> (n, c, t) ∈ k) /\
    (forall j n c t z, l !! j = Some (n, c, t) -> st (i + j)%nat = Some z -> z <> 0 -> (n, "Suspected"%string) ∈ ch).
Proof.
  induction l as [|[[n c] t] l IH]; intros i run Hr Hn Hh.
  { exists [], run, []. split; [done|]. split; [done|]. split; [done|]. split; [done|]. split; [done|]. split; [done|]. split; [done|]. split; intros; done. }
  rewrite halting_cons in Hn, Hh.
  (* the recursive call on an unchanged running list, the head being kept or not *)
  assert (Hsub : NoDup (halting l) /\ forall m, m ∈ halting l -> is_halt run m).
  { case_bool_decide; [apply NoDup_cons in Hn as [_ Hn]; split; [done|]; intros m Hm; apply Hh; by right|done]. }
  destruct Hsub as [Hn' Hh'].
  assert (Hshift : forall j, (i + S j = S i + j)%nat) by (intros; lia).
  cbn [check_execs].
  destruct (st i) as [code|] eqn:Est.
  - destruct (code =? 0) eqn:E0.
    + destruct (bool_decide (c = "HALT"%string)) eqn:Ec.
      * apply bool_decide_eq_true in Ec. subst c. destruct (Hh n ltac:(left)) as [t0 Ht0]. rewrite Ht0.
        apply NoDup_cons in Hn as [Hn1 _].
        destruct (IH (S i) (ddel n run)) as (k & run' & ch & E & K1 & K2 & K3 & K4 & K5 & K6 & K7 & K8).
        { by apply filter_keys_NoDup. }
        { done. }
        { intros m Hm. destruct (Hh' m Hm) as [t1 Ht1]. exists t1. rewrite dfind_ddel. rewrite bool_decide_eq_false_2; [done|]. by intros ->. }
        assert (Hkn : n ∉ halting k). { intros Hk. apply Hn1. apply elem_of_halting in Hk as [t1 Hk]. apply elem_of_halting. exists t1. by apply K3. }
        exists k, run', ch. split; [done|]. split; [done|]. split; [done|]. split; [intros x Hx; right; by apply K3|]. split; [|split; [|split; [|split]]].
        -- intros m Hm. rewrite (K4 m Hm), dfind_ddel. rewrite bool_decide_eq_false_2; [done|]. by intros ->.
        -- intros m Hm. rewrite halting_cons, bool_decide_eq_true_2, not_elem_of_cons in Hm by done. destruct Hm as [Hm1 Hm2].
           rewrite (K5 m Hm2), dfind_ddel. rewrite bool_decide_eq_false_2; [done|]. congruence.
        -- intros m v Hv. apply K6 in Hv. rewrite dfind_ddel in Hv. by case_bool_decide.
        -- intros [|j] m c' t' Hj Hs Hw; [cbn in Hj; rewrite Nat.add_0_r in Hs; congruence|]. rewrite Hshift in Hs. by apply (K7 j).
        -- intros [|j] m c' t' z Hj Hs Hz; [rewrite Nat.add_0_r in Hs; assert (z = code) by congruence; lia|]. rewrite Hshift in Hs. by apply (K8 j m c' t' z).
      * apply bool_decide_eq_false in Ec.
        destruct (IH (S i) run Hr Hn' Hh') as (k & run' & ch & E & K1 & K2 & K3 & K4 & K5 & K6 & K7 & K8).
        exists k, run', ch. split; [done|]. split; [done|]. split; [done|]. split; [intros x Hx; right; by apply K3|]. split; [done|]. split; [|split; [done|split]].
        -- intros m Hm. rewrite halting_cons, bool_decide_eq_false_2 in Hm by done. by apply K5.
        -- intros [|j] m c' t' Hj Hs Hw; [rewrite Nat.add_0_r in Hs; congruence|]. rewrite Hshift in Hs. by apply (K7 j).
        -- intros [|j] m c' t' z Hj Hs Hz; [rewrite Nat.add_0_r in Hs; assert (z = code) by congruence; lia|]. rewrite Hshift in Hs. by apply (K8 j m c' t' z).
    + destruct (IH (S i) run Hr Hn' Hh') as (k & run' & ch & E & K1 & K2 & K3 & K4 & K5 & K6 & K7 & K8). rewrite E. cbn [rbind].
      exists k, run', ((n, "Suspected"%string) :: ch). split; [done|]. split; [done|]. split; [done|]. split; [intros x Hx; right; by apply K3|]. split; [done|]. split; [|split; [done|split]].
      * intros m Hm. apply K5. intros Hc. apply Hm. rewrite halting_cons. case_bool_decide; [by right|done].
      * intros [|j] m c' t' Hj Hs Hw; [rewrite Nat.add_0_r in Hs; congruence|]. rewrite Hshift in Hs. by apply (K7 j).
      * intros [|j] m c' t' z Hj Hs Hz; [cbn in Hj; injection Hj as <- <- <-; left|]. rewrite Hshift in Hs. right. by apply (K8 j m c' t' z).
  - destruct (window <? now - t) eqn:Ew.
    + destruct (bool_decide (c = "HALT"%string)) eqn:Ec.
      * apply bool_decide_eq_true in Ec. subst c. destruct (Hh n ltac:(left)) as [t0 Ht0]. rewrite Ht0.
        apply NoDup_cons in Hn as [Hn1 _].
        destruct (IH (S i) (ddel n run)) as (k & run' & ch & E & K1 & K2 & K3 & K4 & K5 & K6 & K7 & K8).
        { by apply filter_keys_NoDup. }
        { done. }
        { intros m Hm. destruct (Hh' m Hm) as [t1 Ht1]. exists t1. rewrite dfind_ddel. rewrite bool_decide_eq_false_2; [done|]. by intros ->. }
        assert (Hkn : n ∉ halting k). { intros Hk. apply Hn1. apply elem_of_halting in Hk as [t1 Hk]. apply elem_of_halting. exists t1. by apply K3. }
        rewrite E. cbn [rbind]. exists k, run', ((n, "Suspected"%string) :: ch). split; [done|]. split; [done|]. split; [done|]. split; [intros x Hx; right; by apply K3|]. split; [|split; [|split; [|split]]].
        -- intros m Hm. rewrite (K4 m Hm), dfind_ddel. rewrite bool_decide_eq_false_2; [done|]. by intros ->.
        -- intros m Hm. rewrite halting_cons, bool_decide_eq_true_2, not_elem_of_cons in Hm by done. destruct Hm as [Hm1 Hm2].
           rewrite (K5 m Hm2), dfind_ddel. rewrite bool_decide_eq_false_2; [done|]. congruence.
        -- intros m v Hv. apply K6 in Hv. rewrite dfind_ddel in Hv. by case_bool_decide.
        -- intros [|j] m c' t' Hj Hs Hw; [cbn in Hj; injection Hj as <- <- <-; lia|]. rewrite Hshift in Hs. by apply (K7 j).
        -- intros [|j] m c' t' z Hj Hs Hz; [rewrite Nat.add_0_r in Hs; congruence|]. rewrite Hshift in Hs. right. by apply (K8 j m c' t' z).
      * apply bool_decide_eq_false in Ec.
        destruct (IH (S i) run Hr Hn' Hh') as (k & run' & ch & E & K1 & K2 & K3 & K4 & K5 & K6 & K7 & K8).
        exists k, run', ch. split; [done|]. split; [done|]. split; [done|]. split; [intros x Hx; right; by apply K3|]. split; [done|]. split; [|split; [done|split]].
        -- intros m Hm. rewrite halting_cons, bool_decide_eq_false_2 in Hm by done. by apply K5.
        -- intros [|j] m c' t' Hj Hs Hw; [cbn in Hj; injection Hj as <- <- <-; lia|]. rewrite Hshift in Hs. by apply (K7 j).
        -- intros [|j] m c' t' z Hj Hs Hz; [rewrite Nat.add_0_r in Hs; congruence|]. rewrite Hshift in Hs. by apply (K8 j m c' t' z).
    + destruct (IH (S i) run Hr Hn' Hh') as (k & run' & ch & E & K1 & K2 & K3 & K4 & K5 & K6 & K7 & K8). rewrite E. cbn [rbind].
      exists ((n, c, t) :: k), run', ch. split; [done|]. split; [done|]. split.
      { rewrite halting_cons. destruct (bool_decide (c = "HALT"%string)); [|done]. apply NoDup_cons in Hn as [Hn1 _]. apply NoDup_cons. split; [|done].
        intros Hk. apply Hn1. apply elem_of_halting in Hk as [t1 Hk]. apply elem_of_halting. exists t1. by apply K3. }
      split; [intros x [->|Hx]%elem_of_cons; [left|right; by apply K3]|]. split; [|split; [|split; [done|split]]].
      * intros m Hm. rewrite halting_cons in Hm. destruct (bool_decide (c = "HALT"%string)); [|by apply K4].
        apply elem_of_cons in Hm as [->|Hm]; [|by apply K4]. apply K5. by apply NoDup_cons in Hn as [Hn1 _].
      * intros m Hm. apply K5. intros Hc. apply Hm. rewrite halting_cons. case_bool_decide; [by right|done].
      * intros [|j] m c' t' Hj Hs Hw; [cbn in Hj; injection Hj as <- <- <-; left|]. rewrite Hshift in Hs. right. by apply (K7 j).
      * intros [|j] m c' t' z Hj Hs Hz; [rewrite Nat.add_0_r in Hs; congruence|]. rewrite Hshift in Hs. by apply (K8 j m c' t' z).
Qed.

(** ** The stages of a cycle *)
(** A booting node whose entry disappears. *)
Definition over (v : view) (n : string) (x : info) : Prop := fst x = "WAKEUP"%string /\ (n ∈ alive_nodes v \/ snd x < v_now v).
Lemma expire_spec v : forall l nodes r ns ch, expire v l nodes = (r, ns, ch) -> NoDup (map fst l) ->
  NoDup (map fst r) /\ (forall n, n ∈ map fst r -> n ∈ map fst l) /\
  (forall n x, dfind n l = Some x -> ~ over v n x -> dfind n r = Some x) /\
  (forall n x, dfind n r = Some x -> dfind n l = Some x /\ ~ over v n x) /\
  (forall n, n ∈ ns -> n ∈ nodes) /\
  (forall n t, dfind n l = Some ("WAKEUP"%string, t) -> n ∉ alive_nodes v -> t < v_now v -> (n, "Suspected"%string) ∈ ch) /\
  (forall n s, (n, s) ∈ ch -> s = "Suspected"%string /\ exists t, dfind n l = Some ("WAKEUP"%string, t) /\ n ∉ alive_nodes v /\ t < v_now v) /\
  (forall n, n ∈ nodes -> (forall x, dfind n l = Some x -> ~ over v n x) -> n ∈ ns).
Proof.
  assert (Hrem : forall x l n, n ∈ remove_one x l -> n ∈ l).
  { induction l as [|y l IH]; intros n H; [done|]. cbn [remove_one] in H. case_bool_decide; [by right|]. apply elem_of_cons in H as [->|H]; [left|]. right. by apply IH. }
  assert (Hrem2 : forall x l n, n ∈ l -> n <> x -> n ∈ remove_one x l).
  { induction l as [|y l IH]; intros n H Hx; [done|]. cbn [remove_one]. apply elem_of_cons in H as [->|H]; case_bool_decide as He; [congruence|by left|done|right; by apply IH]. }
  induction l as [|[n [c t]] l IH]; intros nodes r ns ch E Hnd.
  { injection E as <- <- <-. split; [done|]. split; [done|]. split; [done|]. split; [done|]. split; [done|]. split; [done|]. split; [intros n s H; by apply elem_of_nil in H|]. done. }
  cbn [expire] in E. cbn [map fst] in Hnd. apply NoDup_cons in Hnd as [Hn Hnd].
  assert (Hl : forall x, dfind n l = Some x -> False).
  { intros x Hx. assert (Hx' : dfind n l = None) by by apply dfind_None. congruence. }
  (* the entry is kept *)
  assert (Hkeep : forall r' ns' ch', expire v l nodes = (r', ns', ch') -> ~ over v n (c, t) ->
     (r, ns, ch) = ((n, (c, t)) :: r', ns', ch') ->
     NoDup (map fst r) /\ (forall n0, n0 ∈ map fst r -> n0 ∈ n :: map fst l) /\
     (forall n0 x, (if bool_decide (n = n0) then Some (c, t) else dfind n0 l) = Some x -> ~ over v n0 x -> dfind n0 r = Some x) /\
     (forall n0 x, dfind n0 r = Some x -> (if bool_decide (n = n0) then Some (c, t) else dfind n0 l) = Some x /\ ~ over v n0 x) /\
     (forall n0, n0 ∈ ns -> n0 ∈ nodes) /\
     (forall n0 t0, (if bool_decide (n = n0) then Some (c, t) else dfind n0 l) = Some ("WAKEUP"%string, t0) -> n0 ∉ alive_nodes v -> t0 < v_now v -> (n0, "Suspected"%string) ∈ ch) /\
     (forall n0 s, (n0, s) ∈ ch -> s = "Suspected"%string /\ exists t0, (if bool_decide (n = n0) then Some (c, t) else dfind n0 l) = Some ("WAKEUP"%string, t0) /\ n0 ∉ alive_nodes v /\ t0 < v_now v) /\
     (forall n0, n0 ∈ nodes -> (forall x, (if bool_decide (n = n0) then Some (c, t) else dfind n0 l) = Some x -> ~ over v n0 x) -> n0 ∈ ns)).
  { intros r' ns' ch' E' Hno [= -> -> ->]. clear E. destruct (IH _ _ _ _ E' Hnd) as (I1 & I2 & I3 & I4 & I5 & I6 & I7 & I8). split; [|split; [|split; [|split; [|split; [|split; [|split]]]]]].
    - cbn [map fst]. apply NoDup_cons. split; [|done]. intros Hc. apply Hn. by apply I2.
    - intros m [->|Hm]%elem_of_cons; [left|right; by apply I2].
    - intros m x Hx Hox. cbn [dfind]. case_bool_decide; [done|]. by apply I3.
    - intros m x Hx. cbn [dfind] in Hx. case_bool_decide as Hm; [|by apply I4]. injection Hx as <-. subst m. done.
    - done.
    - intros m t0 Hm Ha Ht. case_bool_decide as He; [|by eapply I6]. injection Hm as -> ->. subst m. exfalso. apply Hno. split; [done|]. right. exact Ht.
    - intros m s Hm. apply I7 in Hm as [-> (t0 & Hm & Ha)]. split; [done|]. exists t0. case_bool_decide as He; [subst m; by apply Hl in Hm|by split].
    - intros m Hm Hx. apply I8; [done|]. intros x Hf. apply Hx. case_bool_decide as He; [|done]. subst m. by apply Hl in Hf. }
  cbn [dfind map fst]. destruct (bool_decide (c = "WAKEUP"%string)) eqn:Ec.
  - apply bool_decide_eq_true in Ec. subst c. destruct (bool_decide (n ∈ alive_nodes v)) eqn:Ea.
    + apply bool_decide_eq_true in Ea. destruct (IH _ _ _ _ E Hnd) as (I1 & I2 & I3 & I4 & I5 & I6 & I7 & I8). split; [done|]. split; [intros m Hm; right; by apply I2|].
      split; [|split; [|split; [done|split; [|split]]]].
      * intros m x Hx Hox. case_bool_decide as He; [|by apply I3]. injection Hx as <-. subst m. exfalso. apply Hox. split; [done|by left].
      * intros m x Hx. apply I4 in Hx as [Hx1 Hx2]. split; [|done]. case_bool_decide as He; [|done]. subst m. by apply Hl in Hx1.
      * intros m t0 Hm Ha Ht. case_bool_decide as He; [by subst m|]. by eapply I6.
      * intros m s Hm. apply I7 in Hm as [-> (t0 & Hm & Ha)]. split; [done|]. exists t0. case_bool_decide as He; [subst m; by apply Hl in Hm|by split].
      * intros m Hm Hx. apply I8; [done|]. intros x Hf. apply Hx. case_bool_decide as He; [|done]. subst m. by apply Hl in Hf.
    + apply bool_decide_eq_false in Ea. destruct (t <? v_now v) eqn:Et.
      * destruct (expire v l (remove_one n nodes)) as [[r' ns'] ch'] eqn:E'. injection E as <- <- <-.
        destruct (IH _ _ _ _ E' Hnd) as (I1 & I2 & I3 & I4 & I5 & I6 & I7 & I8). split; [done|]. split; [intros m Hm; right; by apply I2|].
        split; [|split; [|split; [|split; [|split]]]].
        -- intros m x Hx Hox. case_bool_decide as He; [|by apply I3]. injection Hx as <-. subst m. exfalso. apply Hox. split; [done|]. right. cbn. lia.
        -- intros m x Hx. apply I4 in Hx as [Hx1 Hx2]. split; [|done]. case_bool_decide as He; [|done]. subst m. by apply Hl in Hx1.
        -- intros m Hm. apply I5 in Hm. by eapply Hrem.
        -- intros m t0 Hm Ha Ht. case_bool_decide as He; [subst m; left|]. right. by eapply I6.
        -- intros m s [[= -> ->]|Hm]%elem_of_cons.
           { split; [done|]. exists t. rewrite bool_decide_eq_true_2 by done. split; [done|]. split; [done|lia]. }
           apply I7 in Hm as [-> (t0 & Hm & Ha)]. split; [done|]. exists t0. case_bool_decide as He; [subst m; by apply Hl in Hm|by split].
        -- intros m Hm Hx. apply I8; [|intros x Hf; apply Hx; case_bool_decide as He; [|done]; subst m; by apply Hl in Hf]. apply Hrem2; [done|].
           intros ->. specialize (Hx ("WAKEUP"%string, t)). rewrite bool_decide_eq_true_2 in Hx by done. apply Hx; [done|]. split; [done|]. right. cbn. lia.
      * destruct (expire v l nodes) as [[r' ns'] ch'] eqn:E'. apply (Hkeep _ _ _ eq_refl); [|by rewrite E]. intros [_ [?|H]]; [done|]. cbn in H. lia.
  - apply bool_decide_eq_false in Ec. destruct (expire v l nodes) as [[r' ns'] ch'] eqn:E'. apply (Hkeep _ _ _ eq_refl); [|by rewrite E]. intros [? _]. done.
Qed.

(** [todo] only has nodes outside [run]. *)
Definition apart (todo : list (string * info)) (run : list string) : Prop := forall n, n ∈ map fst todo -> n ∉ run.
Lemma wake_some_spec can run : forall l ok todo, NoDup (map fst todo) -> apart todo run ->
  NoDup (map fst (wake_some can run l ok todo)) /\ apart (wake_some can run l ok todo) run /\
  (forall n x, dfind n (wake_some can run l ok todo) = Some x -> dfind n todo = Some x \/ fst x = "WAKEUP"%string).
Proof.
  induction l as [|n l IH]; intros ok todo Hn Ha; cbn [wake_some]; [split; [done|]; split; [done|by left]|].
  destruct (0 <=? ok); [split; [done|]; split; [done|by left]|]. case_bool_decide as Hc; [|by apply IH].
  case_bool_decide as Hr; [by apply IH|]. destruct (IH (ok + 1) (dset n ("WAKEUP"%string, -1) todo)) as (H1 & H2 & H3).
  - by apply dset_NoDup.
  - intros m. rewrite elem_of_dset_keys. intros [->|?]; [done|by apply Ha].
  - split; [done|]. split; [done|]. intros m x Hx. apply H3 in Hx as [Hx|?]; [|by right]. rewrite dfind_dset in Hx. case_bool_decide; [|by left].
    injection Hx as <-. by right.
Qed.
Lemma keep_all_spec v run : forall l todo ks todo', keep_all v run l todo = (ks, todo') -> NoDup (map fst todo) -> apart todo run ->
  NoDup (map fst todo') /\ apart todo' run /\ ks = map (fun pm => fst (keep_one v run pm [])) l /\
  (forall n x, dfind n todo' = Some x -> dfind n todo = Some x \/ fst x = "WAKEUP"%string).
Proof.
  induction l as [|pm l IH]; intros todo ks todo' E Hn Ha; cbn [keep_all] in E; [injection E as <- <-; split; [done|]; split; [done|]; split; [done|by left]|].
  destruct (keep_one v run pm todo) as [k todo1] eqn:E1. destruct (keep_all v run l todo1) as [ks' todo2] eqn:E2. injection E as <- <-.
  unfold keep_one in E1. cbv zeta in E1. injection E1 as Ek Et.
  match type of Et with wake_some ?a ?b ?c ?d ?e = _ => destruct (wake_some_spec a b c d e Hn Ha) as (W1 & W2 & W3) end. rewrite Et in W1, W2, W3.
  destruct (IH _ _ _ E2 W1 W2) as (I1 & I2 & I3 & I4). split; [done|]. split; [done|]. split.
  - cbn [map]. rewrite I3. f_equal. by rewrite <- Ek.
  - intros n x Hx. apply I4 in Hx as [Hx|?]; [by apply W3|by right].
Qed.
Lemma remembered_spec run : forall rem todo, NoDup (map fst todo) -> apart todo (map fst run) ->
  NoDup (map fst (remembered run rem todo)) /\ apart (remembered run rem todo) (map fst run) /\
  (forall n, n ∉ map fst rem -> dfind n (remembered run rem todo) = dfind n todo) /\
  (NoDup (map fst rem) -> forall n x, dfind n rem = Some x -> dfind n run = None -> dfind n (remembered run rem todo) = Some (fst x, -1)).
Proof.
  unfold remembered. induction rem as [|[n x] rem IH]; intros todo Hn Ha; cbn [fold_left]; [done|]. cbn [fst snd].
  set (t1 := match dfind n run with Some _ => todo | None => dset n (fst x, -1) todo end).
  assert (H1 : NoDup (map fst t1) /\ apart t1 (map fst run) /\ forall m, m <> n -> dfind m t1 = dfind m todo).
  { unfold t1. destruct (dfind n run) eqn:E; [done|]. split; [by apply dset_NoDup|]. split.
    - intros m. rewrite elem_of_dset_keys. intros [->|?]; [by apply dfind_None|by apply Ha].
    - intros m Hm. rewrite dfind_dset. by rewrite bool_decide_eq_false_2 by congruence. }
  destruct H1 as (H1 & H2 & H3). destruct (IH t1 H1 H2) as (I1 & I2 & I3 & I4). split; [done|]. split; [done|]. split.
  - intros m Hm. cbn [map fst] in Hm. apply not_elem_of_cons in Hm as [Hm1 Hm2]. rewrite I3 by done. by apply H3.
  - cbn [map fst dfind]. intros Hr m y Hy Hm. apply NoDup_cons in Hr as [Hr1 Hr2]. case_bool_decide as He; [|by apply I4]. subst m. injection Hy as <-.
    rewrite I3 by done. unfold t1. rewrite Hm. rewrite dfind_dset. by rewrite bool_decide_eq_true_2.
Qed.
Lemma receive_spec cmd run : forall nodes todo rem todo' rem', receive cmd nodes run todo rem = (todo', rem') -> NoDup (map fst todo) -> apart todo (map fst run) ->
  NoDup (map fst todo') /\ apart todo' (map fst run) /\
  (forall n, n ∉ nodes -> dfind n todo' = dfind n todo) /\
  (forall n, n ∈ nodes -> dfind n run = None -> dfind n todo' = Some (cmd, -1)) /\
  (NoDup (map fst rem) -> NoDup (map fst rem')) /\
  (forall n, dfind n rem <> None -> dfind n rem' <> None) /\
  (forall n, n ∉ nodes -> dfind n rem' = dfind n rem).
Proof.
  induction nodes as [|n nodes IH]; intros todo rem todo' rem' E Hn Ha; cbn [receive] in E.
  { injection E as <- <-. split; [done|]. split; [done|]. split; [done|]. split; [intros n Hc; by apply elem_of_nil in Hc|]. done. }
  destruct (dfind n run) as [[c t]|] eqn:Er.
  - destruct (IH _ _ _ _ E Hn Ha) as (I1 & I2 & I3 & I4 & I5 & I6 & I7). split; [done|]. split; [done|]. split; [|split; [|split; [|split]]].
    + intros m Hm. apply not_elem_of_cons in Hm as [_ Hm]. by apply I3.
    + intros m [->|Hm]%elem_of_cons Hr; [congruence|]. by apply I4.
    + intros H. apply I5. case_bool_decide; [done|by apply dset_NoDup].
    + intros m Hm. apply I6. case_bool_decide; [done|]. rewrite dfind_dset. by case_bool_decide.
    + intros m Hm. apply not_elem_of_cons in Hm as [Hm1 Hm]. rewrite I7 by done. destruct (bool_decide (cmd = c)); [done|]. rewrite dfind_dset. by rewrite bool_decide_eq_false_2 by congruence.
  - destruct (IH (dset n (cmd, -1) todo) rem todo' rem' E) as (I1 & I2 & I3 & I4 & I5 & I6 & I7).
    { by apply dset_NoDup. }
    { intros m. rewrite elem_of_dset_keys. intros [->|?]; [by apply dfind_None|by apply Ha]. }
    split; [done|]. split; [done|]. split; [|split; [|split; [|split]]].
    + intros m Hm. apply not_elem_of_cons in Hm as [Hm1 Hm]. rewrite I3 by done. rewrite dfind_dset. by rewrite bool_decide_eq_false_2 by congruence.
    + intros m Hm Hr. destruct (decide (m ∈ nodes)) as [Hin|Hin]; [by apply I4|]. apply elem_of_cons in Hm as [->|Hm]; [|done].
      rewrite I3 by done. rewrite dfind_dset. by rewrite bool_decide_eq_true_2.
    + done.
    + done.
    + intros m Hm. apply not_elem_of_cons in Hm as [Hm1 Hm]. by apply I7.
Qed.
(** The list to process. *)
Lemma treat_spec timeout now : forall l ks ch st gone cm, treat timeout now ks l = (ch, Some (st, gone, cm)) -> NoDup (map fst l) ->
  NoDup (map fst st) /\ (forall n, n ∈ map fst st -> n ∈ map fst l) /\ (forall n, n ∈ gone -> n ∈ map fst l) /\
  map snd cm = map fst st /\
  (forall c n, (c, n) ∈ cm -> (exists t, dfind n l = Some (c, t)) /\ exists t, (n, (c, t)) ∈ st) /\
  (forall n t, dfind n l = Some ("WAKEUP"%string, t) -> ("WAKEUP"%string, n) ∈ cm) /\
  (forall n s, (n, s) ∈ ch -> s = "Absent"%string /\ ("HALT"%string, n) ∈ cm).
Proof.
  induction l as [|[n [c t]] l IH]; intros ks ch st gone cm E Hnd; cbn [treat] in E.
  { injection E as <- <- <- <-. split; [done|]. split; [done|]. split; [done|]. split; [done|]. split; [intros c n H; by apply elem_of_nil in H|]. split; [done|]. intros n s H; by apply elem_of_nil in H. }
  cbn [map fst] in Hnd |- *. apply NoDup_cons in Hnd as [Hn Hnd].
  assert (Hl : forall x, dfind n l = Some x -> False).
  { intros x Hx. assert (Hx' : dfind n l = None) by by apply dfind_None. congruence. }
  destruct (bool_decide (c = "WAKEUP"%string)) eqn:Ec.
  - apply bool_decide_eq_true in Ec. destruct (treat timeout now ks l) as [ch' [[[st' gone'] cm']|]] eqn:E'; [|done]. injection E as <- <- <- <-.
    destruct (IH _ _ _ _ _ E' Hnd) as (I1 & I2 & I3 & I4 & I5 & I6 & I7). split; [|split; [|split; [|split; [|split; [|split]]]]].
    + cbn [map fst]. apply NoDup_cons. split; [|done]. intros Hc. apply Hn. by apply I2.
    + intros m [->|Hm]%elem_of_cons; [left|right; by apply I2].
    + intros m Hm. right. by apply I3.
    + cbn [map fst snd]. by rewrite I4.
    + intros c' m [[= -> ->]|Hm]%elem_of_cons.
      * cbn [dfind]. rewrite bool_decide_eq_true_2 by done. split; [eauto|]. eexists. left.
      * apply I5 in Hm as [[t0 Ht] [t1 Hs]]. split; [|exists t1; by right]. exists t0. cbn [dfind]. rewrite bool_decide_eq_false_2; [done|]. intros ->. by apply Hl in Ht.
    + intros m t0. cbn [dfind]. case_bool_decide as He; [intros _; subst m c; left|]. intros Hm. right. by eapply I6.
    + intros m s Hm. apply I7 in Hm as [-> Hm]. split; [done|]. by right.
  - apply bool_decide_eq_false in Ec. destruct (bool_decide (c = "HALT"%string)) eqn:Eh; [|done]. apply bool_decide_eq_true in Eh.
    destruct (existsb _ ks).
    + destruct (treat timeout now ks l) as [ch' [[[st' gone'] cm']|]] eqn:E'; [|done]. injection E as <- <- <- <-.
      destruct (IH _ _ _ _ _ E' Hnd) as (I1 & I2 & I3 & I4 & I5 & I6 & I7). split; [done|]. split; [intros m Hm; right; by apply I2|]. split; [|split; [done|split; [|split; [|done]]]].
      * intros m [->|Hm]%elem_of_cons; [left|right; by apply I3].
      * intros c' m Hm. apply I5 in Hm as [[t0 Ht] Hs]. split; [|done]. exists t0. cbn [dfind]. rewrite bool_decide_eq_false_2; [done|]. intros ->. by apply Hl in Ht.
      * intros m t0. cbn [dfind]. case_bool_decide as He; [intros [= He' _]; done|]. intros Hm. by eapply I6.
    + match type of E with context [treat timeout now ?k l] => set (ks' := k) in E end.
      destruct (treat timeout now ks' l) as [ch' [[[st' gone'] cm']|]] eqn:E'; [|done]. injection E as <- <- <- <-.
      destruct (IH _ _ _ _ _ E' Hnd) as (I1 & I2 & I3 & I4 & I5 & I6 & I7). split; [|split; [|split; [|split; [|split; [|split]]]]].
      * cbn [map fst]. apply NoDup_cons. split; [|done]. intros Hc. apply Hn. by apply I2.
      * intros m [->|Hm]%elem_of_cons; [left|right; by apply I2].
      * intros m Hm. right. by apply I3.
      * cbn [map fst snd]. by rewrite I4.
      * intros c' m [[= -> ->]|Hm]%elem_of_cons.
        -- cbn [dfind]. rewrite bool_decide_eq_true_2 by done. split; [eauto|]. eexists. left.
        -- apply I5 in Hm as [[t0 Ht] [t1 Hs]]. split; [|exists t1; by right]. exists t0. cbn [dfind]. rewrite bool_decide_eq_false_2; [done|]. intros ->. by apply Hl in Ht.
      * intros m t0. cbn [dfind]. case_bool_decide as He; [intros [= He' _]; done|]. intros Hm. right. by eapply I6.
      * intros m s [[= -> ->]|Hm]%elem_of_cons; [split; [done|]; subst c; left|]. apply I7 in Hm as [-> Hm]. split; [done|]. by right.
Qed.

(** The keepalive minimum bounds the number of nodes halted. *)
Definition halts (nodes : list string) (cm : list (string * string)) : list (string * string) :=
  base.filter (fun x => fst x = "HALT"%string /\ snd x ∈ nodes) cm.
Lemma treat_keep timeout now : forall l ks ch st gone cm, treat timeout now ks l = (ch, Some (st, gone, cm)) ->
  forall i k, ks !! i = Some k ->
  Z.of_nat (length (halts (k_nodes k) cm)) <= Z.max 0 (k_idle k - k_min k).
Proof.
  induction l as [|[n [c t]] l IH]; intros ks ch st gone cm E i k Hk; cbn [treat] in E.
  { injection E as <- <- <- <-. cbn. lia. }
  destruct (bool_decide (c = "WAKEUP"%string)) eqn:Ec.
  - apply bool_decide_eq_true in Ec. destruct (treat timeout now ks l) as [ch' [[[st' gone'] cm']|]] eqn:E'; [|done]. injection E as <- <- <- <-.
    unfold halts. rewrite (filter_cons (A := string * string)). rewrite decide_False by (cbn [fst]; rewrite Ec; intros [H _]; done). by eapply IH.
  - apply bool_decide_eq_false in Ec. destruct (bool_decide (c = "HALT"%string)) eqn:Eh; [|done]. apply bool_decide_eq_true in Eh.
    destruct (existsb _ ks) eqn:Ex.
    + destruct (treat timeout now ks l) as [ch' [[[st' gone'] cm']|]] eqn:E'; [|done]. injection E as <- <- <- <-. by eapply IH.
    + match type of E with context [treat timeout now ?k l] => set (ks' := k) in E end.
      destruct (treat timeout now ks' l) as [ch' [[[st' gone'] cm']|]] eqn:E'; [|done]. injection E as <- <- <- <-.
      assert (Hk' : ks' !! i = Some (if concerned n k then mkKeep (k_min k) (k_nodes k) (k_idle k - 1) else k)).
      { unfold ks'. change (map ?f ks) with (f <$> ks). rewrite list_lookup_fmap, Hk. done. }
      pose proof (IH _ _ _ _ _ E' _ _ Hk') as Hi. unfold halts in Hi |- *. rewrite (filter_cons (A := string * string)). cbn [fst snd].
      destruct (concerned n k) eqn:Hc; cbn [k_nodes k_idle k_min] in Hi.
      * unfold concerned in Hc. apply bool_decide_eq_true in Hc. rewrite decide_True by done. cbn [length].
        assert (Hlt : k_min k < k_idle k).
        { destruct (Z.le_gt_cases (k_idle k) (k_min k)) as [Hle|]; [|lia]. exfalso. revert Ex. apply not_false_iff_true. apply existsb_exists. exists k. split.
          - apply elem_of_list_In. by apply elem_of_list_lookup_2 in Hk.
          - unfold concerned. rewrite (bool_decide_eq_true_2 (n ∈ k_nodes k)) by done. lia. }
        lia.
      * unfold concerned in Hc. apply bool_decide_eq_false in Hc. rewrite decide_False by tauto. done.
Qed.

(** The nodes the keepalive option may wake up. *)
Definition can_wake (v : view) : list string := uniq (n_node <$> base.filter (fun r => n_state r = "Absent"%string /\ v_now v < n_upto r) (v_rows v)).
Definition wakeable_of (v : view) (p : string) : list string :=
  let t := triples v p in
  let alive := map (fun x => fst (fst x)) (base.filter (fun x => alive3 x = true) t) in
  base.filter (fun n => n ∉ base.filter (fun n => n ∈ v_busy v) alive /\ n ∉ base.filter (fun n => n ∉ v_busy v) alive) (map (fun x => fst (fst x)) t).
Lemma keep_one_eq v run pm todo : keep_one v run pm todo =
  (fst (keep_one v [] pm []), wake_some (can_wake v) run (wakeable_of v (fst pm)) (k_idle (fst (keep_one v [] pm [])) - snd pm) todo).
Proof. reflexivity. Qed.
Lemma wake_some_more can run : forall l ok todo,
  (forall n, dfind n todo = Some ("WAKEUP"%string, -1) -> dfind n (wake_some can run l ok todo) = Some ("WAKEUP"%string, -1)) /\
  (forall n x, dfind n (wake_some can run l ok todo) = Some x -> dfind n todo = Some x \/ (ok < 0 /\ n ∈ l /\ n ∈ can /\ x = ("WAKEUP"%string, -1))) /\
  exists l1 l2, l = l1 ++ l2 /\ (forall n, n ∈ l1 -> n ∈ can -> n ∈ run \/ dfind n (wake_some can run l ok todo) = Some ("WAKEUP"%string, -1)) /\
    (l2 = [] \/ 0 <= ok + Z.of_nat (length (base.filter (fun n => n ∈ can) l1))).
Proof.
  induction l as [|n l IH]; intros ok todo; cbn [wake_some].
  { split; [done|]. split; [by left|]. exists [], []. split; [done|]. split; [intros n H; by apply elem_of_nil in H|by left]. }
  destruct (Z.leb_spec 0 ok) as [Hok|Hok].
  { split; [done|]. split; [by left|]. exists [], (n :: l). split; [done|]. split; [intros m H; by apply elem_of_nil in H|]. right. cbn. lia. }
  case_bool_decide as Hc.
  - set (todo1 := if bool_decide (n ∈ run) then todo else dset n ("WAKEUP"%string, -1) todo).
    destruct (IH (ok + 1) todo1) as (I1 & I2 & l1 & l2 & -> & I3 & I4). split; [|split].
    + intros m Hm. apply I1. unfold todo1. case_bool_decide; [done|]. rewrite dfind_dset. by case_bool_decide.
    + intros m x Hx. apply I2 in Hx as [Hx|(H1 & H2 & H3 & ->)]; [|right; split; [lia|]; split; [by right|done]].
      unfold todo1 in Hx. destruct (bool_decide (n ∈ run)); [by left|]. rewrite dfind_dset in Hx. case_bool_decide as He; [|by left]. subst m. injection Hx as <-.
      right. split; [lia|]. split; [left|done].
    + exists (n :: l1), l2. split; [done|]. split.
      * intros m [->|Hm]%elem_of_cons Hcm; [|by apply I3]. destruct (decide (n ∈ run)) as [|Hr]; [by left|]. right. apply I1. unfold todo1.
        rewrite bool_decide_eq_false_2 by done. rewrite dfind_dset. by rewrite bool_decide_eq_true_2.
      * destruct I4 as [->|I4]; [by left|]. right. rewrite filter_cons, decide_True by done. cbn [length]. lia.
  - destruct (IH ok todo) as (I1 & I2 & l1 & l2 & -> & I3 & I4). split; [done|]. split.
    + intros m x Hx. apply I2 in Hx as [Hx|(H1 & H2 & H3 & ->)]; [by left|]. right. split; [done|]. split; [by right|done].
    + exists (n :: l1), l2. split; [done|]. split.
      * intros m [->|Hm]%elem_of_cons Hcm; [done|by apply I3].
      * destruct I4 as [->|I4]; [by left|]. right. rewrite filter_cons, decide_False by done. done.
Qed.
Lemma keep_all_more v run : forall l todo ks todo', keep_all v run l todo = (ks, todo') ->
  (forall n, dfind n todo = Some ("WAKEUP"%string, -1) -> dfind n todo' = Some ("WAKEUP"%string, -1)) /\
  (forall n x, dfind n todo' = Some x -> dfind n todo = Some x \/ exists p m, (p, m) ∈ l /\ k_idle (fst (keep_one v [] (p, m) [])) < m /\ n ∈ wakeable_of v p /\ n ∈ can_wake v) /\
  (forall p m, (p, m) ∈ l -> exists l1 l2, wakeable_of v p = l1 ++ l2 /\ (forall n, n ∈ l1 -> n ∈ can_wake v -> n ∈ run \/ dfind n todo' = Some ("WAKEUP"%string, -1)) /\
    (l2 = [] \/ m <= k_idle (fst (keep_one v [] (p, m) [])) + Z.of_nat (length (base.filter (fun n => n ∈ can_wake v) l1)))).
Proof.
  induction l as [|pm l IH]; intros todo ks todo' E; cbn [keep_all] in E.
  { injection E as <- <-. split; [done|]. split; [by left|]. intros p m H. by apply elem_of_nil in H. }
  rewrite keep_one_eq in E. match type of E with context [wake_some ?a ?b ?c ?d ?e] => destruct (wake_some_more a b c d e) as (W1 & W2 & W3); set (todo1 := wake_some a b c d e) in * end.
  destruct (keep_all v run l todo1) as [ks' todo2] eqn:E2. injection E as <- <-. destruct (IH _ _ _ E2) as (I1 & I2 & I3). split; [|split].
  - intros n Hn. by apply I1, W1.
  - intros n x Hx. apply I2 in Hx as [Hx|(p & m & H1 & H2)]; [|right; exists p, m; split; [by right|done]].
    apply W2 in Hx as [Hx|(H1 & H2 & H3 & ->)]; [by left|]. right. exists (fst pm), (snd pm). destruct pm as [p m]. cbn [fst snd] in *. split; [left|]. split; [lia|done].
  - intros p m [<-|Hp]%elem_of_cons; [|by apply I3]. cbn [fst snd] in *. destruct W3 as (l1 & l2 & El & H1 & H2). exists l1, l2. split; [done|]. split.
    + intros n Hn Hc. destruct (H1 n Hn Hc) as [?|H]; [by left|]. right. by apply I1.
    + destruct H2 as [->|H2]; [by left|]. right. lia.
Qed.

(** ** A whole cycle *)
Record Inv (g : greta) : Prop := {
  i_run : NoDup (map fst (running g));
  i_rem : NoDup (map fst (remind g));
  i_halt : NoDup (halting (execs g));
  i_link : forall n, n ∈ halting (execs g) -> is_halt (running g) n }.
Lemma Inv_start : Inv start.
Proof. split; cbn; try constructor. intros n H. by apply elem_of_nil in H. Qed.
Lemma Inv_restart g : Inv g -> Inv (restart g).
Proof. intros [A B C D]. split; [done|done|constructor|]. intros n H. by apply elem_of_nil in H. Qed.

(** What one knows of a cycle that succeeds. *)
Record cycle_facts (c : gconf) (g : greta) (st : nat -> option Z) (cmd : string) (nodes : list string) (v : view)
    (g' : greta) (o : outcome) : Prop := {
  f_inv : Inv g';
  f_once : NoDup (map snd (o_cmds o));
  f_kind : forall k n, (k, n) ∈ o_cmds o -> k = "HALT"%string \/ k = "WAKEUP"%string;
  f_free : forall k n x, (k, n) ∈ o_cmds o -> dfind n (running g) = Some x -> over v n x \/ n ∈ halting (execs g);
  f_busy : forall k n j t, (k, n) ∈ o_cmds o -> execs g !! j = Some (n, "HALT"%string, t) -> st j = None -> g_window c < v_now v - t;
  f_new : forall k n, (k, n) ∈ o_cmds o -> exists t, dfind n (running g') = Some (k, t);
  f_wake : forall n, ("WAKEUP"%string, n) ∈ o_cmds o -> exists d, get_timeout (g_timeouts c) d <> Err EKey /\
           dfind n (running g') = Some ("WAKEUP"%string, v_now v + from_ok 0 (get_timeout (g_timeouts c) d));
  f_same : forall n x, n ∉ map snd (o_cmds o) -> n ∉ halting (execs g) -> dfind n (running g) = Some x -> ~ over v n x -> dfind n (running g') = Some x;
  f_stay : forall n x, n ∉ halting (execs g) -> dfind n (running g) = Some x -> ~ over v n x -> n ∉ map snd (o_cmds o);
  f_execs : forall n, n ∉ halting (execs g) -> n ∉ map snd (o_cmds o) -> n ∉ halting (execs g');
  f_asked : forall n, n ∈ nodes -> dfind n (running g) = None -> cmd = "WAKEUP"%string -> ("WAKEUP"%string, n) ∈ o_cmds o;
  f_remind : forall n, dfind n (remind g) <> None -> dfind n (remind g') <> None;
  f_relaunch : forall n t, n ∉ nodes -> dfind n (remind g) = Some ("WAKEUP"%string, t) -> dfind n (running g) = None ->
               ("WAKEUP"%string, n) ∈ o_cmds o /\ dfind n (remind g') = Some ("WAKEUP"%string, t);
  f_remsame : forall n, n ∉ nodes -> dfind n (remind g') = dfind n (remind g);
  f_suspected : forall n, (n, "Suspected"%string) ∈ o_changes o ->
     (exists j k t z, execs g !! j = Some (n, k, t) /\ st j = Some z /\ z <> 0) \/
     (exists j t, execs g !! j = Some (n, "HALT"%string, t) /\ st j = None /\ g_window c < v_now v - t) \/
     (exists t, dfind n (running g) = Some ("WAKEUP"%string, t) /\ n ∉ alive_nodes v /\ t < v_now v);
  f_late : forall n t, n ∉ alive_nodes v -> dfind n (running g) = Some ("WAKEUP"%string, t) -> t < v_now v -> (n, "Suspected"%string) ∈ o_changes o;
  f_failed : forall j n k t z, execs g !! j = Some (n, k, t) -> st j = Some z -> z <> 0 -> (n, "Suspected"%string) ∈ o_changes o;
  f_absent : forall n, ("HALT"%string, n) ∈ o_cmds o -> (n, "Absent"%string) ∈ o_changes o;
  f_keep : forall p m, (p, m) ∈ g_keep c -> let k := fst (keep_one v [] (p, m) []) in
           Z.of_nat (length (halts (k_nodes k) (o_cmds o))) <= Z.max 0 (k_idle k - m);
  f_kw : forall p m, (p, m) ∈ g_keep c -> exists l1 l2, wakeable_of v p = l1 ++ l2 /\
     (forall n, n ∈ l1 -> n ∈ can_wake v -> n ∈ map fst (running g) \/ n ∈ map fst (remind g) \/ n ∈ nodes \/ ("WAKEUP"%string, n) ∈ o_cmds o) /\
     (l2 = [] \/ m <= k_idle (fst (keep_one v [] (p, m) [])) + Z.of_nat (length (base.filter (fun n => n ∈ can_wake v) l1)));
  f_kwonly : forall n, ("WAKEUP"%string, n) ∈ o_cmds o -> (cmd = "WAKEUP"%string /\ n ∈ nodes) \/ (exists t, dfind n (remind g) = Some ("WAKEUP"%string, t)) \/
     exists p m, (p, m) ∈ g_keep c /\ k_idle (fst (keep_one v [] (p, m) [])) < m /\ n ∈ wakeable_of v p /\ n ∈ can_wake v }.
Lemma treat_more timeout now : forall l ks ch st gone cm, treat timeout now ks l = (ch, Some (st, gone, cm)) ->
  (forall n t, (n, ("WAKEUP"%string, t)) ∈ st -> t = now + timeout) /\
  (forall k n, (k, n) ∈ cm -> k = "HALT"%string \/ k = "WAKEUP"%string) /\
  (forall n, ("HALT"%string, n) ∈ cm -> (n, "Absent"%string) ∈ ch).
Proof.
  induction l as [|[n [c t]] l IH]; intros ks ch st gone cm E; cbn [treat] in E.
  { injection E as <- <- <- <-. split; [intros n t H; by apply elem_of_nil in H|]. split; [intros k n H; by apply elem_of_nil in H|]. intros n H; by apply elem_of_nil in H. }
  destruct (bool_decide (c = "WAKEUP"%string)) eqn:Ec.
  - apply bool_decide_eq_true in Ec. destruct (treat timeout now ks l) as [ch' [[[st' gone'] cm']|]] eqn:E'; [|done]. injection E as <- <- <- <-.
    destruct (IH _ _ _ _ _ E') as (I1 & I2 & I3). split; [|split].
    + intros m t0 [[= -> _ ->]|H]%elem_of_cons; [done|by eapply I1].
    + intros k m [[= -> ->]|H]%elem_of_cons; [by right|by eapply I2].
    + intros m [[= H1 ->]|H]%elem_of_cons; [congruence|by apply I3].
  - apply bool_decide_eq_false in Ec. destruct (bool_decide (c = "HALT"%string)) eqn:Eh; [|done]. apply bool_decide_eq_true in Eh.
    destruct (existsb _ ks) eqn:Ex.
    + destruct (treat timeout now ks l) as [ch' [[[st' gone'] cm']|]] eqn:E'; [|done]. injection E as <- <- <- <-. by eapply IH.
    + match type of E with context [treat timeout now ?k l] => set (ks' := k) in E end.
      destruct (treat timeout now ks' l) as [ch' [[[st' gone'] cm']|]] eqn:E'; [|done]. injection E as <- <- <- <-.
      destruct (IH _ _ _ _ _ E') as (I1 & I2 & I3). split; [|split].
      * intros m t0 [[= -> H _]|H]%elem_of_cons; [congruence|by eapply I1].
      * intros k m [[= -> ->]|H]%elem_of_cons; [by left|by eapply I2].
      * intros m [[= H1 ->]|H]%elem_of_cons; [left|right; by apply I3].
Qed.
Lemma check_execs_susp window now st : forall l i run k run' ch, check_execs window now st i l run = Ok (k, run', ch) ->
  forall n s, (n, s) ∈ ch -> s = "Suspected"%string /\ exists j c t, l !! j = Some (n, c, t) /\
    ((exists z, st (i + j)%nat = Some z /\ z <> 0) \/ (st (i + j)%nat = None /\ window < now - t /\ c = "HALT"%string)).
Proof.
  induction l as [|[[n c] t] l IH]; intros i run k run' ch E; cbn [check_execs] in E; [injection E as <- <- <-; intros n s H; by apply elem_of_nil in H|].
  assert (Hrec : forall run0 k0 run0' ch0, check_execs window now st (S i) l run0 = Ok (k0, run0', ch0) -> forall m s, (m, s) ∈ ch0 ->
    s = "Suspected"%string /\ exists j c0 t0, ((n, c, t) :: l) !! j = Some (m, c0, t0) /\
    ((exists z, st (i + j)%nat = Some z /\ z <> 0) \/ (st (i + j)%nat = None /\ window < now - t0 /\ c0 = "HALT"%string))).
  { intros run0 k0 run0' ch0 E0 m s Hm. destruct (IH _ _ _ _ _ E0 _ _ Hm) as (-> & j & c0 & t0 & Hj & H). split; [done|]. exists (S j), c0, t0.
    split; [done|]. by rewrite Nat.add_succ_r. }
  destruct (st i) as [code|] eqn:Es.
  - destruct (code =? 0) eqn:E0.
    + destruct (bool_decide (c = "HALT"%string)); [destruct (dfind n run); [|done]|]; by eapply Hrec.
    + destruct (check_execs window now st (S i) l run) as [[[k0 r0] ch0]|] eqn:E'; [|done]. cbn [rbind] in E. injection E as <- <- <-.
      intros m s [[= -> ->]|Hm]%elem_of_cons; [|by eapply Hrec]. split; [done|]. exists 0%nat, c, t. split; [done|]. left. exists code. rewrite Nat.add_0_r. split; [done|lia].
  - destruct (window <? now - t) eqn:Ew.
    + destruct (bool_decide (c = "HALT"%string)) eqn:Ec; [|by eapply Hrec]. destruct (dfind n run); [|done].
      destruct (check_execs window now st (S i) l (ddel n run)) as [[[k0 r0] ch0]|] eqn:E'; [|done]. cbn [rbind] in E. injection E as <- <- <-.
      apply bool_decide_eq_true in Ec.
      intros m s [[= -> ->]|Hm]%elem_of_cons; [|by eapply Hrec]. split; [done|]. exists 0%nat, c, t. split; [done|]. right. rewrite Nat.add_0_r. split; [done|]. split; [lia|done].
    + destruct (check_execs window now st (S i) l run) as [[[k0 r0] ch0]|] eqn:E'; [|done]. cbn [rbind] in E. injection E as <- <- <-. by eapply Hrec.
Qed.
Lemma filter_all' {A} (P : A -> Prop) {Pdec : forall x, Decision (P x)} (l : list A) : (forall x, x ∈ l -> P x) -> base.filter P l = l.
Proof. induction l as [|x l IH]; intros H; [done|]. rewrite filter_cons, decide_True by (apply H; left). f_equal. apply IH. intros y Hy. apply H. by right. Qed.
Lemma cycle_ok c g st cmd nodes v : Inv g -> zfind 1 (g_timeouts c) <> None -> exists r, cycle c g st cmd nodes v = Ok r.
Proof.
  intros [A B C D] H1. unfold cycle.
  destruct (check_execs_spec (g_window c) (v_now v) st (execs g) 0 (running g) A C D) as (k & run' & ch & E & _). rewrite E. cbn [rbind].
  destruct (keep_all v (map fst run') (g_keep c) []) as [ks todo]. destruct (expire v run' nodes) as [[run2 ns] ch2].
  destruct (receive cmd ns run2 (remembered run2 (remind g) todo) (remind g)) as [todo' rem']. unfold get_timeout.
  destruct (zfind 1 (g_timeouts c)) as [t|]; [|done]. cbn [rbind].
  destruct (treat _ _ _ _) as [ch3 [[[stay gone] cmds]|]]; eauto.
Qed.
Lemma cycle_spec c g st cmd nodes v g' o : Inv g -> cycle c g st cmd nodes v = Ok (inr (g', o)) -> cycle_facts c g st cmd nodes v g' o.
Proof.
  intros [A B C D] Ecy. unfold cycle in Ecy.
  destruct (check_execs_spec (g_window c) (v_now v) st (execs g) 0 (running g) A C D) as (ex & run1 & ch1 & E & K1 & K2 & K3 & K4 & K5 & K6 & K7 & K8).
  rewrite E in Ecy. cbn [rbind] in Ecy.
  destruct (keep_all v (map fst run1) (g_keep c) []) as [ks todo0] eqn:Ek.
  destruct (expire v run1 nodes) as [[run2 ns] ch2] eqn:Ee.
  destruct (receive cmd ns run2 (remembered run2 (remind g) todo0) (remind g)) as [todo rem'] eqn:Er.
  destruct (get_timeout (g_timeouts c) (Z.of_nat (length run2 + length todo))) as [timeout|e] eqn:Et; [|done]. cbn [rbind] in Ecy.
  destruct (treat timeout (v_now v) ks todo) as [ch3 [[[stay gone] cmds]|]] eqn:Etr; [|done].
  injection Ecy as <- <-.
  destruct (keep_all_spec _ _ _ _ _ _ Ek) as (Q1 & Q2 & Q3 & Q4); [constructor|intros n Hn; by apply elem_of_nil in Hn|].
  destruct (expire_spec _ _ _ _ _ _ Ee K1) as (X1 & X2 & X3 & X4 & X5 & X6 & X7 & X8).
  assert (Hap : apart todo0 (map fst run2)). { intros n Hn Hr. apply (Q2 n Hn). by apply X2. }
  destruct (remembered_spec run2 (remind g) todo0 Q1 Hap) as (R1 & R2 & R3 & R4). specialize (R4 B).
  destruct (receive_spec _ _ _ _ _ _ _ Er R1 R2) as (V1 & V2 & V3 & V4 & V5 & V6 & V7).
  destruct (treat_spec _ _ _ _ _ _ _ _ Etr V1) as (T1 & T2 & T3 & T4 & T5 & T6 & T7).
  destruct (treat_more _ _ _ _ _ _ _ _ Etr) as (M1 & M2 & M3).
  assert (Hgone : base.filter (fun x : string * info => fst x ∉ gone) run2 = run2).
  { apply filter_all'. intros x Hx Hg. apply (V2 (fst x)); [by apply T3|]. by apply elem_of_list_fmap_1. }
  rewrite Hgone.
  assert (Hcmd : forall k n, (k, n) ∈ cmds -> n ∈ map fst stay).
  { intros k n H. rewrite <- T4. change n with (snd (k, n)). by apply elem_of_list_fmap_1. }
  assert (Hfree : forall k n, (k, n) ∈ cmds -> dfind n run2 = None).
  { intros k n H. apply dfind_None. apply V2. apply T2. by eapply Hcmd. }
  assert (Hnotex : forall k n, (k, n) ∈ cmds -> n ∉ halting ex).
  { intros k n H Hh. apply Hfree in H. destruct (D n) as [t Ht].
    { apply elem_of_halting in Hh as [t Hh]. apply elem_of_halting. exists t. by apply K3. }
    rewrite <- (K4 _ Hh) in Ht. rewrite (X3 _ _ Ht) in H; [done|]. intros [Hw _]. done. }
  assert (Hhc : forall n, n ∈ halting (map (fun x : string * string => (snd x, fst x, v_now v)) cmds) -> ("HALT"%string, n) ∈ cmds).
  { intros n Hn. apply elem_of_halting in Hn as [t Hn]. apply elem_of_list_fmap in Hn as ([k m] & Heq & Hm). cbn in Heq. by injection Heq as -> <- _. }
  split.
  - split; cbn [running remind execs].
    + by apply fold_dset_NoDup.
    + by apply V5.
    + rewrite halting_app. apply NoDup_app. split; [done|]. split.
      * intros n Hn Hc. apply Hhc in Hc. by apply (Hnotex _ _ Hc).
      * assert (Hnd : NoDup (map snd cmds)) by by rewrite T4. clear -Hnd. induction cmds as [|[k n] cmds IH]; [constructor|]. cbn [map fst snd] in Hnd |- *.
        apply NoDup_cons in Hnd as [H1 H2]. rewrite halting_cons. case_bool_decide; [|by apply IH]. apply NoDup_cons. split; [|by apply IH].
        intros Hc. apply H1. apply elem_of_halting in Hc as [t Hc]. apply elem_of_list_fmap in Hc as ([k' n'] & Heq & Hc). cbn in Heq. injection Heq as -> _ _.
        change n' with (snd (k', n')). by apply elem_of_list_fmap_1.
    + intros n Hn. rewrite halting_app in Hn. apply elem_of_app in Hn as [Hn|Hn].
      * destruct (D n) as [t Ht]. { apply elem_of_halting in Hn as [t Hn]. apply elem_of_halting. exists t. by apply K3. }
        exists t. rewrite <- (K4 _ Hn) in Ht.
        rewrite fold_dset_notin; [apply X3; [done|]; intros [Hw _]; done|]. intros Hc. apply (V2 n); [by apply T2|].
        assert (Hs : dfind n run2 = Some ("HALT"%string, t)) by (apply X3; [done|]; intros [Hw _]; done).
        destruct (decide (n ∈ map fst run2)) as [|Hno]; [done|]. apply dfind_None in Hno. congruence.
      * apply Hhc in Hn. apply T5 in Hn as [_ [t Hn]]. exists t. by apply fold_dset_in.
  - cbn [o_cmds]. by rewrite T4.
  - cbn [o_cmds]. exact M2.
  - cbn [o_cmds]. intros k n x Hk Hx. destruct (decide (n ∈ halting (execs g))) as [|Hno]; [by right|]. left.
    rewrite <- (K5 _ Hno) in Hx. assert (Hdec : Decision (over v n x)) by (unfold over; apply _). apply dec_stable.
    intros Hov. apply Hfree in Hk. rewrite (X3 _ _ Hx Hov) in Hk. done.
  - cbn [o_cmds]. intros k n j t Hk Hj Hs. destruct (Z.le_gt_cases (v_now v - t) (g_window c)) as [Hle|]; [|lia]. exfalso.
    apply (Hnotex _ _ Hk). apply elem_of_halting. exists t. by apply (K7 j).
  - cbn [o_cmds running]. intros k n Hk. apply T5 in Hk as [_ [t Hk]]. exists t. by apply fold_dset_in.
  - cbn [o_cmds running]. intros n Hk. apply T5 in Hk as [_ [t Hk]]. eexists. rewrite Et. split; [done|]. cbn [from_ok]. rewrite <- (M1 _ _ Hk). by apply fold_dset_in.
  - cbn [o_cmds running]. intros n x Hc Hh Hx Hov. rewrite <- (K5 _ Hh) in Hx. rewrite fold_dset_notin; [by apply X3|]. by rewrite <- T4.
  - cbn [o_cmds]. intros n x Hh Hx Hov Hc. rewrite <- (K5 _ Hh) in Hx. apply elem_of_list_fmap in Hc as ([k m] & -> & Hk). apply Hfree in Hk. cbn [snd] in *. rewrite (X3 _ _ Hx Hov) in Hk. done.
  - cbn [o_cmds execs]. intros n Hh Hc. rewrite halting_app. rewrite elem_of_app. intros [H|H].
    + apply Hh. apply elem_of_halting in H as [t H]. apply elem_of_halting. exists t. by apply K3.
    + apply Hhc in H. apply Hc. change n with (snd ("HALT"%string, n)). by apply elem_of_list_fmap_1.
  - cbn [o_cmds]. intros n Hn Hr ->. assert (Hr1 : dfind n run1 = None). { destruct (dfind n run1) as [x|] eqn:Ex; [|done]. apply K6 in Ex. congruence. }
    assert (Hr2 : dfind n run2 = None). { destruct (dfind n run2) as [x|] eqn:Ex; [|done]. apply X4 in Ex as [Ex _]. congruence. }
    apply (T6 n (-1)). apply V4; [|done]. apply X8; [done|]. intros x Hx. congruence.
  - cbn [remind]. exact V6.
  - cbn [o_cmds remind]. intros n t Hn Hm Hr.
    assert (Hr1 : dfind n run1 = None). { destruct (dfind n run1) as [x|] eqn:Ex; [|done]. apply K6 in Ex. congruence. }
    assert (Hr2 : dfind n run2 = None). { destruct (dfind n run2) as [x|] eqn:Ex; [|done]. apply X4 in Ex as [Ex _]. congruence. }
    assert (Hns : n ∉ ns). { intros Hc. apply Hn. by apply X5. }
    split; [|by rewrite V7]. apply (T6 n (-1)). rewrite V3 by done. by apply (R4 n ("WAKEUP"%string, t)).
  - cbn [remind]. intros n Hn. apply V7. intros Hc. apply Hn. by apply X5.
  - cbn [o_changes]. intros n Hn. rewrite !elem_of_app in Hn. destruct Hn as [Hn|[Hn|Hn]].
    + destruct (check_execs_susp _ _ _ _ _ _ _ _ _ E _ _ Hn) as (_ & j & k & t & Hj & [(z & Hz & Hne)|(Hz & Hw & ->)]).
      * left. by exists j, k, t, z.
      * right. left. by exists j, t.
    + right. right. apply X7 in Hn as [_ (t & Hn & Ha)]. exists t. split; [|done]. by apply K6.
    + apply T7 in Hn as [Hn _]. done.
  - cbn [o_changes]. intros n t Ha Hx Ht. rewrite !elem_of_app. right. left. eapply X6; [|done|exact Ht].
    destruct (decide (n ∈ halting (execs g))) as [Hh|Hh]; [|by rewrite K5]. destruct (D n Hh) as [t0 Ht0]. congruence.
  - cbn [o_changes]. intros j n k t z Hj Hs Hz. rewrite !elem_of_app. left. by eapply (K8 j).
  - cbn [o_changes o_cmds]. intros n Hn. rewrite !elem_of_app. right. right. by apply M3.
  - cbn [o_cmds]. intros p m Hp. cbv zeta. apply elem_of_list_lookup in Hp as [i Hi].
    assert (Hk : ks !! i = Some (fst (keep_one v [] (p, m) []))).
    { rewrite Q3. change (map ?f ?l) with (f <$> l). rewrite list_lookup_fmap, Hi. done. }
    pose proof (treat_keep _ _ _ _ _ _ _ _ Etr _ _ Hk) as Ht. exact Ht.
  - cbn [o_cmds]. intros p m Hp. destruct (keep_all_more _ _ _ _ _ _ Ek) as (_ & _ & H). destruct (H p m Hp) as (l1 & l2 & El & H1 & H2).
    exists l1, l2. split; [done|]. split; [|done]. intros n Hn Hc. destruct (H1 n Hn Hc) as [Hr|Hw].
    + left. destruct (decide (n ∈ map fst (running g))) as [|Hno]; [done|]. exfalso. apply dfind_None in Hno.
      destruct (dfind n run1) as [x|] eqn:Ex; [apply K6 in Ex; congruence|]. by apply dfind_None in Ex.
    + destruct (decide (n ∈ map fst (remind g))) as [|Hrm]; [right; by left|]. destruct (decide (n ∈ nodes)) as [|Hno]; [right; right; by left|]. right. right. right.
      apply (T6 n (-1)). rewrite V3; [|intros Hin; apply Hno; by apply X5]. by rewrite R3.
  - cbn [o_cmds]. intros n Hn. apply T5 in Hn as [[t Ht] _]. destruct (decide (n ∈ ns)) as [Hin|Hin].
    + destruct (dfind n run2) as [x|] eqn:Ex; [exfalso|].
      { assert (Hk : n ∈ map fst todo). { destruct (decide (n ∈ map fst todo)) as [|Hno]; [done|]. apply dfind_None in Hno. congruence. }
        apply V2 in Hk. apply dfind_None in Hk. congruence. }
      rewrite (V4 n Hin Ex) in Ht. injection Ht as -> _. left. split; [done|by apply X5].
    + rewrite V3 in Ht by done. right. destruct (dfind n (remind g)) as [[c0 t0]|] eqn:Erm.
      * destruct (dfind n run2) as [x|] eqn:Ex.
        -- exfalso. assert (Hk : n ∈ map fst (remembered run2 (remind g) todo0)). { destruct (decide (n ∈ map fst (remembered run2 (remind g) todo0))) as [|Hno]; [done|]. apply dfind_None in Hno. congruence. }
           apply R2 in Hk. apply dfind_None in Hk. congruence.
        -- rewrite (R4 n _ Erm Ex) in Ht. cbn [fst] in Ht. injection Ht as -> _. left. eauto.
      * rewrite R3 in Ht by by apply dfind_None. right. destruct (keep_all_more _ _ _ _ _ _ Ek) as (_ & H & _). apply H in Ht as [Ht|Ht]; [done|exact Ht].
Qed.
