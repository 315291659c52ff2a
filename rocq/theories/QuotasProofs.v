(** Lemmas about quotas. *)
From Verif Require Import Base SlotModel SlotSpec SlotProofs SlotJobs SlotLookup QuotasModel QuotasSpec.

Ltac t3 := repeat match goal with |- add3 _ _ = add3 _ _ => apply f_equal2 | |- (_, _) = (_, _) => apply f_equal2 end; try done; lia.

(** * Counters *)
Fixpoint kcount (k : qkey) (l : list qkey) : Z :=
  match l with [] => 0 | x :: l' => (if bool_decide (x = k) then 1 else 0) + kcount k l' end.

Definition scale3 (n : Z) (x : Z * Z * Z) : Z * Z * Z := let '(a, b, d) := x in (n * a, n * b, n * d).

Lemma add3_assoc x y z : add3 x (add3 y z) = add3 (add3 x y) z.
Proof. destruct x as [[? ?] ?], y as [[? ?] ?], z as [[? ?] ?]. cbn [add3]. t3. Qed.
Lemma add3_comm x y : add3 x y = add3 y x.
Proof. destruct x as [[? ?] ?], y as [[? ?] ?]. cbn [add3]. t3. Qed.
Lemma add3_0 x : add3 x (0, 0, 0) = x.
Proof. destruct x as [[? ?] ?]. cbn [add3]. t3. Qed.

Lemma cget_insert c k k' v : cget (<[ k := v ]> c) k' = if bool_decide (k = k') then v else cget c k'.
Proof.
  unfold cget. destruct (bool_decide (k = k')) eqn:E.
  - apply bool_decide_eq_true in E as ->. by rewrite (lookup_insert (M:=gmap qkey)).
  - apply bool_decide_eq_false in E. by rewrite (lookup_insert_ne (M:=gmap qkey)).
Qed.

Lemma cget_cadd nb nj nt c k k' :
  cget (cadd nb nj nt c k) k' = if bool_decide (k = k') then add3 (cget c k') (nb, nj, nt) else cget c k'.
Proof.
  unfold cadd. destruct (cget c k) as [[a b] d] eqn:E. rewrite cget_insert.
  destruct (bool_decide (k = k')) eqn:Ek; [|done]. apply bool_decide_eq_true in Ek as ->. by rewrite E.
Qed.

Lemma cget_cadds nb nj nt ks : forall c k,
  cget (fold_left (cadd nb nj nt) ks c) k = add3 (cget c k) (scale3 (kcount k ks) (nb, nj, nt)).
Proof.
  induction ks as [|x ks IH]; intros c k; cbn [fold_left kcount].
  - cbn [scale3]. rewrite <- (add3_0 (cget c k)) at 1. apply (f_equal (add3 _)). t3.
  - rewrite IH, cget_cadd. destruct (bool_decide (x = k)).
    + rewrite <- add3_assoc. apply (f_equal (add3 _)). cbn [scale3 add3]. t3.
    + done.
Qed.

(** How often a job type list counts a key. *)
Fixpoint tcount (k : qkey) (queue project user : string) (jt types : list string) : Z :=
  match types with
  | [] => 0
  | t :: types' =>
      (if bool_decide (t = "*"%string) || bool_decide (t ∈ jt) then kcount k (job_keys queue project user t) else 0)
      + tcount k queue project user jt types'
  end.

Lemma cget_update types queue project user jt nb dur : forall c k,
  cget (q_update_with types queue project user jt nb dur c) k =
  add3 (cget c k) (scale3 (tcount k queue project user jt types) (nb, 1, nb * dur)).
Proof.
  unfold q_update_with. induction types as [|t types IH]; intros c k; cbn [fold_left tcount].
  - cbn [scale3]. rewrite <- (add3_0 (cget c k)) at 1. apply (f_equal (add3 _)). t3.
  - rewrite IH. destruct (_ || _).
    + rewrite cget_cadds, <- add3_assoc. apply (f_equal (add3 _)). cbn [scale3 add3]. t3.
    + done.
Qed.

Lemma kcount_nonneg k l : 0 <= kcount k l.
Proof. induction l as [|x l IH]; cbn [kcount]; [lia|]. destruct (bool_decide _); lia. Qed.
Lemma tcount_nonneg k q p u jt types : 0 <= tcount k q p u jt types.
Proof. induction types as [|t l IH]; cbn [tcount]; [lia|]. pose proof (kcount_nonneg k (job_keys q p u t)). destruct (_ || _); lia. Qed.

Lemma kcount_keys q p t u queue project user t' :
  queue <> "*"%string -> project <> "*"%string -> user <> "*"%string ->
  kcount (q, p, t, u) (job_keys queue project user t') =
  if bool_decide (t = t' /\ comp_match q queue /\ comp_match p project /\ comp_match u user) then 1 else 0.
Proof.
  intros Hq Hp Hu. unfold job_keys. cbn [kcount].
  assert (E : forall a b c d, bool_decide ((a, b, c, d) = (q, p, t, u)) =
     bool_decide (c = t) && bool_decide (a = q) && bool_decide (b = p) && bool_decide (d = u)).
  { intros. apply Bool.eq_iff_eq_true. rewrite !andb_true_iff, !bool_decide_eq_true. split.
    - intros H. split_and!; congruence.
    - intros [[[-> ->] ->] ->]. done. }
  rewrite !E. clear E. unfold comp_match.
  destruct (decide (t' = t)) as [->|Ht].
  2: { rewrite (bool_decide_false (t' = t)) by done. cbn [andb]. rewrite bool_decide_false by (intros [? _]; congruence). lia. }
  rewrite (bool_decide_true (t = t)) by done. cbn [andb].
  destruct (decide (q = "*"%string)) as [->|Hq1];
  [|destruct (decide (q = queue)) as [->|Hq2]];
  (destruct (decide (p = "*"%string)) as [->|Hp1]; [|destruct (decide (p = project)) as [->|Hp2]]);
  (destruct (decide (u = "*"%string)) as [->|Hu1]; [|destruct (decide (u = user)) as [->|Hu2]]);
  repeat match goal with |- context [bool_decide (?a = ?b)] =>
    first [rewrite (bool_decide_true (a = b)) by done | rewrite (bool_decide_false (a = b)) by congruence] end; cbn [andb Z.add];
  first [rewrite bool_decide_true by tauto | rewrite bool_decide_false by tauto]; lia.
Qed.

Lemma tcount_exact q p t u queue project user jt types :
  queue <> "*"%string -> project <> "*"%string -> user <> "*"%string -> NoDup types -> 
  tcount (q, p, t, u) queue project user jt types =
  if bool_decide (t ∈ types /\ (t = "*"%string \/ t ∈ jt) /\ comp_match q queue /\ comp_match p project /\ comp_match u user) then 1 else 0.
Proof.
  intros Hq Hp Hu. induction types as [|t' types IH]; intros HN; cbn [tcount].
  - rewrite bool_decide_false; [done|]. intros [H _]. by apply elem_of_nil in H.
  - apply NoDup_cons in HN as [Hn HN]. rewrite (IH HN), kcount_keys by done. clear IH.
    assert (Hor : (bool_decide (t' = "*"%string) || bool_decide (t' ∈ jt)) = bool_decide (t' = "*"%string \/ t' ∈ jt)).
    { apply Bool.eq_iff_eq_true. by rewrite orb_true_iff, !bool_decide_eq_true. }
    rewrite Hor. clear Hor. unfold comp_match in *.
    destruct (decide (t = t')) as [->|Hne].
    + rewrite (bool_decide_false (t' ∈ types /\ _)) by tauto.
      destruct (decide (t' = "*"%string \/ t' ∈ jt)) as [Hd|Hd].
      * rewrite (bool_decide_true (_ \/ t' ∈ jt)) by done. 
        destruct (decide ((q = "*"%string \/ q = queue) /\ (p = "*"%string \/ p = project) /\ (u = "*"%string \/ u = user))).
        -- rewrite !bool_decide_true; [lia| |tauto]. rewrite elem_of_cons. tauto.
        -- rewrite !bool_decide_false by tauto. lia.
      * rewrite !bool_decide_false by tauto. lia.
    + rewrite (bool_decide_false (t = t' /\ _)) by tauto.
      replace (if bool_decide (t' = "*"%string \/ t' ∈ jt) then 0 else 0) with 0 by (by destruct (bool_decide _)).
      erewrite (bool_decide_ext (t ∈ t' :: types /\ _)); [reflexivity|]. rewrite elem_of_cons. tauto.
Qed.

Lemma cget_q_update env j c k : named j -> NoDup (q_job_types env) ->
  cget (q_update env j c) k =
  if bool_decide (key_type k ∈ q_job_types env /\ key_match k j) then add3 (cget c k) (consumption env j) else cget c k.
Proof.
  intros (Hq & Hp & Hu) HN. destruct k as [[[q p] t] u]. unfold q_update. rewrite cget_update, tcount_exact by done.
  cbn [key_type]. 
  destruct (decide (t ∈ q_job_types env /\ key_match (q, p, t, u) j)) as [H|H].
  - rewrite (bool_decide_true _ H). unfold key_match in H. rewrite bool_decide_true by tauto.
    apply (f_equal (add3 _)). unfold consumption. cbn [scale3]. t3.
  - rewrite (bool_decide_false _ H). unfold key_match in H. rewrite bool_decide_false by tauto.
    cbn [scale3]. rewrite <- (add3_0 (cget c _)) at 2. apply (f_equal (add3 _)). t3.
Qed.

Lemma cget_empty k : cget ∅ k = (0, 0, 0).
Proof. unfold cget. by rewrite lookup_empty. Qed.

(** * The rule tree *)
Definition rlookup (t : tree) (k : qkey) : option rule :=
  let '(q, p, ty, u) := k in
  match t !! q with
  | None => None
  | Some t3 => match t3 !! p with
    | None => None
    | Some t2 => match t2 !! ty with None => None | Some t1 => t1 !! u end end end.

(** No empty sub-tree: a key present at a level leads to a rule. *)
Definition seen1 (t : tree) (q : string) : Prop := is_Some (t !! q).
Definition sub3 (t : tree) (q : string) : tree3 := default ∅ (t !! q).
Definition sub2 (t : tree) (q p : string) : tree2 := default ∅ (sub3 t q !! p).
Definition sub1 (t : tree) (q p ty : string) : tree1 := default ∅ (sub2 t q p !! ty).

Lemma tree_add_sub3 t q p ty u r q' :
  sub3 (tree_add t ((q, p, ty, u), r)) q' =
  if decide (q = q') then <[ p := <[ ty := <[ u := r ]> (sub1 t q p ty) ]> (sub2 t q p) ]> (sub3 t q) else sub3 t q'.
Proof.
  unfold sub3 at 1. cbn [tree_add]. destruct (decide (q = q')) as [->|Hn].
  - by rewrite lookup_insert.
  - by rewrite lookup_insert_ne.
Qed.
Lemma tree_add_sub2 t q p ty u r q' p' :
  sub2 (tree_add t ((q, p, ty, u), r)) q' p' =
  if decide (q = q' /\ p = p') then <[ ty := <[ u := r ]> (sub1 t q p ty) ]> (sub2 t q p) else sub2 t q' p'.
Proof.
  unfold sub2 at 1. rewrite tree_add_sub3. destruct (decide (q = q')) as [->|Hn].
  - destruct (decide (p = p')) as [->|Hn'].
    + rewrite decide_True by done. by rewrite lookup_insert.
    + rewrite decide_False by tauto. by rewrite lookup_insert_ne.
  - rewrite decide_False by tauto. done.
Qed.
Lemma tree_add_sub1 t q p ty u r q' p' ty' :
  sub1 (tree_add t ((q, p, ty, u), r)) q' p' ty' =
  if decide (q = q' /\ p = p' /\ ty = ty') then <[ u := r ]> (sub1 t q p ty) else sub1 t q' p' ty'.
Proof.
  unfold sub1 at 1. rewrite tree_add_sub2. destruct (decide (q = q' /\ p = p')) as [[-> ->]|Hn].
  - destruct (decide (ty = ty')) as [->|Hn'].
    + rewrite decide_True by done. by rewrite lookup_insert.
    + rewrite decide_False by tauto. by rewrite lookup_insert_ne.
  - rewrite decide_False by tauto. done.
Qed.

(** The tree mirrors the list of rules. *)
Lemma tree_spec rs : NoDup rs.*1 ->
  let t := init_rule_tree rs in
  (forall q, is_Some (t !! q) <-> exists p ty u r, ((q, p, ty, u), r) ∈ rs) /\
  (forall q p, is_Some (sub3 t q !! p) <-> exists ty u r, ((q, p, ty, u), r) ∈ rs) /\
  (forall q p ty, is_Some (sub2 t q p !! ty) <-> exists u r, ((q, p, ty, u), r) ∈ rs) /\
  (forall q p ty u r, sub1 t q p ty !! u = Some r <-> ((q, p, ty, u), r) ∈ rs).
Proof.
  unfold init_rule_tree. induction rs as [|e rs IH] using rev_ind.
  - intros _. cbn [fold_left]. unfold sub1, sub2, sub3. split_and!; intros; rewrite ?lookup_empty; cbn [default]; rewrite ?lookup_empty; cbn [default];
      rewrite ?lookup_empty; cbn [default]; rewrite ?lookup_empty; split; intros H; try (by destruct H); try done;
      repeat (destruct H as [? H]); try by apply elem_of_nil in H.
  - rewrite fmap_app, NoDup_app. intros (HN & Hd & _). specialize (IH HN). rewrite fold_left_app. cbn [fold_left].
    set (t := fold_left tree_add rs ∅) in *. cbn zeta in *. destruct IH as (H1 & H2 & H3 & H4).
    destruct e as [[[[q p] ty] u] r]. split_and!.
    + intros q'. cbn [tree_add]. destruct (decide (q = q')) as [->|Hn].
      * rewrite lookup_insert. split; [intros _|by eauto]. exists p, ty, u, r. mem.
      * rewrite lookup_insert_ne by done. rewrite H1. split; intros (a & b & c & d & H); exists a, b, c, d; [apply elem_of_app; by left|].
        apply elem_of_app in H as [H|H]; [done|]. apply elem_of_list_singleton in H. congruence.
    + intros q' p'. rewrite tree_add_sub3. destruct (decide (q = q')) as [->|Hn].
      * destruct (decide (p = p')) as [->|Hn'].
        -- rewrite lookup_insert. split; [intros _|by eauto]. exists ty, u, r. mem.
        -- rewrite lookup_insert_ne by done. rewrite H2. split; intros (b & c & d & H); exists b, c, d; [apply elem_of_app; by left|].
           apply elem_of_app in H as [H|H]; [done|]. apply elem_of_list_singleton in H. congruence.
      * rewrite H2. split; intros (b & c & d & H); exists b, c, d; [apply elem_of_app; by left|].
        apply elem_of_app in H as [H|H]; [done|]. apply elem_of_list_singleton in H. congruence.
    + intros q' p' ty'. rewrite tree_add_sub2. destruct (decide (q = q' /\ p = p')) as [[-> ->]|Hn].
      * destruct (decide (ty = ty')) as [->|Hn'].
        -- rewrite lookup_insert. split; [intros _|by eauto]. exists u, r. mem.
        -- rewrite lookup_insert_ne by done. rewrite H3. split; intros (c & d & H); exists c, d; [apply elem_of_app; by left|].
           apply elem_of_app in H as [H|H]; [done|]. apply elem_of_list_singleton in H. congruence.
      * rewrite H3. split; intros (c & d & H); exists c, d; [apply elem_of_app; by left|].
        apply elem_of_app in H as [H|H]; [done|]. apply elem_of_list_singleton in H.
        exfalso. apply Hn. split; congruence.
    + intros q' p' ty' u' r'. rewrite tree_add_sub1.
      destruct (decide (q = q' /\ p = p' /\ ty = ty')) as [(-> & -> & ->)|Hn].
      * destruct (decide (u = u')) as [->|Hn'].
        -- rewrite lookup_insert. split.
           ++ intros [= ->]. mem.
           ++ intros H. apply elem_of_app in H as [H|H].
              ** exfalso. eapply Hd; [apply elem_of_list_fmap; eexists; split; [|exact H]; reflexivity|]. cbn. by left.
              ** apply elem_of_list_singleton in H. congruence.
        -- rewrite lookup_insert_ne by done. rewrite H4. split; intros H; [apply elem_of_app; by left|].
           apply elem_of_app in H as [H|H]; [done|]. apply elem_of_list_singleton in H. congruence.
      * rewrite H4. split; intros H; [apply elem_of_app; by left|].
        apply elem_of_app in H as [H|H]; [done|]. apply elem_of_list_singleton in H.
        exfalso. apply Hn. split_and!; congruence.
Qed.

Lemma get_item_pick {A} (d : gmap string A) v k : get_item d v = Some k <-> pick (fun x => is_Some (d !! x)) v k.
Proof.
  unfold get_item, pick.
  destruct (bool_decide (is_Some (d !! v))) eqn:E1.
  { apply bool_decide_eq_true in E1. split; [intros [= <-]; auto|]. intros [[_ ->]|[[? _]|[? _]]]; done. }
  apply bool_decide_eq_false in E1.
  destruct (bool_decide (is_Some (d !! "/"%string))) eqn:E2.
  { apply bool_decide_eq_true in E2. split; [intros [= <-]; auto|]. intros [[? _]|[(_ & _ & ->)|(_ & ? & _)]]; done. }
  apply bool_decide_eq_false in E2.
  destruct (bool_decide (is_Some (d !! "*"%string))) eqn:E3.
  { apply bool_decide_eq_true in E3. split; [intros [= <-]; auto 10|]. intros [[? _]|[(_ & ? & _)|(_ & _ & _ & ->)]]; done. }
  apply bool_decide_eq_false in E3. split; [done|]. intros [[? _]|[(_ & ? & _)|(_ & _ & ? & _)]]; done.
Qed.

Lemma pick_ext (P Q : string -> Prop) v k : (forall x, P x <-> Q x) -> pick P v k <-> pick Q v k.
Proof. intros H. unfold pick. rewrite !H. done. Qed.
Lemma pick_seen P v k : pick P v k -> P k.
Proof. intros [[? ->]|[(_ & ? & ->)|(_ & _ & ? & ->)]]; done. Qed.
Lemma pick_fun P v k k' : pick P v k -> pick P v k' -> k = k'.
Proof. unfold pick. intros [[? ->]|[(? & ? & ->)|(? & ? & ? & ->)]] [[? ->]|[(? & ? & ->)|(? & ? & ? & ->)]]; done. Qed.

Lemma truthy_get {A} (d : gmap string A) v k : truthy (get_item d v) = Some k <-> pick (fun x => is_Some (d !! x)) v k /\ k <> ""%string.
Proof.
  rewrite <- get_item_pick. destruct (get_item d v) as [x|]; cbn [truthy].
  - destruct (bool_decide (x = ""%string)) eqn:E.
    + apply bool_decide_eq_true in E as ->. split; [done|]. intros [[= <-] ?]; done.
    + apply bool_decide_eq_false in E. split; [intros [= <-]; done|]. intros [[= <-] ?]; done.
  - split; [done|]. intros []; done.
Qed.

Lemma subst_own k v : subst_key k v = if decide (k = "/"%string) then v else k.
Proof. unfold subst_key. by destruct (decide (k = "/"%string)); [rewrite bool_decide_true|rewrite bool_decide_false]. Qed.

(** What find_applicable computes, in terms of the list of rules. *)
Lemma find_applicable_spec rs types j r c k : proper_rules rs ->
  find_applicable types (init_rule_tree rs) j = Some (r, c, k) <-> selects rs types j k r /\ c = instance k j.
Proof.
  intros [HN Hne]. destruct (tree_spec rs HN) as (H1 & H2 & H3 & H4). set (t := init_rule_tree rs) in *. clearbody t.
  assert (Hnz : forall q p ty u r, ((q, p, ty, u), r) ∈ rs -> q <> ""%string /\ p <> ""%string /\ ty <> ""%string /\ u <> ""%string).
  { intros q p ty u r' H. rewrite Forall_forall in Hne. exact (Hne _ H). }
  unfold find_applicable. fold (sub3 t). split.
  - intros E.
    destruct (truthy (get_item t (jqueue j))) as [kq|] eqn:E1; [|done]. apply truthy_get in E1 as [P1 _].
    change (default ∅ (t !! kq)) with (sub3 t kq) in E.
    destruct (truthy (get_item (sub3 t kq) (jproject j))) as [kp|] eqn:E2; [|done]. apply truthy_get in E2 as [P2 _].
    change (default ∅ (sub3 t kq !! kp)) with (sub2 t kq kp) in E.
    destruct ((fst <$> jtypes j) ++ types) as [|t0 tl] eqn:Et; [done|].
    destruct (truthy (get_item (sub2 t kq kp) t0)) as [kt|] eqn:E3; [|done]. apply truthy_get in E3 as [P3 _].
    change (default ∅ (sub2 t kq kp !! kt)) with (sub1 t kq kp kt) in E.
    destruct (truthy (get_item (sub1 t kq kp kt) (juser j))) as [ku|] eqn:E4; [|done]. apply truthy_get in E4 as [P4 _].
    destruct (sub1 t kq kp kt !! ku) as [r0|] eqn:E5; [|done].
    assert (r0 = r /\ (kq, kp, kt, ku) = k) as [-> <-] by (split; congruence).
    assert (c = (subst_key kq (jqueue j), subst_key kp (jproject j), kt, subst_key ku (juser j))) as -> by congruence. clear E.
    split.
    + unfold selects. rewrite Et. cbn [head]. split; [by apply H4|]. split; [by eapply pick_ext; [|exact P1]; intros; rewrite H1|].
      split; [by eapply pick_ext; [|exact P2]; intros; rewrite H2|]. split; [exists t0; split; [done|]; by eapply pick_ext; [|exact P3]; intros; rewrite H3|].
      eapply pick_ext; [|exact P4]. intros x. unfold is_Some. setoid_rewrite H4. done.
    + unfold instance. rewrite !subst_own. done.
  - destruct k as [[[kq kp] kt] ku]. intros [(Hin & P1 & P2 & (t0 & Et & P3) & P4) ->].
    destruct (Hnz _ _ _ _ _ Hin) as (N1 & N2 & N3 & N4).
    assert (E1 : truthy (get_item t (jqueue j)) = Some kq).
    { apply truthy_get. split; [|done]. eapply pick_ext; [|exact P1]. intros; by rewrite H1. }
    rewrite E1. change (default ∅ (t !! kq)) with (sub3 t kq).
    assert (E2 : truthy (get_item (sub3 t kq) (jproject j)) = Some kp).
    { apply truthy_get. split; [|done]. eapply pick_ext; [|exact P2]. intros; by rewrite H2. }
    rewrite E2. change (default ∅ (sub3 t kq !! kp)) with (sub2 t kq kp).
    destruct ((fst <$> jtypes j) ++ types) as [|t1 tl]; [done|]. cbn [head] in Et. assert (t1 = t0) as -> by congruence.
    assert (E3 : truthy (get_item (sub2 t kq kp) t0) = Some kt).
    { apply truthy_get. split; [|done]. eapply pick_ext; [|exact P3]. intros; by rewrite H3. }
    rewrite E3. change (default ∅ (sub2 t kq kp !! kt)) with (sub1 t kq kp kt).
    assert (E4 : truthy (get_item (sub1 t kq kp kt) (juser j)) = Some ku).
    { apply truthy_get. split; [|done]. eapply pick_ext; [|exact P4]. intros x. unfold is_Some. setoid_rewrite H4. done. }
    rewrite E4. rewrite (proj2 (H4 kq kp kt ku r) Hin). unfold instance. rewrite !subst_own. done.
Qed.

(** * The check of a window *)
Definition le3 (x y : Z * Z * Z) : Prop :=
  let '(a, b, d) := x in let '(a', b', d') := y in a <= a' /\ b <= b' /\ d <= d'.
Definition cle (c d : counters) : Prop := forall k, le3 (cget c k) (cget d k).

Lemma le3_refl x : le3 x x. Proof. destruct x as [[? ?] ?]. cbn. lia. Qed.
Lemma le3_trans x y z : le3 x y -> le3 y z -> le3 x z.
Proof. destruct x as [[? ?] ?], y as [[? ?] ?], z as [[? ?] ?]. cbn. lia. Qed.
Lemma cle_refl c : cle c c. Proof. intros k. apply le3_refl. Qed.
Lemma cle_trans a b c : cle a b -> cle b c -> cle a c.
Proof. intros H1 H2 k. eapply le3_trans; [apply H1|apply H2]. Qed.

Lemma cget_combine s v k : cget (q_combine s v) k =
  match v !! k with None => cget s k | Some x => comb (cget s k) x end.
Proof.
  unfold cget, q_combine. rewrite lookup_merge. unfold diag_None.
  destruct (s !! k) as [x|], (v !! k) as [y|]; done.
Qed.

Lemma combine_left s v : nonneg v -> cle s (q_combine s v).
Proof.
  intros Hv k. rewrite cget_combine. destruct (v !! k) as [[[a b] d]|] eqn:E; [|apply le3_refl].
  specialize (Hv k). unfold cget in Hv at 1. rewrite E in Hv. cbn [default from_option] in Hv.
  destruct (cget s k) as [[a' b'] d']. cbn [comb le3]. unfold id in Hv. lia.
Qed.
Lemma combine_right s v : nonneg s -> cle v (q_combine s v).
Proof.
  intros Hs k. rewrite cget_combine. unfold cget at 1. specialize (Hs k).
  destruct (v !! k) as [[[a b] d]|] eqn:E; cbn [default from_option id].
  - destruct (cget s k) as [[a' b'] d']. cbn [comb le3]. lia.
  - unfold ZERO3. destruct (cget s k) as [[a' b'] d']. cbn [le3]. lia.
Qed.
Lemma combine_nonneg s v : nonneg s -> nonneg v -> nonneg (q_combine s v).
Proof.
  intros Hs Hv k. pose proof (combine_left s v Hv k) as H. specialize (Hs k).
  destruct (cget s k) as [[a b] d], (cget (q_combine s v) k) as [[a' b'] d']. cbn [le3] in H. lia.
Qed.
Lemma empty_nonneg : nonneg ∅.
Proof. intros k. rewrite cget_empty. lia. Qed.

Definition nonneg_list (l : list (Z * counters)) : Prop := forall i c, (i, c) ∈ l -> nonneg c.

Lemma sq_add_spec id c l : nonneg c -> nonneg_list l ->
  nonneg_list (sq_add id c l) /\
  (exists d, (id, d) ∈ sq_add id c l /\ cle c d) /\
  (forall i d, (i, d) ∈ l -> exists d', (i, d') ∈ sq_add id c l /\ cle d d').
Proof.
  intros Hc. induction l as [|[i d] l IH]; intros Hl; cbn [sq_add].
  - split; [|split].
    + intros i d H. apply elem_of_list_singleton in H. assert (d = q_combine ∅ c) as -> by congruence.
      apply combine_nonneg; [apply empty_nonneg|done].
    + exists (q_combine ∅ c). split; [by left|]. apply combine_right, empty_nonneg.
    + intros i d H. by apply elem_of_nil in H.
  - assert (Hd : nonneg d) by (apply (Hl i); by left).
    assert (Hl' : nonneg_list l) by (intros i' d' H; apply (Hl i'); by right).
    destruct (i =? id) eqn:E.
    + assert (i = id) as -> by lia. split; [|split].
      * intros i' d' H. apply elem_of_cons in H as [H|H]; [|by apply (Hl' i')].
        assert (d' = q_combine d c) as -> by congruence. by apply combine_nonneg.
      * exists (q_combine d c). split; [by left|]. by apply combine_right.
      * intros i' d' H. apply elem_of_cons in H as [H|H].
        -- exists (q_combine d c). assert (i' = id /\ d' = d) as [-> ->] by (split; congruence).
           split; [by left|]. by apply combine_left.
        -- exists d'. split; [by right|apply cle_refl].
    + destruct (IH Hl') as (H1 & (d1 & H2 & H2') & H3). split; [|split].
      * intros i' d' H. apply elem_of_cons in H as [H|H]; [|by apply (H1 i')].
        assert (d' = d) as -> by congruence. done.
      * exists d1. split; [by right|done].
      * intros i' d' H. apply elem_of_cons in H as [H|H].
        -- exists d'. split; [rewrite H; by left|apply cle_refl].
        -- destruct (H3 i' d' H) as (d'' & Hd'' & Hle). exists d''. split; [by right|done].
Qed.

Lemma sq_loop_spec ss mid : forall l1 s l3 fuel h l,
  Repr ss (l1 ++ mid ++ s :: l3) -> (length mid < fuel)%nat -> head (mid ++ [s]) = Some h ->
  Forall (fun y => exists q, quotas (cont y) = Some q /\ nonneg q) (mid ++ [s]) -> nonneg_list l ->
  exists l', sq_loop fuel (slots ss) (sid h) (sid s) l = Ok l' /\ nonneg_list l' /\
    (forall i d, (i, d) ∈ l -> exists d', (i, d') ∈ l' /\ cle d d') /\
    Forall (fun y => exists q d, quotas (cont y) = Some q /\ (quotas_rules_id (cont y), d) ∈ l' /\ cle q d) (mid ++ [s]).
Proof.
  induction mid as [|a mid IH]; intros l1 s l3 fuel h l H Hf Hh HF Hl.
  - cbn in Hh. injection Hh as <-. destruct fuel as [|fuel]; [lia|]. cbn [sq_loop].
    assert (Hs : s ∈ l1 ++ [] ++ s :: l3) by mem.
    rewrite (repr_dget _ _ _ H Hs). cbn [rbind]. cbn [app] in HF |- *. apply Forall_singleton in HF as (q & Eq & Hq).
    rewrite Eq. cbn [attr rbind]. rewrite Z.eqb_refl.
    destruct (sq_add_spec (quotas_rules_id (cont s)) q l Hq Hl) as (H1 & (d & H2 & H2') & H3).
    eexists. split; [done|]. split; [done|]. split; [done|]. apply Forall_singleton. exists q, d. done.
  - cbn in Hh. injection Hh as <-. cbn in Hf. destruct fuel as [|fuel]; [lia|]. cbn [sq_loop].
    pose proof (nodup_ids_neq _ _ _ _ _ (repr_nodup _ _ H)) as Hneq.
    assert (Ha : a ∈ l1 ++ (a :: mid) ++ s :: l3) by mem.
    rewrite (repr_dget _ _ _ H Ha). cbn [rbind]. cbn [app] in HF |- *. apply Forall_cons in HF as [(q & Eq & Hq) HF].
    rewrite Eq. cbn [attr rbind]. replace (sid a =? sid s) with false by lia.
    destruct (sq_add_spec (quotas_rules_id (cont a)) q l Hq Hl) as (H1 & (d & H2 & H2') & H3).
    assert (exists b rest, mid ++ [s] = b :: rest) as (b & rest & Eb) by (destruct mid; cbn; eauto).
    assert (Eb' : mid ++ s :: l3 = b :: rest ++ l3).
    { replace (mid ++ s :: l3) with ((mid ++ [s]) ++ l3) by (rewrite <- app_assoc; done). rewrite Eb. done. }
    assert (H' := H). cbn [app] in H'. rewrite Eb' in H'.
    rewrite (repr_next _ _ _ _ _ H').
    destruct (IH (l1 ++ [a]) s l3 fuel b (sq_add (quotas_rules_id (cont a)) q l)) as (l' & E & Hn & Hmono & HF').
    { rewrite <- app_assoc. exact H. } { lia. } { rewrite Eb. done. } { done. } { done. }
    exists l'. split; [done|]. split; [done|]. split.
    + intros i d0 Hi. destruct (H3 i d0 Hi) as (d1 & Hd1 & L1). destruct (Hmono i d1 Hd1) as (d2 & Hd2 & L2).
      exists d2. split; [done|]. by eapply cle_trans.
    + constructor; [|done]. destruct (Hmono _ _ H2) as (d2 & Hd2 & L2). exists q, d2. split; [done|]. split; [done|].
      by eapply cle_trans.
Qed.

Lemma q_check_spec types t c j : q_check types t c j = QOk <->
  forall r k k0, find_applicable types t j = Some (r, k, k0) -> within_rule r (cget c k).
Proof.
  unfold q_check. destruct (find_applicable types t j) as [[[r k] k0]|] eqn:E.
  2: { split; [|done]. intros _ r k k0 H. done. }
  assert (Hk : within_rule r (cget c k) <->
     match c !! k with
      | None => QOk
      | Some (nr, nj, nt) =>
          if (-1 <? lim_res r) && (lim_res r <? nr) then QRes (lim_res r)
          else if (-1 <? lim_jobs r) && (lim_jobs r <? nj) then QJobs (lim_jobs r)
          else if (-1 <? lim_time r) && (lim_time r <? nt) then QTime (lim_time r)
          else QOk
      end = QOk).
  { unfold cget. destruct (c !! k) as [[[nr nj] nt]|]; cbn [default from_option id within_rule]; unfold within.
    - destruct ((-1 <? lim_res r) && (lim_res r <? nr)) eqn:E1; [split; [lia|done]|].
      destruct ((-1 <? lim_jobs r) && (lim_jobs r <? nj)) eqn:E2; [split; [lia|done]|].
      destruct ((-1 <? lim_time r) && (lim_time r <? nt)) eqn:E3; [split; [lia|done]|].
      split; [done|]. lia.
    - unfold ZERO3. cbn [within_rule]. unfold within. split; [done|]. lia. }
  rewrite <- Hk. split.
  - intros H r' k' k0' E'. assert (r' = r /\ k' = k) as [-> ->] by (split; congruence). done.
  - intros H. by eapply H.
Qed.

Lemma sq_check_spec cf j nb dur l : sq_check cf j nb dur l = QOk <->
  forall id c, (id, c) ∈ l ->
    q_check (q_job_types (q_env cf)) (init_rule_tree (conf_rules cf id))
      (q_update_with (q_job_types (q_env cf)) (jqueue j) (jproject j) (juser j) (fst <$> jtypes j) nb dur c) j = QOk.
Proof.
  induction l as [|[id c] l IH]; cbn [sq_check].
  - split; [|done]. intros _ id c H. by apply elem_of_nil in H.
  - destruct (q_check _ _ _ _) eqn:E.
    + rewrite IH. split.
      * intros H id' c' Hi. apply elem_of_cons in Hi as [Hi|Hi]; [|by apply H].
        assert (id' = id /\ c' = c) as [-> ->] by (split; congruence). done.
      * intros H id' c' Hi. apply H. by right.
    + split; [done|]. intros H. rewrite (H id c) in E; [done|by left].
    + split; [done|]. intros H. rewrite (H id c) in E; [done|by left].
    + split; [done|]. intros H. rewrite (H id c) in E; [done|by left].
Qed.

(** The counter a job is checked against counts the job itself. *)
Lemma kcount_elem k l : k ∈ l -> 1 <= kcount k l.
Proof.
  induction l as [|x l IH]; intros H; [by apply elem_of_nil in H|]. cbn [kcount]. pose proof (kcount_nonneg k l).
  apply elem_of_cons in H as [->|H].
  - rewrite bool_decide_true by done. lia.
  - specialize (IH H). destruct (bool_decide (x = k)); lia.
Qed.
Lemma job_keys_elem q p t u queue project user :
  comp_match q queue -> comp_match p project -> comp_match u user -> (q, p, t, u) ∈ job_keys queue project user t.
Proof.
  unfold job_keys, comp_match. intros [->| ->] [->| ->] [->| ->]; rewrite !elem_of_cons; auto 10.
Qed.
Lemma tcount_elem q p t u queue project user jt types :
  t ∈ types -> t = "*"%string \/ t ∈ jt -> comp_match q queue -> comp_match p project -> comp_match u user ->
  1 <= tcount (q, p, t, u) queue project user jt types.
Proof.
  intros Ht Hj Hq Hp Hu. induction types as [|t' types IH]; [by apply elem_of_nil in Ht|]. cbn [tcount].
  pose proof (tcount_nonneg (q, p, t, u) queue project user jt types).
  pose proof (kcount_nonneg (q, p, t, u) (job_keys queue project user t')).
  apply elem_of_cons in Ht as [<-|Ht].
  - assert (bool_decide (t = "*"%string) || bool_decide (t ∈ jt) = true) as ->.
    { rewrite orb_true_iff, !bool_decide_eq_true. done. }
    pose proof (kcount_elem _ _ (job_keys_elem q p t u _ _ _ Hq Hp Hu)). lia.
  - specialize (IH Ht). destruct (_ || _); lia.
Qed.

Lemma instance_match rs types j k r : selects rs types j k r ->
  let '(q, p, t, u) := instance k j in comp_match q (jqueue j) /\ comp_match p (jproject j) /\ comp_match u (juser j).
Proof.
  destruct k as [[[kq kp] kt] ku]. intros (_ & P1 & P2 & _ & P4). cbn [instance].
  assert (H : forall P v k, pick P v k -> comp_match (if decide (k = "/"%string) then v else k) v).
  { intros P v k. unfold comp_match. intros [[_ ->]|[(_ & _ & ->)|(_ & _ & _ & ->)]].
    - destruct (decide _); auto.
    - rewrite decide_True by done. auto.
    - rewrite decide_False by done. auto. }
  split_and!; by eapply H.
Qed.

(** The type of the rule is "/", or it is "*" or the first type of the job or configuration. *)
Lemma instance_type k j : key_type (instance k j) = key_type k.
Proof. by destruct k as [[[kq kp] kt] ku]. Qed.

Lemma update_counts types j nb dur c k : 0 <= nb -> 0 <= dur ->
  key_type k ∈ types -> key_match k j ->
  le3 (add3 (cget c k) (nb, 1, nb * dur)) (cget (q_update_with types (jqueue j) (jproject j) (juser j) (fst <$> jtypes j) nb dur c) k).
Proof.
  intros Hn Hd Ht Hm. rewrite cget_update. destruct k as [[[q p] t] u]. destruct Hm as (Hq & Hp & Htj & Hu).
  pose proof (tcount_elem q p t u (jqueue j) (jproject j) (juser j) (fst <$> jtypes j) types Ht Htj Hq Hp Hu) as H1.
  destruct (cget c (q, p, t, u)) as [[a b] d]. cbn [add3 scale3 le3].
  set (n := tcount _ _ _ _ _ _) in *. split_and!; nia.
Qed.

Lemma within_le r x y : le3 x y -> within_rule r y -> within_rule r x.
Proof.
  destruct x as [[? ?] ?], y as [[? ?] ?]. cbn [le3 within_rule]. unfold within. intros. lia.
Qed.
