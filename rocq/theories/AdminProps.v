(** The commands of the administrator: proofs. *)
From Verif Require Import Base ReqModel ReqSpec ReqProps AdmModel AdmProps FrontModel FrontSpec FrontProofs ConfModel ConfSpec ConfProps AdminModel AdminSpec.
From Coq Require Import Ascii.

(** ** Exit values *)
Lemma exits_one evs e : e <> 0 -> (forall e', e' ∈ evs -> e' = 0 \/ e' = e) -> exits evs e e = (e, e).
Proof.
  intros He. induction evs as [|x evs IH]; [done|]. intros H. cbn [exits]. assert (HI : exits evs e e = (e, e)) by (apply IH; intros e' H'; apply H, elem_of_cons; by right).
  destruct (Z.eqb_spec x 0) as [->|Hx]; [done|]. assert (x = e) as -> by (destruct (H x); [apply elem_of_cons; by left|done|done]). rewrite Z.eqb_refl, andb_false_r. done.
Qed.
Lemma exits_many evs e x : e <> 0 -> x <> 0 -> x <> e -> x ∈ evs -> fst (exits evs e e) = 15.
Proof.
  intros He Hx Hxe. induction evs as [|y evs IH]; [by intros ?%not_elem_of_nil|]. intros Hin. cbn [exits]. destruct (Z.eqb_spec y 0) as [->|Hy].
  - apply IH. apply elem_of_cons in Hin as [?|?]; [congruence|done].
  - destruct (Z.eqb_spec e 0) as [?|_]; [done|]. destruct (Z.eqb_spec e y) as [<-|Hey]; [|done]. cbn [negb andb]. apply IH. apply elem_of_cons in Hin as [?|?]; [congruence|done].
Qed.
Theorem C190_status evs : status evs (fst (get_exit_value (mkReturns evs 0))) /\ forall v v', status evs v -> status evs v' -> v = v'.
Proof.
  split.
  - unfold get_exit_value. cbn [final_exit exit_values]. rewrite Z.eqb_refl. destruct (exits evs 0 0) as [v f] eqn:E. cbn [fst].
    assert (H : status evs (fst (exits evs 0 0))); [|by rewrite E in H]. clear E v f.
    assert (Hpre : forall zs evs0, (forall e, e ∈ zs -> e = 0) -> status (zs ++ evs0) (fst (exits evs0 0 0))); [|apply (Hpre [] evs); intros e He; by apply not_elem_of_nil in He].
    intros zs evs0. revert zs. induction evs0 as [|x r IH]; intros zs Hz; cbn [exits fst]; [apply st_fine; by rewrite app_nil_r|].
    destruct (Z.eqb_spec x 0) as [->|Hx].
    + replace (zs ++ 0 :: r) with ((zs ++ [0]) ++ r) by (by rewrite <- app_assoc). apply IH. intros e [H|H]%elem_of_app; [by apply Hz|by apply elem_of_list_singleton in H].
    + cbn [Z.eqb negb andb]. destruct (decide (Forall (fun e => e = 0 \/ e = x) r)) as [Hr|Hr].
      * rewrite Forall_forall in Hr. rewrite exits_one by done. cbn [fst]. apply st_one; [done|apply elem_of_app; right; apply elem_of_cons; by left|].
        intros e' [H|H]%elem_of_app; [left; by apply Hz|]. apply elem_of_cons in H as [->|H]; [by right|by apply Hr].
      * apply not_Forall_Exists in Hr; [|apply _]. apply Exists_exists in Hr as (y & Hy & Hy'). assert (y <> 0 /\ y <> x) as [Hy1 Hy2] by (split; intros ?; apply Hy'; tauto). rewrite (exits_many r x y) by done.
        apply (st_many _ x y); [done|done|done|apply elem_of_app; right; apply elem_of_cons; by left|apply elem_of_app; right; apply elem_of_cons; by right].
  - assert (HD : forall v v', status evs v -> status evs v' -> v = v' \/ (v' = v)); [|intros v v' H H'; by destruct (HD v v' H H')].
    intros v v' [H1|e H1 H2 H3|e1 e2 H1 H2 H3 H4 H5] [J1|f J1 J2 J3|f1 f2 J1 J2 J3 J4 J5]; left; try done.
    + by apply H1 in J2.
    + by apply H1 in J4.
    + by apply J1 in H2.
    + destruct (H3 f J2); congruence.
    + destruct (H3 f1 J4), (H3 f2 J5); congruence.
    + by apply J1 in H4.
    + destruct (J3 e1 H4), (J3 e2 H5); congruence.
Qed.
(** Asked again, the answer may change. *)
Theorem C190_again_refuted : exists evs, let '(v, c) := get_exit_value (mkReturns evs 0) in v = 15 /\ fst (get_exit_value c) = 1.
Proof. exists [1; 2]. vm_compute. done. Qed.
Theorem C190_again evs : let '(v, c) := get_exit_value (mkReturns evs 0) in v <> 15 -> fst (get_exit_value c) = v.
Proof.
  unfold get_exit_value. cbn [final_exit exit_values]. rewrite Z.eqb_refl. destruct (exits evs 0 0) as [v f] eqn:E. intros Hv. cbn [final_exit exit_values].
  assert (f = v) as ->.
  { assert (HG : forall evs p f0, fst (exits evs p f0) <> 15 -> snd (exits evs p f0) = fst (exits evs p f0)).
    { clear. induction evs as [|x r IH]; intros p f0; cbn [exits]; [done|]. destruct (x =? 0); [apply IH|]. destruct (negb (p =? 0) && negb (p =? x)); [done|apply IH]. }
    specialize (HG evs 0 0). rewrite E in HG. cbn [fst snd] in HG. by apply HG. }
  destruct (Z.eqb_spec v 0) as [->|Hn]; [|done]. by rewrite E.
Qed.

(** ** Queues *)
Lemma oarqueue_admin e u : acts_for e u -> administrator u -> exists u0, e_user e = Some u0 /\ negb (bool_decide (default u0 (e_oardo e) = "oar"%string) || bool_decide (default u0 (e_oardo e) = "root"%string)) = false.
Proof.
  intros [(u0 & Hu0) H] Ha. exists u0. split; [done|]. assert (default u0 (e_oardo e) = u) as -> by (destruct H as [->|[-> E]]; cbn; congruence).
  apply negb_false_iff, orb_true_iff. destruct Ha as [-> | ->]; [left|right]; by apply bool_decide_true.
Qed.
Theorem C191_rights e l qs u : acts_for e u -> ~ administrator u -> oarqueue_cli e l qs = (Ok (8, []), qs).
Proof.
  intros [(u0 & Hu0) H] Ha. unfold oarqueue_cli, oarqueue. cbv zeta. rewrite Hu0. assert (default u0 (e_oardo e) = u) as -> by (destruct H as [->|[-> E]]; cbn; congruence).
  rewrite !bool_decide_false by (intros ->; apply Ha; by (left + right)). done.
Qed.
Theorem C191_effect e l qs : snd (oarqueue_cli e l qs) <> qs -> exists u, acts_for e u /\ administrator u.
Proof.
  intros H. destruct (e_user e) as [u0|] eqn:Hu0; [|unfold oarqueue_cli, oarqueue in H; cbv zeta in H; rewrite Hu0 in H; done].
  exists (default u0 (e_oardo e)). assert (HA : acts_for e (default u0 (e_oardo e))). { split; [by eexists|]. destruct (e_oardo e); [by left|by right]. }
  split; [done|]. assert (HD : Decision (administrator (default u0 (e_oardo e)))) by (unfold administrator; apply _). destruct HD as [?|Hn]; [done|]. rewrite (C191_rights e l qs _ HA Hn) in H. done.
Qed.
(** Without USER the command fails, even for oar. *)
Theorem C191_no_user_refuted : exists e l qs, e_oardo e = Some "oar"%string /\ oarqueue_cli e l qs = (Err EKey, qs).
Proof. exists (mkQenv None (Some "oar"%string)), (asked EnableAll), []. done. Qed.

Lemma split3 t n pt s : split_on "," t = [n; pt; s] <-> none_of "," n /\ none_of "," pt /\ none_of "," s /\ t = (n +:+ "," +:+ pt +:+ "," +:+ s)%string.
Proof.
  split.
  - intros E.
    assert (HS : forall t w ws, split_on "," t = w :: ws -> none_of "," w /\ match ws with [] => t = w | _ => exists t', t = (w +:+ String "," t')%string /\ split_on "," t' = ws end).
    { clear. induction t as [|c t IH]; intros w ws; cbn [split_on]; [intros [= <- <-]; split; [apply every_nil|done]|]. destruct (bool_decide (c = ","%char)) eqn:Ec.
      - apply bool_decide_eq_true in Ec as ->. intros [= <- <-]. split; [apply every_nil|]. destruct (split_on_nonempty "," t) as (w & ws & E). rewrite E. exists t. by rewrite E.
      - apply bool_decide_eq_false in Ec. destruct (split_on_nonempty "," t) as (w0 & ws0 & E). rewrite E. intros [= <- <-]. destruct (IH _ _ E) as [H1 H2].
        split; [by apply every_cons|]. destruct ws0 as [|w1 ws1]; [by rewrite H2|]. destruct H2 as (t' & -> & H2). exists t'. by rewrite scons_app. }
    destruct (HS _ _ _ E) as (H1 & t1 & -> & E1). destruct (HS _ _ _ E1) as (H2 & t2 & -> & E2). destruct (HS _ _ _ E2) as (H3 & ->). done.
  - intros (H1 & H2 & H3 & ->). rewrite none_lacks in H1, H2, H3. change ("," +:+ pt +:+ "," +:+ s)%string with (String "," (pt +:+ String "," s)).
    rewrite split_on_sep by done. rewrite split_on_sep by done. by rewrite split_on_lacks.
Qed.
Theorem C193_text t n p s : queue_text t = Some (n, p, s) <-> describes t n p s.
Proof.
  unfold queue_text, describes. split.
  - destruct (split_on "," t) as [|a [|pt [|b [|? ?]]]] eqn:E; try discriminate. destruct (int_ok pt) eqn:Ei; [|discriminate]. intros [= -> <- ->]. exists pt.
    apply split3 in E as (H1 & H2 & H3 & ->). repeat split; try done. by apply int_spec.
  - intros (pt & H1 & H2 & H3 & [Hi <-]%int_spec & ->). rewrite (proj2 (split3 _ n pt s)) by done. by rewrite Hi.
Qed.
Lemma asked_cli e a qs : says_something a -> oarqueue_cli e (asked a) qs = oarqueue e (asked a) qs.
Proof.
  intros H. unfold oarqueue_cli. destruct a as [n|n| | |t|t|n]; cbn [says_something asked ql_list ql_enable ql_disable ql_enable_all ql_disable_all ql_add ql_change ql_remove] in *; try reflexivity;
    match goal with H : ?x <> ""%string |- _ => assert (nonempty x = true) as HN by (by apply nonempty_spec) end; rewrite HN; reflexivity.
Qed.
Lemma describes_fun t n p s n' p' s' : describes t n p s -> describes t n' p' s' -> n = n' /\ p = p' /\ s = s'.
Proof. rewrite <- !C193_text. intros -> [= -> -> ->]. done. Qed.
Lemma activate_in n b qs x : x ∈ activate n b qs <-> (x ∈ qs /\ q_name x <> n) \/ exists q, q ∈ qs /\ q_name q = n /\ x = mkQueue n (q_priority q) (q_policy q) b.
Proof.
  unfold activate. rewrite elem_of_list_fmap. split.
  - intros (q & -> & Hq). destruct (bool_decide (q_name q = n)) eqn:E; [apply bool_decide_eq_true in E as <-; right; by exists q|apply bool_decide_eq_false in E; by left].
  - intros [[H1 H2]|(q & H1 & <- & ->)]; [exists x; by rewrite bool_decide_false|]. exists q. by rewrite bool_decide_true.
Qed.
Lemma activate_names n b qs : q_name <$> activate n b qs = q_name <$> qs.
Proof. unfold activate. rewrite <- list_fmap_compose. apply list_fmap_ext. intros i q _. cbn. by destruct (bool_decide _). Qed.
Lemma change_names n p s qs : q_name <$> change_queue n p s qs = q_name <$> qs.
Proof. unfold change_queue. rewrite <- list_fmap_compose. apply list_fmap_ext. intros i q _. cbn. destruct (bool_decide _) eqn:E; [|done]. by apply bool_decide_eq_true in E. Qed.
Lemma oarqueue_does e a qs u : acts_for e u -> administrator u -> says_something a ->
  oarqueue_cli e (asked a) qs = match a with
    | Enable n => (Ok (0, []), activate n true qs) | Disable n => (Ok (0, []), activate n false qs)
    | EnableAll => (Ok (0, []), activate_all true qs) | DisableAll => (Ok (0, []), activate_all false qs)
    | Add t => match queue_text t with
               | Some (n, p, s) => match create_queue n p s qs with Some qs' => (Ok (0, []), qs') | None => (Err EValue, qs) end | None => (Err EValue, qs) end
    | Change t => match queue_text t with Some (n, p, s) => (Ok (0, []), change_queue n p s qs) | None => (Err EValue, qs) end
    | Remove n => (Ok (0, []), remove_queue n qs)
    end.
Proof.
  intros Hu Ha Hs. rewrite asked_cli by done. destruct (oarqueue_admin e u Hu Ha) as (u0 & E0 & EA). unfold oarqueue. cbv zeta. rewrite E0, EA.
  destruct a as [n|n| | |t|t|n]; cbn [asked ql_list ql_enable ql_disable ql_enable_all ql_disable_all ql_add ql_change ql_remove says_something] in *; try reflexivity;
    match goal with H : ?x <> ""%string |- _ => assert (nonempty x = true) as HN by (by apply nonempty_spec) end; rewrite HN; reflexivity.
Qed.
Theorem C192_effect e a qs u : acts_for e u -> administrator u -> says_something a -> ~ impossible a qs ->
  fst (oarqueue_cli e (asked a) qs) = Ok (0, []) /\ forall x, x ∈ snd (oarqueue_cli e (asked a) qs) <-> after a qs x.
Proof.
  intros Hu Ha Hs Hp. rewrite (oarqueue_does e a qs u) by done. destruct a as [n|n| | |t|t|n]; cbn [impossible after] in *.
  - split; [done|]. intros x. apply activate_in.
  - split; [done|]. intros x. apply activate_in.
  - split; [done|]. intros x. cbn [snd]. unfold activate_all. rewrite elem_of_list_fmap. split; intros (q & H1 & H2); by exists q.
  - split; [done|]. intros x. cbn [snd]. unfold activate_all. rewrite elem_of_list_fmap. split; intros (q & H1 & H2); by exists q.
  - destruct (queue_text t) as [[[n p] s]|] eqn:E.
    + apply C193_text in E. unfold create_queue. destruct (bool_decide (n ∈ q_name <$> qs)) eqn:En.
      * apply bool_decide_eq_true in En. destruct Hp. intros n' p' s' H'. by destruct (describes_fun _ _ _ _ _ _ _ E H') as (<- & _).
      * split; [done|]. intros x. cbn [snd]. rewrite elem_of_app, elem_of_list_singleton. split.
        -- intros [H|H]; [by left|right]. by exists n, p, s.
        -- intros [H|(n' & p' & s' & H' & ->)]; [by left|right]. by destruct (describes_fun _ _ _ _ _ _ _ E H') as (<- & <- & <-).
    + destruct Hp. intros n p s H. apply C193_text in H. congruence.
  - destruct (queue_text t) as [[[n p] s]|] eqn:E.
    + apply C193_text in E. split; [done|]. intros x. cbn [snd]. unfold change_queue. rewrite elem_of_list_fmap. split.
      * intros (q & -> & Hq). exists n, p, s. split; [done|]. destruct (bool_decide (q_name q = n)) eqn:En; [apply bool_decide_eq_true in En; right; by exists q|apply bool_decide_eq_false in En; by left].
      * intros (n' & p' & s' & H' & H). destruct (describes_fun _ _ _ _ _ _ _ E H') as (<- & <- & <-). destruct H as [[H1 H2]|(q & H1 & H2 & ->)]; [exists x; by rewrite bool_decide_false|]. exists q. by rewrite bool_decide_true.
    + destruct Hp. intros n p s H. apply C193_text in H. congruence.
  - split; [done|]. intros x. cbn [snd]. unfold remove_queue. rewrite elem_of_list_filter. tauto.
Qed.
Theorem C193_impossible e a qs u : acts_for e u -> administrator u -> says_something a -> impossible a qs -> oarqueue_cli e (asked a) qs = (Err EValue, qs).
Proof.
  intros Hu Ha Hs Hp. rewrite (oarqueue_does e a qs u) by done. destruct a as [n|n| | |t|t|n]; cbn [impossible] in *; try done.
  - destruct (queue_text t) as [[[n p] s]|] eqn:E; [|done]. apply C193_text in E. unfold create_queue. rewrite bool_decide_true; [done|]. by apply (Hp n p s).
  - destruct (queue_text t) as [[[n p] s]|] eqn:E; [|done]. apply C193_text in E. by destruct (Hp n p s).
Qed.
Lemma names_filter n qs : NoDup (q_name <$> qs) -> NoDup (q_name <$> filter (fun q => q_name q <> n) qs).
Proof.
  induction qs as [|q qs IH]; [done|]. rewrite fmap_cons. intros [H1 H2]%NoDup_cons. destruct (decide (q_name q <> n)) as [H|H]; [|rewrite filter_cons_False by done; by apply IH].
  rewrite filter_cons_True by done. rewrite fmap_cons. apply NoDup_cons. split; [|by apply IH]. intros (x & E & Hx)%elem_of_list_fmap. apply H1. apply elem_of_list_filter in Hx as [_ Hx]. apply elem_of_list_fmap. by exists x.
Qed.
Theorem C192_unique e l qs : unique_names qs -> unique_names (snd (oarqueue_cli e l qs)).
Proof.
  unfold unique_names. intros H. unfold oarqueue_cli, oarqueue. cbv zeta. destruct (e_user e) as [u0|]; [|done]. destruct (negb _); [done|].
  cbn [ql_list ql_enable ql_disable ql_enable_all ql_disable_all ql_add ql_change ql_remove].
  destruct (ql_list l || _); [done|]. destruct (nonempty (ql_enable l)); [cbn [snd]; by rewrite activate_names|]. destruct (nonempty (ql_disable l)); [cbn [snd]; by rewrite activate_names|].
  assert (HA : forall b, q_name <$> activate_all b qs = q_name <$> qs) by (intros b; unfold activate_all; rewrite <- list_fmap_compose; by apply list_fmap_ext).
  destruct (ql_enable_all l); [cbn [snd]; by rewrite HA|]. destruct (ql_disable_all l); [cbn [snd]; by rewrite HA|].
  destruct (nonempty (ql_add l)).
  - destruct (queue_text (ql_add l)) as [[[n p] s]|]; [|done]. unfold create_queue. destruct (bool_decide _) eqn:E; [done|]. apply bool_decide_eq_false in E. cbn [snd]. rewrite fmap_app. cbn.
    apply NoDup_app. split; [done|]. split; [|apply NoDup_singleton]. intros x Hx ->%elem_of_list_singleton. done.
  - destruct (nonempty (ql_change l)); [destruct (queue_text (ql_change l)) as [[[n p] s]|]; [cbn [snd]; by rewrite change_names|done]|].
    destruct (nonempty (ql_remove l)); [|done]. cbn [snd]. unfold remove_queue. by apply names_filter.
Qed.
(** A queue that does not exist: the command says nothing and exits with 0. *)
Theorem C192_unknown_refuted : exists e a qs, acts_for e "root" /\ says_something a /\ ~ concerns a qs /\ oarqueue_cli e (asked a) qs = (Ok (0, []), qs) /\ qs <> [].
Proof.
  exists (mkQenv (Some "root"%string) None), (Disable "defalut"), [mkQueue "default" 2 "kamelot" true]. split; [split; [by eexists|by right]|]. split; [done|]. split; [cbn; by_dec|]. split; [|done]. vm_compute. done.
Qed.
(** Of two options one is done. *)
Theorem C192_two_refuted : exists e l qs, ql_enable l = "a"%string /\ ql_disable l = "b"%string /\
  oarqueue_cli e l qs = (Ok (0, []), [mkQueue "a" 1 "kamelot" true; mkQueue "b" 2 "kamelot" true]).
Proof. exists (mkQenv (Some "root"%string) None), (mkQline false "a" "b" false false "" "" ""), [mkQueue "a" 1 "kamelot" false; mkQueue "b" 2 "kamelot" true]. vm_compute. done. Qed.
Theorem C192_case : let e := mkQenv (Some "alice"%string) (Some "oar"%string) in let qs := [mkQueue "admin" 10 "kamelot" true; mkQueue "default" 2 "kamelot" true]%string in
  oarqueue_cli e (asked (Add "q1,3,fifo")) qs = (Ok (0, []), qs ++ [mkQueue "q1" 3 "fifo" true]) /\
  oarqueue_cli e (asked (Change "default,-1,fifo")) qs = (Ok (0, []), [mkQueue "admin" 10 "kamelot" true; mkQueue "default" (-1) "fifo" true]) /\
  oarqueue_cli e (asked (Add "default,3,fifo")) qs = (Err EValue, qs) /\ oarqueue_cli e (asked (Change "default,,fifo")) qs = (Err EValue, qs).
Proof. vm_compute. done. Qed.
Theorem C192_list e l qs u : acts_for e u -> administrator u -> ql_list l = true \/ l = blank_line ->
  exists qs', oarqueue_cli e l qs = (Ok (0, qs'), qs) /\ Permutation qs' qs /\ forall i j a b, (i < j)%nat -> qs' !! i = Some a -> qs' !! j = Some b -> q_priority b <= q_priority a.
Proof.
  intros Hu Ha Hl. exists (by_priority qs). destruct (oarqueue_admin e u Hu Ha) as (u0 & E0 & EA). split; [|split; [apply merge_sort_Permutation|]].
  - unfold oarqueue_cli, oarqueue. cbv zeta. rewrite E0, EA. cbn [ql_list]. destruct Hl as [-> | ->]; reflexivity.
  - assert (HT : Transitive higher) by (intros a b c; unfold higher; lia). assert (Total higher) by (intros a b; unfold higher; lia).
    assert (HS : StronglySorted higher (by_priority qs)) by (apply StronglySorted_merge_sort; apply _).
    intros i j a b Hij Hi Hj. revert i j Hij Hi Hj. induction HS as [|q l0 HS IH HF]; intros i j Hij Hi Hj; [by rewrite lookup_nil in Hi|].
    destruct j as [|j]; [lia|]. destruct i as [|i]; [|apply (IH i j); [lia|done|done]]. cbn in Hi, Hj. injection Hi as <-. rewrite Forall_forall in HF. apply (HF b). by apply elem_of_list_lookup_2 in Hj.
Qed.

(** ** Properties *)
Definition flow_all (P : run -> Prop) (f : flow) : Prop := match f with Go r | Stop r | Raise r => P r end.
Lemma bad_name_none p : bad_name p = None <-> valid_name p.
Proof.
  unfold bad_name, valid_name. assert (HA : is_ascii p = true <-> every (fun c => nat_of_ascii c < 128)%nat p).
  { induction p as [|c p IH]; [split; [intros _; apply every_nil|done]|]. cbn [is_ascii]. rewrite andb_true_iff, Nat.ltb_lt, IH, every_cons. done. }
  destruct (is_ascii p).
  - destruct (bool_decide (p ∈ protected)) eqn:E; [apply bool_decide_eq_true in E|apply bool_decide_eq_false in E]; (split; [intros H; try discriminate|]); [tauto|split; [by apply HA|done]|done].
  - split; [discriminate|]. intros [H _]. apply HA in H. done.
Qed.
Definition kept (d : props) (r : run) : Prop :=
  durable r <> [] /\ (forall d', d' ∈ durable r -> cols d' = cols d /\ nres d' = nres d) /\
  filter (fun c => c_name c ∈ protected) (pending r) = filter (fun c => c_name c ∈ protected) (cols d).
Lemma kept_say d n r : kept d (say n r) <-> kept d r.
Proof. done. Qed.
Lemma kept_if d (b : bool) n r : kept d r -> kept d (if b then r else say n r).
Proof. by destruct b. Qed.
Lemma filter_delete p (cs : list column) : p ∉ protected -> filter (fun c => c_name c ∈ protected) (filter (fun c => c_name c <> p) cs) = filter (fun c => c_name c ∈ protected) cs.
Proof.
  intros Hp. induction cs as [|c cs IH]; [done|]. destruct (decide (c_name c <> p)) as [H|H].
  - rewrite (filter_cons_True _ c cs H), !filter_cons. destruct (decide (c_name c ∈ protected)); [by rewrite IH|done].
  - rewrite (filter_cons_False _ c cs H), IH. rewrite filter_cons_False; [done|]. intros H'. apply H. intros E. by rewrite E in H'.
Qed.
Lemma filter_rename p q (cs : list column) : p ∉ protected -> q ∉ protected -> filter (fun c => c_name c ∈ protected) (rename_col p q <$> cs) = filter (fun c => c_name c ∈ protected) cs.
Proof.
  intros Hp Hq. induction cs as [|c cs IH]; [done|]. rewrite fmap_cons. unfold rename_col at 1. destruct (bool_decide (c_name c = p)) eqn:E.
  - apply bool_decide_eq_true in E. rewrite filter_cons_False by (cbn [c_name]; done). rewrite filter_cons_False by (by rewrite E). done.
  - rewrite !filter_cons, IH. done.
Qed.
Lemma delete_kept d quiet ps : forall r, kept d r -> flow_all (kept d) (do_delete quiet ps r).
Proof.
  induction ps as [|p ps IH]; intros r Hr; cbn [do_delete]; [done|]. destruct (bad_name p) as [n|] eqn:E; [done|]. apply bad_name_none in E as [_ E].
  destruct (bool_decide _); [|done]. apply IH, kept_if. destruct Hr as (H1 & H2 & H3). split; [done|]. split; [done|]. cbn [pending with_pending]. by rewrite filter_delete.
Qed.
Lemma add_kept d quiet text known n ps : forall r, kept d r -> flow_all (kept d) (do_add quiet text known n ps r).
Proof.
  induction ps as [|p ps IH]; intros r Hr; cbn [do_add]; [done|]. cbv zeta. destruct (bad_name (lstrip p)) as [m|] eqn:E; [done|]. apply bad_name_none in E as [_ E].
  destruct (bool_decide (lstrip p ∈ known)); [apply IH; by destruct text, quiet|]. destruct (_ || _); [done|]. apply IH, kept_if. destruct Hr as (H1 & H2 & H3). split; [done|]. split; [done|].
  cbn [pending with_pending]. rewrite filter_app, H3. rewrite filter_cons_False by done. by rewrite app_nil_r.
Qed.
Lemma rename_kept d quiet known ts : forall r, kept d r -> flow_all (kept d) (do_rename quiet known ts r).
Proof.
  induction ts as [|t ts IH]; intros r Hr; cbn [do_rename]; [done|]. destruct (split_on "," t) as [|p [|q [|? ?]]]; try done.
  destruct (bad_name p) as [m|] eqn:Ep; [done|]. destruct (bad_name q) as [m|] eqn:Eq; [done|]. apply bad_name_none in Ep as [_ Ep], Eq as [_ Eq].
  destruct (negb _); [done|]. destruct (bool_decide _); [done|]. destruct (_ || _); [done|]. destruct Hr as (H1 & H2 & H3). destruct (durable r) as [|d0 ds] eqn:Ed; [done|].
  destruct (rename_rows p q d0) as [d1|] eqn:Er; [|cbn [flow_all]; unfold kept; rewrite Ed; done]. apply IH, kept_if. split; [done|]. cbn [durable pending]. split.
  - intros d' [->|H]%elem_of_cons; [|by apply H2]. unfold rename_rows in Er. cbv zeta in Er. destruct (bool_decide _); [|discriminate]. apply (f_equal (fun o => match o with Some x => x | None => d1 end)) in Er. rewrite <- Er. cbn [cols nres]. apply H2, elem_of_cons. by left.
  - by rewrite filter_rename.
Qed.
Lemma body_kept l d : flow_all (kept d) (body l d).
Proof.
  unfold body. cbv zeta. assert (K : kept d (mkRun [d] (cols d) [])). { split; [done|]. split; [|done]. intros d' ->%elem_of_list_singleton. done. }
  pose proof (delete_kept d (pl_quiet l) (pl_delete l) _ K) as H1. destruct (do_delete (pl_quiet l) (pl_delete l) (mkRun [d] (cols d) [])) as [r|r|r]; cbn [andthen flow_all] in *; [|done|done].
  pose proof (add_kept d (pl_quiet l) (pl_text l) (c_name <$> cols d) (nres d) (pl_add l) r H1) as H2. destruct (do_add (pl_quiet l) (pl_text l) (c_name <$> cols d) (nres d) (pl_add l) r) as [r'|r'|r']; cbn [andthen flow_all] in *; [|done|done].
  by apply rename_kept.
Qed.
Lemma own_protected : forall x, x ∈ own_properties -> x ∈ protected.
Proof. apply Forall_forall. unfold own_properties. repeat (apply Forall_cons; split; [by_dec|]). by apply Forall_nil. Qed.
Lemma filter_own (cs cs' : list column) : filter (fun c => c_name c ∈ protected) cs = filter (fun c => c_name c ∈ protected) cs' -> filter (fun c => c_name c ∈ own_properties) cs = filter (fun c => c_name c ∈ own_properties) cs'.
Proof.
  assert (HF : forall l : list column, filter (fun c => c_name c ∈ own_properties) (filter (fun c => c_name c ∈ protected) l) = filter (fun c => c_name c ∈ own_properties) l).
  { induction l as [|c l IH]; [done|]. destruct (decide (c_name c ∈ protected)) as [H|H].
    - rewrite (filter_cons_True _ c l H), !filter_cons, IH. done.
    - rewrite (filter_cons_False _ c l H), IH. rewrite filter_cons_False; [done|]. intros H'. by apply H, own_protected. }
  intros H. by rewrite <- (HF cs), <- (HF cs'), H.
Qed.
Theorem C194_protected l d d' : d' ∈ snd (oarproperty l d) ->
  filter (fun c => c_name c ∈ own_properties) (cols d') = filter (fun c => c_name c ∈ own_properties) (cols d) /\ nres d' = nres d.
Proof.
  unfold oarproperty. pose proof (body_kept l d) as H. assert (HC : forall r, kept d r -> d' ∈ commit_columns r -> filter (fun c => c_name c ∈ own_properties) (cols d') = filter (fun c => c_name c ∈ own_properties) (cols d) /\ nres d' = nres d).
  { clear H. intros r (H1 & H2 & H3). unfold commit_columns. destruct (durable r) as [|d0 ds]; [done|]. intros [->|Hd]%elem_of_cons.
    - cbn [cols nres]. split; [by apply filter_own|]. apply H2, elem_of_cons. by left.
    - destruct (H2 d' Hd) as [-> ->]. done. }
  destruct (body l d) as [r|r|r]; cbn [snd flow_all] in *; [by apply HC|by apply HC|]. intros Hd. destruct H as (_ & H & _). destruct (H d' Hd) as [-> ->]. done.
Qed.
Theorem C195_exception l d e : fst (oarproperty l d) = Err e -> forall d', d' ∈ snd (oarproperty l d) -> cols d' = cols d.
Proof.
  unfold oarproperty. pose proof (body_kept l d) as H. destruct (body l d) as [r|r|r]; cbn [fst snd flow_all] in *; try discriminate. intros _ d' Hd. destruct H as (_ & H & _). by destruct (H d' Hd).
Qed.
Lemma delete_does ps : forall r, Forall valid_name ps -> NoDup ps -> (forall p, p ∈ ps -> p ∈ c_name <$> pending r) ->
  exists r', do_delete false ps r = Go r' /\ durable r' = durable r /\ pending r' = filter (fun c => c_name c ∉ ps) (pending r) /\ notes r' = notes r ++ (Deleted <$> ps).
Proof.
  induction ps as [|p ps IH]; intros r HV HN HI; cbn [do_delete].
  - exists r. split; [done|]. split; [done|]. split; [|by rewrite app_nil_r]. symmetry. generalize (pending r). clear. intros cs. induction cs as [|c cs IH]; [done|]. rewrite filter_cons_True by apply not_elem_of_nil. by rewrite IH.
  - apply Forall_cons in HV as [V1 V2]. apply NoDup_cons in HN as [N1 N2]. apply bad_name_none in V1 as ->. rewrite bool_decide_true by (apply HI, elem_of_cons; by left).
    destruct (IH (say (Deleted p) (with_pending (filter (fun c => c_name c <> p) (pending r)) r)) V2 N2) as (r' & E1 & E2 & E3 & E4).
    + intros x Hx. cbn [pending say with_pending]. assert (Hx' : x ∈ c_name <$> pending r) by (apply HI, elem_of_cons; by right). apply elem_of_list_fmap in Hx' as (c & -> & Hc).
      apply elem_of_list_fmap. exists c. split; [done|]. apply elem_of_list_filter. split; [|done]. intros E. by rewrite E in Hx.
    + exists r'. split; [done|]. split; [done|]. split.
      * rewrite E3. cbn [pending say with_pending]. generalize (pending r). clear. intros cs. induction cs as [|c cs IH]; [done|]. destruct (decide (c_name c = p)) as [E|E].
        -- rewrite (filter_cons_False (fun c => c_name c <> p)) by tauto. rewrite (filter_cons_False (fun c => c_name c ∉ p :: ps)) by (rewrite not_elem_of_cons; tauto). done.
        -- rewrite (filter_cons_True (fun c => c_name c <> p)) by done. destruct (decide (c_name c ∈ ps)) as [H|H].
           ++ rewrite !filter_cons_False by (rewrite ?not_elem_of_cons; tauto). done.
           ++ rewrite !filter_cons_True by (rewrite ?not_elem_of_cons; tauto). by rewrite IH.
      * rewrite E4. cbn [notes say with_pending]. by rewrite <- app_assoc.
Qed.
Theorem C195_delete ps d : Forall valid_name ps -> NoDup ps -> (forall p, p ∈ ps -> p ∈ c_name <$> cols d) ->
  exists n h, oarproperty (delete_line ps) d = (Ok n, h) /\ cols (final d h) = filter (fun c => c_name c ∉ ps) (cols d) /\ same_rows d (final d h) /\ (forall d', d' ∈ h -> cols d' = cols d \/ d' = final d h).
Proof.
  intros HV HN HI. destruct (delete_does ps (mkRun [d] (cols d) []) HV HN HI) as (r' & E1 & E2 & E3 & E4).
  unfold oarproperty, body, delete_line. cbn [pl_quiet pl_delete pl_add pl_rename pl_text]. rewrite E1. cbn [andthen do_add do_rename]. unfold commit_columns. rewrite E2. cbn [durable].
  eexists _, _. split; [reflexivity|]. unfold final. cbn [head default from_option id cols]. rewrite E3. split; [done|]. split; [done|]. intros d' [->|H]%elem_of_cons; [by right|]. apply elem_of_list_singleton in H as ->. by left.
Qed.
Lemma add_does text known n ps : forall r, Forall valid_name ps -> Forall (fun p => exists c s, p = String c s /\ ~ blank_char c) ps -> NoDup ps -> (forall p, p ∈ ps -> p ∉ c_name <$> pending r /\ p ∉ known) ->
  exists r', do_add false text known n ps r = Go r' /\ durable r' = durable r /\ pending r' = pending r ++ ((fun p => mkColumn p text (repeat None n)) <$> ps) /\ notes r' = notes r ++ (Added <$> ps).
Proof.
  induction ps as [|p ps IH]; intros r HV HB HN HI; cbn [do_add].
  - exists r. cbn [fmap list_fmap]. by rewrite !app_nil_r.
  - apply Forall_cons in HV as [V1 V2], HB as [(c & s & -> & B1) B2]. apply NoDup_cons in HN as [N1 N2]. cbv zeta. rewrite (lstrip_start c s B1). apply bad_name_none in V1 as ->.
    destruct (HI (String c s)) as [I1 I2]; [apply elem_of_cons; by left|]. rewrite (bool_decide_false _ I2), (bool_decide_false _ I1), bool_decide_false by done. cbn [orb].
    destruct (IH (say (Added (String c s)) (with_pending (pending r ++ [mkColumn (String c s) text (repeat None n)]) r)) V2 B2 N2) as (r' & E1 & E2 & E3 & E4).
    + intros x Hx. cbn [pending say with_pending]. destruct (HI x) as [J1 J2]; [apply elem_of_cons; by right|]. split; [|done]. rewrite fmap_app, elem_of_app. intros [?|H]; [done|]. apply elem_of_list_singleton in H. cbn [c_name] in H. congruence.
    + exists r'. split; [done|]. split; [done|]. rewrite E3, E4. cbn [pending notes say with_pending]. by rewrite <- !app_assoc.
Qed.
Theorem C195_add text ps d : Forall valid_name ps -> Forall (fun p => exists c s, p = String c s /\ ~ blank_char c) ps -> NoDup ps -> (forall p, p ∈ ps -> p ∉ c_name <$> cols d) ->
  exists n h, oarproperty (add_line text ps) d = (Ok n, h) /\ cols (final d h) = cols d ++ ((fun p => mkColumn p text (repeat None (nres d))) <$> ps) /\ same_rows d (final d h) /\ (forall d', d' ∈ h -> cols d' = cols d \/ d' = final d h).
Proof.
  intros HV HB HN HI. destruct (add_does text (c_name <$> cols d) (nres d) ps (mkRun [d] (cols d) []) HV HB HN) as (r' & E1 & E2 & E3 & E4); [intros p Hp; split; by apply HI|].
  unfold oarproperty, body, add_line. cbn [pl_quiet pl_delete pl_add pl_rename pl_text do_delete]. cbn [andthen]. rewrite E1. cbn [andthen do_rename]. unfold commit_columns. rewrite E2. cbn [durable].
  eexists _, _. split; [reflexivity|]. unfold final. cbn [head default from_option id cols]. rewrite E3. split; [done|]. split; [done|]. intros d' [->|H]%elem_of_cons; [by right|]. apply elem_of_list_singleton in H as ->. by left.
Qed.
Lemma split2 p q : none_of "," p -> none_of "," q -> split_on "," (p +:+ "," +:+ q) = [p; q].
Proof. rewrite !none_lacks. intros H1 H2. change ("," +:+ q)%string with (String "," q). rewrite split_on_sep by done. by rewrite split_on_lacks. Qed.
Lemma rename_rows_does p q d : NoDup (fst <$> preqs d) -> (forall g o v, (g, o, q, v) ∉ preqs d) -> exists d', rename_rows p q d = Some d' /\ cols d' = cols d /\ nres d' = nres d /\ renamed_rows p q d d'.
Proof.
  intros HN HQ. unfold rename_rows. cbv zeta. rewrite bool_decide_true.
  - eexists. split; [reflexivity|]. split; [done|]. split; [done|]. unfold renamed_rows. cbn [plogs preqs]. rewrite !fmap_length. split; [done|]. split; [done|].
    assert (HR : forall x, rename_in p q x = if decide (x = p) then q else x). { intros x. unfold rename_in. destruct (decide (x = p)); [by rewrite bool_decide_true|by rewrite bool_decide_false]. }
    split; [intros i x n Hi|intros i g o x v Hi]; rewrite list_lookup_fmap, Hi; cbn [fmap option_fmap option_map fst snd]; by rewrite HR.
  - unfold request_key. rewrite <- list_fmap_compose. induction (preqs d) as [|[[[g o] x] v] l IH]; [constructor|]. rewrite fmap_cons in HN |- *. apply NoDup_cons in HN as [N1 N2]. apply NoDup_cons. split.
    + intros ([[[g' o'] x'] v'] & E & Hin)%elem_of_list_fmap. cbn in E. injection E as -> -> E. apply N1. apply elem_of_list_fmap. exists (g', o', x', v'). split; [|done]. cbn [fst]. f_equal.
      unfold rename_in in E. destruct (bool_decide (x = p)) eqn:Ex, (bool_decide (x' = p)) eqn:Ex'; [apply bool_decide_eq_true in Ex, Ex'; congruence| | |done].
      * subst x'. destruct (HQ g' o' v'). apply elem_of_cons. by right.
      * subst x. destruct (HQ g' o' v). apply elem_of_cons. by left.
    + apply IH; [done|]. intros g' o' v' H. apply (HQ g' o' v'), elem_of_cons. by right.
Qed.
Theorem C196_rename p q d : valid_name p -> valid_name q -> none_of "," p -> none_of "," q -> q <> ""%string -> well_formed d ->
  p ∈ c_name <$> cols d -> q ∉ c_name <$> cols d -> (forall g o v, (g, o, q, v) ∉ preqs d) ->
  exists n h, oarproperty (rename_line p q) d = (Ok n, h) /\
    cols (final d h) = (fun c => if decide (c_name c = p) then mkColumn q (c_text c) (c_cells c) else c) <$> cols d /\ renamed_rows p q d (final d h).
Proof.
  intros Vp Vq Cp Cq Q0 [_ HN] Hp Hq HQ. destruct (rename_rows_does p q d HN HQ) as (d1 & E1 & E2 & E3 & E4).
  unfold oarproperty, body, rename_line. cbn [pl_quiet pl_delete pl_add pl_rename pl_text do_delete andthen do_add do_rename]. rewrite (split2 p q Cp Cq).
  apply bad_name_none in Vp as ->, Vq as ->. cbn [pending durable]. rewrite (bool_decide_true _ Hp), (bool_decide_false _ Hq), (bool_decide_false _ Q0). cbn [negb orb]. rewrite E1. cbn [notes]. unfold commit_columns. cbn [say durable pending].
  eexists _, _. split; [reflexivity|]. unfold final. cbn [head default from_option id cols]. split.
  - apply list_fmap_ext. intros i c _. unfold rename_col. destruct (decide (c_name c = p)); [by rewrite bool_decide_true|by rewrite bool_decide_false].
  - destruct E4 as (L1 & L2 & L3 & L4). split; [done|]. split; [done|]. split; done.
Qed.
Definition sample : props := mkProps [mkColumn "resource_id" false [Some "1"; Some "2"]; mkColumn "core" false [Some "4"; Some "8"]; mkColumn "disk" true [Some "ssd"; None]]%string 2
  [("core"%string, 1); ("disk"%string, 2)] [(7, 0, "core"%string, 2); (7, 1, "disk"%string, 1)].
(** A crash between the two commits: the requests name a property that is not there. *)
Theorem C196_crash_refuted : exists p q d', valid_name p /\ valid_name q /\ d' ∈ snd (oarproperty (rename_line p q) sample) /\
  cols d' = cols sample /\ preqs d' = [(7, 0, q, 2); (7, 1, "disk"%string, 1)] /\ q ∉ c_name <$> cols d'.
Proof.
  exists "core"%string, "cpu"%string, (mkProps (cols sample) 2 [("cpu"%string, 1); ("disk"%string, 2)] [(7, 0, "cpu"%string, 2); (7, 1, "disk"%string, 1)]).
  split; [apply bad_name_none; vm_compute; done|]. split; [apply bad_name_none; vm_compute; done|]. split; [|split; [done|split; [done|by_dec]]].
  apply elem_of_list_lookup. exists 1%nat. vm_compute. reflexivity.
Qed.
(** Without a crash: the same property renamed twice in one command. *)
Theorem C196_twice_refuted : exists h, oarproperty (mkPline [] [] false ["core,cpu"; "core,cpus"]%string false) sample = (Err EValue, h) /\
  cols (final sample h) = cols sample /\ preqs (final sample h) = [(7, 0, "cpu"%string, 2); (7, 1, "disk"%string, 1)] /\ plogs (final sample h) = [("cpu"%string, 1); ("disk"%string, 2)].
Proof. eexists. vm_compute. done. Qed.
(** A property deleted and added in one command is lost; a refused name ends the command after some deletions, with exit value 0. *)
Theorem C195_together_refuted :
  (exists n h, oarproperty (mkPline ["disk"] ["disk"] false [] false)%string sample = (Ok n, h) /\ c_name <$> cols (final sample h) = ["resource_id"; "core"]%string) /\
  (exists n h, oarproperty (mkPline ["disk"; "state"] [] false [] false)%string sample = (Ok n, h) /\ n = [Deleted "disk"; System "state"]%string /\
     fst (get_exit_value (mkReturns (exit_of <$> n) 0)) = 0 /\ c_name <$> cols (final sample h) = ["resource_id"; "core"]%string).
Proof. split; eexists _, _; vm_compute; done. Qed.
Theorem C195_case : valid_name "disk" /\ valid_name "gpu model" /\ ~ valid_name "state" /\ c_name <$> cols (final sample (snd (oarproperty (delete_line ["disk"%string]) sample))) = ["resource_id"; "core"]%string /\
  cols (final sample (snd (oarproperty (add_line true ["gpu"%string]) sample))) = cols sample ++ [mkColumn "gpu" true [None; None]].
Proof. split; [apply bad_name_none; vm_compute; done|]. split; [apply bad_name_none; vm_compute; done|]. split; [|vm_compute; done]. intros [_ H]. apply H. by_dec. Qed.
(** A property that is there is not changed by an addition... *)
Theorem C197_exists text p d : (exists c s, p = String c s /\ ~ blank_char c) -> p ∈ c_name <$> cols d -> cols (final d (snd (oarproperty (add_line text [p]) d))) = cols d.
Proof.
  intros (c & s & -> & B) Hp. unfold oarproperty, body, add_line. cbn [pl_quiet pl_delete pl_add pl_rename pl_text do_delete andthen do_add]. cbv zeta. rewrite (lstrip_start c s B).
  destruct (bad_name (String c s)); [done|]. rewrite (bool_decide_true _ Hp). by destruct text.
Qed.
(** ...but the difference of types is told when there is none, and not told when there is one. *)
Theorem C197_type_refuted :
  fst (oarproperty (add_line true ["disk"%string]) sample) = Ok [Mismatch "disk"] /\ exit_of (Mismatch "disk") = 2 /\ In (mkColumn "disk" true [Some "ssd"; None])%string (cols sample) /\
  fst (oarproperty (add_line false ["disk"%string]) sample) = Ok [Exists "disk"] /\ exit_of (Exists "disk") = 0.
Proof. split; [vm_compute; done|]. split; [done|]. split; [right; right; by left|]. split; [vm_compute; done|done]. Qed.
Print Assumptions C190_status.
Print Assumptions C190_again_refuted.
Print Assumptions C190_again.
Print Assumptions C191_rights.
Print Assumptions C191_effect.
Print Assumptions C191_no_user_refuted.
Print Assumptions C193_text.
Print Assumptions C192_effect.
Print Assumptions C193_impossible.
Print Assumptions C192_unique.
Print Assumptions C192_unknown_refuted.
Print Assumptions C192_two_refuted.
Print Assumptions C192_case.
Print Assumptions C192_list.
Print Assumptions C194_protected.
Print Assumptions C195_exception.
Print Assumptions C195_delete.
Print Assumptions C195_add.
Print Assumptions C196_rename.
Print Assumptions C196_crash_refuted.
Print Assumptions C196_twice_refuted.
Print Assumptions C195_together_refuted.
Print Assumptions C195_case.
Print Assumptions C197_exists.
Print Assumptions C197_type_refuted.
