(** Resource requests: properties C48, C94, C95. *)
From Verif Require Import Base TimeModel TimeProps HierarchyModel HierarchySpec HierarchyProofs HierarchyProps ReqModel ReqSpec.

(** ** Strings *)
Lemma lacks_sub bad c s : lacks bad s -> c ∈ bad -> lacks [c] s.
Proof.
  induction s as [|a s IH]; cbn [lacks]; [done|]. intros [H1 H2] Hc. split; [|by apply IH].
  intros ->%elem_of_list_singleton. done.
Qed.
Lemma lacks_app bad s t : lacks bad (s +:+ t) <-> lacks bad s /\ lacks bad t.
Proof.
  induction s as [|a s IH]; [cbn; tauto|].
  change (String a s +:+ t) with (String a (s +:+ t)). cbn [lacks]. rewrite IH. tauto.
Qed.
Lemma split_on_cons_eq c s : split_on c (String c s) = EmptyString :: split_on c s.
Proof. cbn [split_on]. rewrite bool_decide_true by done. done. Qed.
Lemma split_on_app c a s w ws : lacks [c] a -> split_on c s = w :: ws -> split_on c (a +:+ s) = (a +:+ w) :: ws.
Proof.
  intros Ha Hs. induction a as [|x a IH]; [done|]. destruct Ha as [Hx Ha].
  change (String x a +:+ s) with (String x (a +:+ s)). cbn [split_on].
  rewrite bool_decide_false; [rewrite (IH Ha); done|]. intros ->. apply Hx. left.
Qed.
Lemma app_nil_s s : s +:+ EmptyString = s.
Proof. induction s as [|a s IH]; [done|]. change (String a (s +:+ EmptyString) = String a s). by rewrite IH. Qed.
Lemma app_assoc_s a b c : (a +:+ b) +:+ c = a +:+ b +:+ c.
Proof. induction a as [|x a IH]; [done|]. change (String x ((a +:+ b) +:+ c) = String x (a +:+ b +:+ c)). by rewrite IH. Qed.
Lemma split_on_lacks c a : lacks [c] a -> split_on c a = [a].
Proof. intros Ha. rewrite <- (app_nil_s a) at 1. rewrite (split_on_app c a EmptyString EmptyString []); [by rewrite app_nil_s|done|done]. Qed.
Lemma split_on_sep c a s : lacks [c] a -> split_on c (a +:+ String c s) = a :: split_on c s.
Proof. intros Ha. rewrite (split_on_app c a _ EmptyString (split_on c s)); [by rewrite app_nil_s|done|apply split_on_cons_eq]. Qed.
Lemma cut_at_app c a s : lacks [c] a -> cut_at c (a +:+ String c s) = Some (a, s).
Proof.
  induction a as [|x a IH]; intros Ha.
  - change (EmptyString +:+ String c s) with (String c s). cbn [cut_at]. by rewrite bool_decide_true.
  - destruct Ha as [Hx Ha]. change (String x a +:+ String c s) with (String x (a +:+ String c s)). cbn [cut_at].
    rewrite bool_decide_false; [rewrite (IH Ha); done|]. intros ->. apply Hx. left.
Qed.
Lemma blank_space a : is_blank a = true -> is_space a.
Proof.
  intros H. unfold is_space. apply elem_of_list_fmap. exists (nat_of_ascii a).
  split; [by rewrite ascii_nat_embedding|]. unfold is_blank in H.
  set (n := nat_of_ascii a) in *. clearbody n.
  assert (C : (n = 9 \/ n = 10 \/ n = 11 \/ n = 12 \/ n = 13 \/ n = 28 \/ n = 29 \/ n = 30 \/ n = 31 \/ n = 32)%nat) by lia.
  rewrite !elem_of_cons. intuition.
Qed.

(** ** The meaning of a request *)
Definition mean_val (v : uval) : rval :=
  match v with UAll => RInt (-1) | UBest => RInt (-2) | UHalf => RInt (-3) | UNum s => RText s end.
Definition mean_level (nodes : string) (l : string * uval) : level :=
  ((if bool_decide (fst l = "nodes"%string) then nodes else fst l), mean_val (snd l)).
Definition mean_group (nodes : string) (g : ugroup) : group := (fst g, mean_level nodes <$> snd g).

Definition body (l : string * uval) : string := fst l +:+ "=" +:+ print_val (snd l).
Lemma body_lacks l c : good_name (fst l) -> good_val (snd l) -> c ∈ ["/"; "+"; ","]%char -> lacks [c] (body l).
Proof.
  intros [H1 _] H2 Hc. unfold body. rewrite !lacks_app.
  assert (Hc' : c ∈ ["/"; "="; "+"; ","]%char) by (revert Hc; rewrite !elem_of_cons; tauto).
  split; [by eapply lacks_sub|]. split.
  - cbn. split; [|done]. intros He%elem_of_list_singleton. subst c.
    rewrite !elem_of_cons, elem_of_nil in Hc. destruct Hc as [?|[?|[?|?]]]; discriminate || done.
  - destruct (snd l); cbn [print_val]; [| | |by eapply lacks_sub; [apply H2|]];
      cbn [lacks]; rewrite !elem_of_list_singleton;
      rewrite !elem_of_cons, elem_of_nil in Hc;
      destruct Hc as [->|[->|[->|[]]]]; repeat split; discriminate.
Qed.
Lemma split_levels (ls : list (string * uval)) : Forall (fun l => good_name (fst l) /\ good_val (snd l)) ls ->
  split_on "/" (foldr (fun l s => print_level l +:+ s) EmptyString ls) = EmptyString :: (body <$> ls).
Proof.
  induction 1 as [|l ls [H1 H2] Hls IH]; [done|]. cbn [foldr].
  change (print_level l) with (String "/" (body l)).
  change (String "/" (body l) +:+ ?s) with (String "/" (body l +:+ s)).
  rewrite split_on_cons_eq. rewrite fmap_cons. f_equal.
  rewrite (split_on_app _ _ _ _ _ (body_lacks l "/" H1 H2 ltac:(left)) IH). by rewrite app_nil_s.
Qed.
Lemma lstrip_body l : good_name (fst l) -> lstrip (body l) = body l /\ body l <> EmptyString.
Proof.
  intros [_ H]. unfold body. destruct (fst l) as [|a s]; [done|].
  change (String a s +:+ ?x) with (String a (s +:+ x)). split; [|done]. cbn [lstrip].
  destruct (is_blank a) eqn:E; [|done]. apply blank_space in E. done.
Qed.
Lemma parse_level_body nodes l : good_name (fst l) -> good_val (snd l) ->
  parse_level nodes (body l) = Ok (mean_level nodes l, if special (snd l) then 1 else 0).
Proof.
  intros H1 H2. unfold parse_level. destruct (lstrip_body l H1) as [-> _]. unfold body.
  change ("=" +:+ print_val (snd l)) with (String "=" (print_val (snd l))).
  rewrite split_on_sep by (eapply lacks_sub; [apply H1|right; left]).
  rewrite split_on_lacks.
  - destruct (snd l) as [| | |s] eqn:E; unfold mean_level; rewrite ?E; cbn [print_val special mean_val]; [done|done|done|].
    destruct H2 as (_ & A & B & C). rewrite !bool_decide_false by done. done.
  - destruct (snd l); cbn [print_val]; [| | |eapply lacks_sub; [apply H2|right; left]];
      cbn [lacks]; rewrite !elem_of_list_singleton; repeat split; discriminate.
Qed.
Lemma parse_levels_bodies nodes (ls : list (string * uval)) :
  Forall (fun l => good_name (fst l) /\ good_val (snd l)) ls ->
  forall count acc, count <= 1 ->
  parse_levels nodes (body <$> ls) count acc =
  Ok (if count + Z.of_nat (length (base.filter (fun l => special (snd l) = true) ls)) <=? 1
      then Some (acc ++ (mean_level nodes <$> ls)) else None).
Proof.
  induction 1 as [|l ls [H1 H2] Hls IH]; intros count acc Hc.
  - cbn [fmap list_fmap parse_levels base.filter list_filter length]. rewrite app_nil_r.
    destruct (_ <=? 1) eqn:E; [done|]. cbn in E. lia.
  - rewrite !fmap_cons. cbn [parse_levels]. destruct (lstrip_body l H1) as [Hl Hne]. rewrite Hl.
    rewrite bool_decide_false by done. rewrite (parse_level_body nodes l H1 H2). cbn [rbind].
    rewrite filter_cons. destruct (special (snd l)) eqn:E.
    + rewrite decide_True by done. cbn [length]. destruct (1 <? count + 1) eqn:E1.
      * destruct (_ <=? 1) eqn:E2; [lia|done].
      * rewrite IH by lia. rewrite <- app_assoc. cbn [app].
        destruct (count + 1 + _ <=? 1) eqn:E2; destruct (count + _ <=? 1) eqn:E3; try lia; done.
    + rewrite decide_False by done. destruct (1 <? count + 0) eqn:E1; [lia|].
      rewrite IH by lia. rewrite <- app_assoc. cbn [app]. rewrite Z.add_0_r. done.
Qed.
Lemma match_property_group g : good_group g ->
  match match_property (print_group g) with Some pr => pr | None => (EmptyString, print_group g) end
  = (fst g, foldr (fun l s => print_level l +:+ s) EmptyString (snd g)).
Proof.
  intros [Hp Hls]. unfold print_group. destruct g as [p ls]. cbn [fst snd] in *.
  destruct (decide (p = EmptyString)) as [->|Hne].
  - rewrite bool_decide_true by done. change (EmptyString +:+ ?s) with s.
    destruct ls as [|l ls]; [done|]. cbn [foldr].
    change (print_level l) with (String "/" (body l)).
    change (String "/" (body l) +:+ ?s) with (String "/" (body l +:+ s)).
    destruct (body l +:+ _); done.
  - rewrite bool_decide_false by done. destruct p as [|b p]; [done|]. rewrite app_assoc_s.
    change ("{" +:+ ?s) with (String "{" s). rewrite app_assoc_s.
    change (String b p +:+ ?s) with (String b (p +:+ s)). cbn [match_property].
    rewrite bool_decide_true by done. change ("}" +:+ ?s) with (String "}" s).
    rewrite cut_at_app; [done|]. eapply lacks_sub; [apply Hp|]. right; right; left.
Qed.
Lemma parse_group_print nodes g : good_group g ->
  parse_group nodes (print_group g) = Ok (if (specials g <=? 1)%nat then Some (mean_group nodes g) else None).
Proof.
  intros H. unfold parse_group. rewrite (match_property_group g H).
  destruct H as [Hp Hls]. rewrite split_levels by done. cbn [parse_levels].
  rewrite bool_decide_true by done. rewrite parse_levels_bodies by done || lia. cbn [rbind].
  unfold specials, mean_group. rewrite Z.add_0_l.
  destruct (_ <=? 1) eqn:E1; destruct (_ <=? 1)%nat eqn:E2; try lia; done.
Qed.
Lemma parse_groups_print nodes gs : Forall good_group gs ->
  parse_groups nodes (print_group <$> gs) =
  Ok (if forallb (fun g => specials g <=? 1)%nat gs then Some (mean_group nodes <$> gs) else None).
Proof.
  induction 1 as [|g gs Hg Hgs IH]; [done|]. rewrite !fmap_cons. cbn [parse_groups forallb].
  rewrite parse_group_print by done. cbn [rbind].
  destruct (specials g <=? 1)%nat; [|done]. rewrite IH. cbn [rbind andb].
  destruct (forallb _ gs); done.
Qed.
Lemma print_group_lacks g c : good_group g -> c ∈ ["+"; ","]%char -> lacks [c] (print_group g).
Proof.
  intros [Hp Hls] Hc. unfold print_group. rewrite lacks_app. split.
  - destruct (bool_decide (fst g = EmptyString)); [done|]. rewrite !lacks_app. split; [|split].
    + cbn. split; [|done]. rewrite elem_of_list_singleton. intros <-.
      rewrite !elem_of_cons, elem_of_nil in Hc. destruct Hc as [?|[?|[]]]; discriminate.
    + eapply lacks_sub; [exact Hp|]. revert Hc. rewrite !elem_of_cons. tauto.
    + cbn. split; [|done]. rewrite elem_of_list_singleton. intros <-.
      rewrite !elem_of_cons, elem_of_nil in Hc. destruct Hc as [?|[?|[]]]; discriminate.
  - induction Hls as [|l ls [H1 H2] _ IH]; [done|]. cbn [foldr]. rewrite lacks_app. split; [|done].
    change (print_level l) with (String "/" (body l)). cbn [lacks]. split.
    + rewrite elem_of_list_singleton. intros <-.
      rewrite !elem_of_cons, elem_of_nil in Hc. destruct Hc as [?|[?|[]]]; discriminate.
    + apply body_lacks; [done|done|]. by right.
Qed.
Lemma split_join_plus (l : list string) : l <> [] -> Forall (lacks ["+"%char]) l -> split_on "+" (join_plus l) = l.
Proof.
  induction l as [|s l IH]; [done|]. intros _ H. inversion H as [|? ? H1 H2]; subst.
  destruct l as [|t l]; [by apply split_on_lacks|].
  change (join_plus (s :: t :: l)) with (s +:+ String "+" (join_plus (t :: l))).
  rewrite split_on_sep by done. rewrite IH; done.
Qed.
Lemma join_plus_lacks c (l : list string) : c <> "+"%char -> Forall (lacks [c]) l -> lacks [c] (join_plus l).
Proof.
  intros Hc. induction l as [|s l IH]; [done|]. intros H. inversion H as [|? ? H1 H2]; subst.
  destruct l as [|t l]; [done|].
  change (join_plus (s :: t :: l)) with (s +:+ String "+" (join_plus (t :: l))).
  rewrite lacks_app. split; [done|]. cbn [lacks]. split; [|by apply IH].
  rewrite elem_of_list_singleton. congruence.
Qed.
Lemma join_plus_start (gs : list ugroup) : Forall good_group gs ->
  starts_walltime (join_plus (print_group <$> gs)) = false.
Proof.
  intros H. assert (A : forall g, good_group g ->
     (exists t, print_group g = String "{" t) \/ (exists t, print_group g = String "/" t) \/ print_group g = EmptyString).
  { intros g [Hp Hls]. unfold print_group. destruct g as [p ls]; cbn [fst snd] in *.
    destruct (bool_decide (p = EmptyString)).
    - change (EmptyString +:+ ?s) with s. destruct ls as [|l ls]; [by right; right|]. right; left. cbn [foldr].
      change (print_level l) with (String "/" (body l)). eexists. reflexivity.
    - left. eexists. reflexivity. }
  destruct H as [|g gs Hg Hgs]; [done|]. rewrite fmap_cons. unfold starts_walltime.
  destruct (A g Hg) as [[t Ht]|[[t Ht]|Ht]]; rewrite Ht; destruct (print_group <$> gs); done.
Qed.

(** ** C94: the request as written is the request as understood *)
Theorem C94_understood : forall nodes default_resources (req : list uinst) (walls : list (option Z)),
  req <> [] -> Forall good_inst req ->
  Forall2 (fun i w => match snd i with None => w = None | Some s => w = hms_str_to_duration s /\ w <> None end) req walls ->
  parse_request (print_inst <$> req) default_resources nodes =
  Ok (if forallb (fun i => forallb (fun g => specials g <=? 1)%nat (fst i)) req
      then Some (zip_with (fun i w => (mean_group nodes <$> fst i, w)) req walls) else None).
Proof.
  intros nodes dr req walls Hne Hg Hw. unfold parse_request.
  destruct (print_inst <$> req) as [|s0 l0] eqn:E; [by apply fmap_nil_inv in E|]. rewrite <- E. clear E s0 l0 Hne.
  induction Hw as [|i w req walls Hi Hw IH]; [done|]. inversion Hg as [|? ? Hgi Hgr]; subst.
  rewrite fmap_cons. cbn [parse_moldables forallb zip_with].
  assert (P : parse_moldable dr nodes (print_inst i) =
     Ok (if forallb (fun g => specials g <=? 1)%nat (fst i) then Some (mean_group nodes <$> fst i, w) else None)).
  { destruct Hgi as (Hn & Hgs & Hwt). unfold parse_moldable, print_inst.
    assert (Hc : lacks [","%char] (join_plus (print_group <$> fst i))).
    { apply join_plus_lacks; [discriminate|]. apply Forall_fmap. eapply Forall_impl; [exact Hgs|].
      intros g Hgg. apply print_group_lacks; [done|]. right; left. }
    assert (Hp : split_on "+" (join_plus (print_group <$> fst i)) = print_group <$> fst i).
    { apply split_join_plus; [by destruct (fst i)|]. apply Forall_fmap. eapply Forall_impl; [exact Hgs|].
      intros g Hgg. apply print_group_lacks; [done|]. left. }
    destruct (snd i) as [t|].
    - change (",walltime=" +:+ t) with (String "," ("walltime=" +:+ t)). rewrite split_on_sep by done.
      rewrite join_plus_start by done.
      assert (L2 : lacks [","%char] ("walltime=" +:+ t)).
      { rewrite lacks_app. split; [|eapply lacks_sub; [exact Hwt|right; left]].
        cbn [lacks]. rewrite !elem_of_list_singleton. repeat split; discriminate. }
      rewrite (split_on_lacks "," ("walltime=" +:+ t)) by done.
      assert (L3 : split_on "=" ("walltime=" +:+ t) = ["walltime"%string; t]).
      { change ("walltime=" +:+ t) with ("walltime" +:+ String "=" t). rewrite split_on_sep.
        - rewrite split_on_lacks; [done|]. eapply lacks_sub; [exact Hwt|left].
        - cbn [lacks]. rewrite !elem_of_list_singleton. repeat split; discriminate. }
      rewrite L3. destruct Hi as [-> Hi]. destruct (hms_str_to_duration t) as [z|]; [|done]. cbn [rbind].
      rewrite Hp, parse_groups_print by done. cbn [rbind]. destruct (forallb _ (fst i)); done.
    - subst w. rewrite app_nil_s. rewrite (split_on_lacks "," _ Hc). rewrite join_plus_start by done. cbn [rbind].
      rewrite Hp, parse_groups_print by done. cbn [rbind]. destruct (forallb _ (fst i)); done. }
  rewrite P. cbn [rbind]. destruct (forallb _ (fst i)); [|done].
  specialize (IH Hgr). rewrite IH. cbn [rbind andb]. destruct (forallb _ req); done.
Qed.

(** A moldable request, two groups, one with a condition, one special value. *)
Definition ex_req : list uinst :=
  [([("cputype = 'x/y'", [("switch", UNum "2"); ("nodes", UBest)]); ("", [("licence", UNum "1")])], Some "2:00:00");
   ([("", [("nodes", UNum "4")])], None)]%string.
Example C94_example :
  print_inst <$> ex_req = ["{cputype = 'x/y'}/switch=2/nodes=BEST+/licence=1,walltime=2:00:00"; "/nodes=4"]%string /\
  parse_request (print_inst <$> ex_req) "/nodes=1" "network_address" =
    Ok (Some [([("cputype = 'x/y'", [("switch", RText "2"); ("network_address", RInt (-2))]); ("", [("licence", RText "1")])], Some 7200);
              ([("", [("network_address", RText "4")])], None)]%string).
Proof. split; vm_compute; reflexivity. Qed.

(** The condition of a group cannot hold a comma or a plus: the text is cut there.  Here a condition on two
    values becomes a level named "{t" with no condition, and the number of nodes a walltime of one hour. *)
Theorem C94_comma_refuted : exists s,
  s = print_inst ([("t='a,b'", [("nodes", UNum "1")])], None)%string /\
  parse_request [s] "/nodes=1" "network_address" = Ok (Some [([("", [("{t", RText "'a")])], Some 3600)]%string).
Proof. eexists. split; [reflexivity|]. vm_compute. reflexivity. Qed.

Lemma split_on_nonempty c s : exists w ws, split_on c s = w :: ws.
Proof.
  induction s as [|a s (w & ws & IH)]; cbn [split_on]; [eauto|].
  destruct (bool_decide (a = c)); [eauto|]. rewrite IH. eauto.
Qed.
(** A second comma after the walltime makes the walltime vanish, without a word. *)
Theorem C94_second_comma_refuted : forall default_resources nodes a b c m,
  lacks [","%char] a -> lacks [","%char] b -> starts_walltime a = false ->
  parse_moldable default_resources nodes (a +:+ String "," (b +:+ String "," c)) = Ok (Some m) -> snd m = None.
Proof.
  intros dr nodes a b c m Ha Hb Hs H. unfold parse_moldable in H. rewrite split_on_sep in H by done.
  rewrite split_on_sep in H by done. rewrite Hs in H.
  destruct (split_on_nonempty "," c) as (w & ws & Hc). rewrite Hc in H. cbn [rbind] in H.
  apply rbind_Ok in H as (gs & _ & H). destruct gs; [|discriminate]. injection H as <-. done.
Qed.
Example C94_second_comma_example :
  parse_request ["/nodes=2,walltime=1:00:00,"%string] "/nodes=1" "network_address" =
  Ok (Some [([("", [("network_address", RText "2")])], None)]%string).
Proof. vm_compute. reflexivity. Qed.

(** ** C48: the special values *)
Definition rspecial (l : level) : bool := match snd l with RInt _ => true | RText _ => false end.
Lemma parse_level_count nodes s v n : parse_level nodes s = Ok (v, n) -> n = if rspecial v then 1 else 0.
Proof.
  unfold parse_level. destruct (split_on "=" (lstrip s)) as [|r [|x [|]]]; try discriminate.
  destruct (bool_decide _); [intros [= <- <-]; done|].
  destruct (bool_decide _); [intros [= <- <-]; done|].
  destruct (bool_decide _); intros [= <- <-]; done.
Qed.
Lemma parse_levels_count nodes l : forall count acc r,
  count = Z.of_nat (length (base.filter (fun x => rspecial x = true) acc)) -> count <= 1 ->
  parse_levels nodes l count acc = Ok (Some r) ->
  (length (base.filter (fun x => rspecial x = true) r) <= 1)%nat.
Proof.
  induction l as [|s l IH]; intros count acc r Hc Hle H; cbn [parse_levels] in H.
  - injection H as <-. lia.
  - destruct (bool_decide _); [by eapply IH|].
    destruct (parse_level nodes s) as [[v n]|e] eqn:E; [|discriminate]. cbn [rbind] in H.
    apply parse_level_count in E.
    destruct (1 <? count + n) eqn:E1; [discriminate|]. eapply IH; [| |exact H]; [|lia].
    rewrite filter_app, app_length, filter_cons, filter_nil.
    destruct (rspecial v); [rewrite decide_True by done|rewrite decide_False by done]; cbn [length]; lia.
Qed.
(** Whatever the text, no group of an accepted request has two levels with ALL, BEST or HALF_BEST. *)
Theorem C48_one_special : forall l default_resources nodes ms,
  parse_request l default_resources nodes = Ok (Some ms) ->
  forall m g, m ∈ ms -> g ∈ fst m -> (length (base.filter (fun x => rspecial x = true) (snd g)) <= 1)%nat.
Proof.
  intros l dr nodes ms. unfold parse_request. generalize (match l with [] => [dr] | _ => l end) as l'. clear l.
  assert (G : forall s g, parse_group nodes s = Ok (Some g) -> (length (base.filter (fun x => rspecial x = true) (snd g)) <= 1)%nat).
  { intros s g H. unfold parse_group in H. destruct (match match_property s with Some pr => pr | None => _ end) as [p rest].
    apply rbind_Ok in H as (ls & H1 & H2). destruct ls as [ls|]; [|discriminate]. injection H2 as <-. cbn [snd].
    eapply parse_levels_count; [| |exact H1]; [done|lia]. }
  assert (GS : forall ss gs, parse_groups nodes ss = Ok (Some gs) -> Forall (fun g => length (base.filter (fun x => rspecial x = true) (snd g)) <= 1)%nat gs).
  { induction ss as [|s ss IH]; intros gs H; cbn [parse_groups] in H; [injection H as <-; constructor|].
    apply rbind_Ok in H as (g & H1 & H2). destruct g as [g|]; [|discriminate].
    apply rbind_Ok in H2 as (gs' & H3 & H4). destruct gs' as [gs'|]; [|discriminate]. injection H4 as <-.
    constructor; [by eapply G|by apply IH]. }
  intros l'. revert ms. induction l' as [|s l' IH]; intros ms H m g Hm Hg; cbn [parse_moldables] in H.
  - injection H as <-. by apply elem_of_nil in Hm.
  - apply rbind_Ok in H as (m0 & H1 & H2). destruct m0 as [m0|]; [|discriminate].
    apply rbind_Ok in H2 as (ms' & H3 & H4). destruct ms' as [ms'|]; [|discriminate]. injection H4 as <-.
    apply elem_of_cons in Hm as [->|Hm]; [|by eapply IH].
    unfold parse_moldable in H1. apply rbind_Ok in H1 as (w & _ & H1). apply rbind_Ok in H1 as (gs & H5 & H6).
    destruct gs as [gs|]; [|discriminate]. injection H6 as <-. apply GS in H5. rewrite Forall_forall in H5. by apply H5.
Qed.
(** A special value beside an ordinary level passes the check. *)
Theorem C48_two_levels_refuted :
  parse_request ["/switch=ALL/nodes=1"%string] "/nodes=1" "network_address" =
  Ok (Some [([("", [("switch", RInt (-1)); ("network_address", RText "1")])], None)]%string).
Proof. vm_compute. reflexivity. Qed.

(** Such a group never finds resources. *)
Lemma take_loop_empty f bks n acc : (forall b, f b = ∅) -> forall nb, take_loop f bks n nb acc = (nb, acc).
Proof.
  intros Hf. induction bks as [|b bks IH]; intros nb; cbn [take_loop]; [done|].
  destruct (nb =? n); [done|]. rewrite Hf.
  assert (nonempty ∅ = false) as -> by (by apply nonempty_false). apply IH.
Qed.
Lemma find_n_h_special itvs rest : forall top n,
  n < 0 \/ Exists (fun p => snd p < 0) rest -> find_n_h itvs top n rest = ∅.
Proof.
  induction rest as [|[lv m] rest IH]; intros top n H; [done|]. cbn [find_n_h].
  destruct (_ <? n); [done|].
  destruct (decide (Exists (fun p : list procset * Z => snd p < 0) ((lv, m) :: rest))) as [He|He].
  - assert (F : forall bk, match rest with [] => extract_n itvs (sub_blocks bk lv) m | _ => find_n_h itvs (children bk lv) m rest end = ∅).
    { intros bk. apply Exists_cons in He. cbn [snd] in He.
      destruct rest as [|p rest]; [|by apply IH].
      destruct He as [He|He]; [by apply extract_n_neg|by apply Exists_nil in He]. }
    rewrite (take_loop_empty _ _ n ∅ F). destruct (0 =? n); done.
  - assert (Hn : n < 0) by (destruct H; done).
    match goal with |- context [take_loop ?f ?b ?k ?z ?a] => pose proof (take_loop_neg f b k Hn z a ltac:(lia)) as T; destruct (take_loop f b k z a) as [nb acc] end.
    cbn [fst] in T. destruct (nb =? n) eqn:E; [lia|done].
Qed.
Lemma find_scattered_special itvs p q rest r : Exists (fun p => snd p < 0) (p :: q :: rest) ->
  find_scattered itvs (p :: q :: rest) = Ok r -> r = ∅.
Proof.
  destruct p as [lv n]. intros He H.
  assert (r = find_n_h itvs lv n (q :: rest)) as -> by (unfold find_scattered in H; congruence). apply find_n_h_special.
  apply Exists_cons in He as [He|He]; [by left|by right].
Qed.
Lemma read_levels_spec hy l ls : read_levels hy l = Ok (inr ls) ->
  Forall2 (fun x p => hy !! fst x = Some (fst p) /\ rval_int (snd x) = Ok (snd p)) l ls.
Proof.
  revert ls. induction l as [|[nm v] l IH]; intros ls H; cbn [read_levels] in H; [injection H as <-; constructor|].
  destruct (hy !! nm) as [lv|] eqn:E; [|discriminate].
  apply rbind_Ok in H as (n & Hn & H). apply rbind_Ok in H as (r & Hr & H).
  destruct r as [e|ls']; [discriminate|]. injection H as <-. constructor; [done|by apply IH].
Qed.

(** One group: two levels or more with a special value are refused one way or another. *)
Theorem C48_single_group : forall pf jprop prop ls w l,
  (2 <= length ls)%nat -> (exists x n, x ∈ ls /\ snd x = RInt n /\ n < 0) ->
  estimate pf jprop [([(prop, ls)], w)] <> Ok (inr l).
Proof.
  intros pf jprop prop ls w l Hlen (x & n & Hx & Hn & Hneg) H.
  unfold estimate in H. cbn [estimate_loop estimate_groups] in H.
  destruct (group_constraints pf jprop prop) as [cs|]; [|discriminate].
  destruct (read_levels (pf_hy pf) ls) as [r|e] eqn:Er; [|discriminate]. cbn [rbind] in H.
  destruct r as [e|levels]; [discriminate|].
  destruct (find_scattered (cs ∩ pf_all pf) levels) as [y|e] eqn:Ef; [|discriminate]. cbn [rbind] in H.
  apply read_levels_spec in Er.
  assert (He : Exists (fun p => snd p < 0) levels).
  { clear Hlen Ef H. induction Er as [|a p ls' levels' [H1 H2] _ IH]; [by apply elem_of_nil in Hx|].
    apply elem_of_cons in Hx as [->|Hx]; [left|right; by apply IH].
    rewrite Hn in H2. cbn in H2. injection H2 as <-. done. }
  apply Forall2_length in Er. unfold level in *. destruct levels as [|p [|q rest]]; [cbn in Er; lia|cbn in Er; lia|].
  apply find_scattered_special in Ef; [|done]. subst y. rewrite size_empty in H. cbn in H. discriminate.
Qed.

(** ** C95: the estimate *)
(** The groups of an instance as the scheduler sees them: levels with numbers, and the resources meeting the
    conditions of the job and of the group. *)
Definition sees (pf : platform) (jprop : string) (g : group) (h : rgroup) : Prop :=
  Forall2 (fun x y => fst x = fst y /\ rval_int (snd x) = Ok (snd y)) (snd g) (fst h) /\
  group_constraints pf jprop (fst g) = Some (snd h).

Lemma estimate_groups_spec pf jprop gs : forall acc n, 0 <= acc ->
  estimate_groups pf jprop gs acc = Ok (inr n) ->
  exists xs, n = acc + fold_right (fun (x : procset) s => Z.of_nat (size x) + s) 0 xs /\
    Forall2 (fun g x => exists cs levels, group_constraints pf jprop (fst g) = Some cs /\
       read_levels (pf_hy pf) (snd g) = Ok (inr levels) /\ find_scattered (cs ∩ pf_all pf) levels = Ok x) gs xs.
Proof.
  induction gs as [|[p ls] gs IH]; intros acc n Hacc H; cbn [estimate_groups] in H.
  - injection H as <-. exists []. split; [cbn; lia|constructor].
  - destruct (group_constraints pf jprop p) as [cs|] eqn:Ec; [|discriminate].
    destruct (read_levels (pf_hy pf) ls) as [r|e] eqn:Er; [|discriminate]. cbn [rbind] in H.
    destruct r as [e|levels]; [discriminate|].
    destruct (find_scattered (cs ∩ pf_all pf) levels) as [y|e] eqn:Ef; [|discriminate]. cbn [rbind] in H.
    apply IH in H as (xs & -> & Hxs); [|lia]. exists (y :: xs). split; [cbn [fold_right]; lia|].
    constructor; [|done]. exists cs, levels. done.
Qed.
Lemma estimate_loop_spec pf jprop ms : forall l, estimate_loop pf jprop ms = Ok (inr l) ->
  Forall2 (fun m p => estimate_groups pf jprop (fst m) 0 = Ok (inr (fst p))) ms l.
Proof.
  induction ms as [|[gs w] ms IH]; intros l H; cbn [estimate_loop] in H; [injection H as <-; constructor|].
  apply rbind_Ok in H as (n & Hn & H). destruct n as [e|n]; [discriminate|].
  apply rbind_Ok in H as (r & Hr & H). destruct r as [e|l']; [discriminate|]. injection H as <-.
  constructor; [done|by apply IH].
Qed.

(** An accepted request: some group of some instance finds resources on the whole platform. *)
Theorem C95_some_group : forall pf jprop ms l, estimate pf jprop ms = Ok (inr l) ->
  exists m g cs levels x, m ∈ ms /\ g ∈ fst m /\ group_constraints pf jprop (fst g) = Some cs /\
    read_levels (pf_hy pf) (snd g) = Ok (inr levels) /\
    find_scattered (cs ∩ pf_all pf) levels = Ok x /\ x <> ∅.
Proof.
  intros pf jprop ms l H. unfold estimate in H. apply rbind_Ok in H as (r & Hr & H).
  destruct r as [e|l']; [discriminate|]. destruct (existsb _ l') eqn:E; [|discriminate]. injection H as <-.
  apply estimate_loop_spec in Hr. apply existsb_exists in E as (p & Hp & Hpos).
  apply elem_of_list_In, elem_of_list_lookup in Hp as [i Hi].
  destruct (Forall2_lookup_r _ _ _ _ _ Hr Hi) as (m & Hm & He).
  apply estimate_groups_spec in He as (xs & Hn & Hxs); [|lia].
  assert (Hx : Exists (fun x : procset => x <> ∅) xs).
  { apply not_Forall_Exists; [intros x; apply _|]. intros Hall.
    assert (fold_right (fun (x : procset) s => Z.of_nat (size x) + s) 0 xs = 0); [|lia].
    clear Hn Hxs. induction Hall as [|x xs Hx _ IH]; [done|]. cbn [fold_right]. rewrite IH.
    assert (x = ∅) as -> by (by destruct (decide (x = ∅))). rewrite size_empty. done. }
  apply Exists_exists in Hx as (x & Hx & Hne). apply elem_of_list_lookup in Hx as [k Hk].
  destruct (Forall2_lookup_r _ _ _ _ _ Hxs Hk) as (g & Hg & cs & levels & H1 & H2 & H3).
  exists m, g, cs, levels, x. split; [by eapply elem_of_list_lookup_2|]. split; [by eapply elem_of_list_lookup_2|]. done.
Qed.

Lemma get_levels_read hy l l' ls : read_levels hy l = Ok (inr ls) ->
  Forall2 (fun x y => fst x = fst y /\ rval_int (snd x) = Ok (snd y)) l l' -> get_levels hy l' = Ok ls.
Proof.
  intros H F. revert ls H. induction F as [|[nm v] [nm' n] l l' [H1 H2] _ IH]; intros ls H; cbn [read_levels] in H.
  - injection H as <-. done.
  - cbn [fst snd] in *. subst nm'. cbn [get_levels]. destruct (hy !! nm) as [lv|]; [|discriminate].
    rewrite H2 in H. cbn [rbind] in H. apply rbind_Ok in H as (r & Hr & H).
    destruct r as [e|ls']; [discriminate|]. injection H as <-. rewrite (IH _ Hr). done.
Qed.

(** When every instance has a single group: accepted exactly if the scheduler's search finds resources for one
    of them on the whole platform. *)
Theorem C95_single_group_partial : forall pf jprop ms l,
  estimate_loop pf jprop ms = Ok (inr l) -> (forall m, m ∈ ms -> exists g, fst m = [g]) ->
  estimate pf jprop ms = Ok (inr l) <->
  exists m g h x, m ∈ ms /\ fst m = [g] /\ sees pf jprop g h /\
     find_resource_hierarchies_job (pf_all pf) [h] (pf_hy pf) = Ok x /\ x <> ∅.
Proof.
  intros pf jprop ms l Hl Hone. split.
  - intros H. destruct (C95_some_group _ _ _ _ H) as (m & g & cs & levels & x & Hm & Hg & H1 & H2 & H3 & H4).
    destruct (Hone m Hm) as [g' Hg']. rewrite Hg' in Hg. apply elem_of_list_singleton in Hg. subst g'.
    assert (Hs : exists l', Forall2 (fun (x : level) (y : string * Z) => fst x = fst y /\ rval_int (snd x) = Ok (snd y)) (snd g) l').
    { apply read_levels_spec in H2. clear - H2. induction H2 as [|x p l ls [_ H] _ (l' & IH)]; [exists []; constructor|].
      exists ((fst x, snd p) :: l'). by constructor. }
    destruct Hs as [l' Hl']. exists m, g, (l', cs), x. split; [done|]. split; [done|]. split; [done|]. split; [|done].
    unfold find_resource_hierarchies_job. cbn [find_job_loop].
    rewrite (get_levels_read _ _ _ _ H2 Hl'). cbn [rbind]. rewrite H3. cbn [rbind].
    apply nonempty_true in H4. rewrite H4. f_equal. set_solver.
  - intros (m & g & [l' cs] & x & Hm & Hg & [Hl' Hcs] & Hf & Hx). cbn [fst snd] in *.
    unfold estimate. rewrite Hl. cbn [rbind]. pose proof Hl as Hl2. apply estimate_loop_spec in Hl.
    apply elem_of_list_lookup in Hm as [i Hi]. destruct (Forall2_lookup_l _ _ _ _ _ Hl Hi) as (p & Hp & He).
    rewrite Hg in He. apply estimate_groups_spec in He as (xs & Hn & Hxs); [|lia].
    inversion Hxs as [|? y ? ? (cs' & levels & E1 & E2 & E3) Hnil]; subst. inversion Hnil; subst. clear Hxs Hnil.
    rewrite Hcs in E1. injection E1 as <-.
    unfold find_resource_hierarchies_job in Hf. cbn [find_job_loop] in Hf.
    rewrite (get_levels_read _ _ _ _ E2 Hl') in Hf. cbn [rbind] in Hf. rewrite E3 in Hf. cbn [rbind] in Hf.
    destruct (nonempty y) eqn:Ey; [|injection Hf as <-; done]. apply nonempty_true in Ey.
    assert (Hpos : existsb (fun p => 0 <? fst p) l = true).
    { apply existsb_exists. exists p. split; [apply elem_of_list_In; by eapply elem_of_list_lookup_2|].
      rewrite Hn. cbn [fold_right]. assert (size y <> 0%nat) by (intros Hz; apply size_empty_inv in Hz; apply Ey; set_solver). lia. }
    rewrite Hpos. done.
Qed.

(** The resources a group is looked for among: all when there is no condition (or the text the command line puts
    in its place), those that satisfy both conditions otherwise; nothing when the database refuses the text. *)
Theorem C95_conditions : forall pf jprop gprop,
  (both jprop gprop = "" \/ (jprop = "" /\ gprop = "type='default'") -> group_constraints pf jprop gprop = Some (pf_all pf))%string /\
  (~ (both jprop gprop = "" \/ (jprop = "" /\ gprop = "type='default'")) ->
     group_constraints pf jprop gprop = pf_sql pf (both jprop gprop))%string.
Proof.
  intros pf a b. unfold group_constraints, both. destruct a as [|x a].
  - rewrite bool_decide_true by done. cbn [andb negb]. change ("" +:+ "" +:+ b)%string with b.
    destruct b as [|y b].
    + split; [done|]. intros H. exfalso. apply H. by left.
    + rewrite (bool_decide_false (String y b = "")%string) by done. cbn [orb]. split.
      * intros [H|[_ H]]; [done|]. by rewrite bool_decide_true.
      * intros H. rewrite bool_decide_false; [done|]. intros He. apply H. by right.
  - rewrite (bool_decide_false (String x a = "")%string) by done. cbn [andb negb]. destruct b as [|y b].
    + rewrite bool_decide_true by done. cbn [negb]. split; [intros [H|[H _]]; done|]. intros _. f_equal.
      clear. generalize (String x a). intros s. induction s as [|c s IH]; [done|].
      change (String c s +:+ "" +:+ "")%string with (String c (s +:+ "" +:+ ""))%string. by rewrite IH.
    + rewrite (bool_decide_false (String y b = "")%string) by done. cbn [negb]. split; [intros [H|[H _]]; done|]. done.
Qed.

(** With two groups a request is accepted although the scheduler can never place it: here one group asks for
    two of the two hosts, the other for three. *)
Definition ex_pf : platform :=
  mkPlatform {[1; 2]} {["network_address"%string := [ {[1]}; {[2]} ]]} (fun _ => Some {[1; 2]}) 7200.
Theorem C95_two_groups_refuted :
  estimate ex_pf "" [([("", [("network_address", RText "2")]); ("", [("network_address", RText "3")])], None)]%string
    = Ok (inr [(2, 7200)]) /\
  nonempty (from_ok {[0]} (find_resource_hierarchies_job (pf_all ex_pf)
    [([("network_address"%string, 2)], pf_all ex_pf); ([("network_address"%string, 3)], pf_all ex_pf)] (pf_hy ex_pf))) = false.
Proof. split; vm_compute; reflexivity. Qed.
Print Assumptions C94_understood.
Print Assumptions C94_comma_refuted.
Print Assumptions C94_second_comma_refuted.
Print Assumptions C48_one_special.
Print Assumptions C48_two_levels_refuted.
Print Assumptions C48_single_group.
Print Assumptions C95_some_group.
Print Assumptions C95_single_group_partial.
Print Assumptions C95_two_groups_refuted.
Print Assumptions C95_conditions.
