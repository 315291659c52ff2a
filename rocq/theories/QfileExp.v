(** Limits with an exponent, and the keys of the rules: more of C201. *)
From Verif Require Import Base ReqModel ReqSpec ReqProps AdmModel AdmProps FrontModel FrontSpec FrontProofs ConfModel ConfSpec ConfProps SlotModel QuotasModel CalendarModel CalendarProps QfileModel QfileSpec QfileText QfileFloat QfileProps.
From Coq Require Import Ascii.

Definition sci_char (x : ascii) : Prop := digit_char x \/ x = "e"%char \/ x = "+"%char \/ x = "-"%char.
Lemma plain_around c x r : every sci_char c -> c = String x r -> digit_char x -> around blank_char c c /\ drop_underscores c = c /\ underscores_inside c /\ skip_sign c = c.
Proof.
  intros Hc Ex Hx.
  assert (Hnb : every (fun x => ~ blank_char x) c) by (revert Hc; apply every_mono; intros y [Hy|[->|[->| ->]]]; [by apply digit_nonblank|by apply blank_no..]).
  assert (Hnu : every (fun x => x <> "_"%char) c) by (revert Hc; apply every_mono; intros y [Hy|[->|[->| ->]]]; [intros ->; unfold digit_char in Hy; vm_compute in Hy; lia|done..]).
  split; [|split; [|split]].
  - exists ""%string, ""%string. split; [apply every_nil|]. split; [apply every_nil|]. split; [by rewrite snil_app, app_nil_s|]. split.
    + intros y s E. rewrite E in Hnb. by apply every_cons in Hnb as [? _].
    + intros s y E. rewrite E in Hnb. by apply every_last in Hnb.
  - clear -Hnu. induction c as [|y c IH]; [done|]. apply every_cons in Hnu as [Hy Hc]. cbn [drop_underscores]. destruct (Ascii.eqb_spec y "_"); [done|]. by rewrite IH.
  - intros p q E. rewrite E in Hnu. apply every_app in Hnu as [_ Hnu]. apply every_cons in Hnu as [Hnu _]. done.
  - rewrite Ex. cbn [skip_sign]. destruct (Ascii.eqb_spec x "+") as [->|_]; [unfold digit_char in Hx; vm_compute in Hx; lia|]. destruct (Ascii.eqb_spec x "-") as [->|_]; [unfold digit_char in Hx; vm_compute in Hx; lia|]. done.
Qed.
(** digits, e, a sign or none, digits: the number [a] * 10^[k] *)
Definition scientific (c : string) (a k : Z) : Prop :=
  exists i x, digits_only i /\ digits_only x /\ a = number i /\
    ((c = (i +:+ String "e" x)%string /\ k = number x) \/ (c = (i +:+ String "e" (String "+" x))%string /\ k = number x) \/ (c = (i +:+ String "e" (String "-" x))%string /\ k = - number x)).
Lemma not_digit_e : ~ digit_char "e". Proof. unfold digit_char. vm_compute. lia. Qed.
Lemma exponent_digits x : digits_only x -> exponent_of (String "e" x) = number x.
Proof.
  intros [Hn Hx]. destruct x as [|y r]; [done|]. apply every_cons in Hx as [Hy _]. cbn [exponent_of]. rewrite <- number_of. clear -Hy.
  destruct y as [[] [] [] [] [] [] [] []]; try reflexivity; unfold digit_char in Hy; vm_compute in Hy; lia.
Qed.
Lemma sci_numeral c a k : scientific c a k -> numeral c /\ digits_value c = (a, k).
Proof.
  intros (i & x & [Hni Hi] & [Hnx Hx] & -> & H).
  assert (Hv : forall e, (forall c r, e = String c r -> ~ digit_char c) -> (forall r, e <> String "." r) -> digits_value (i +:+ e) = (number i, exponent_of e)).
  { intros e He Hp. unfold digits_value. destruct (digits_app i e Hi He) as [-> ->]. rewrite number_of. destruct e as [|[[] [] [] [] [] [] [] []] r]; try done. by destruct (Hp r). }
  destruct H as [[-> ->]|[[-> ->]|[-> ->]]].
  - split; [exists i, (String "e" x); split; [done|]; split; [|by left]; right; exists "e"%char, x, x; split; [by left|]; split; [left; split; [done|]; intros y r E; split; intros ->; by eapply (digit_no_sign x); [exact Hx| |exact E]; auto|done]|].
    rewrite Hv; [f_equal; by apply exponent_digits|intros ? ? [= <- <-]; apply not_digit_e|done].
  - split; [exists i, (String "e" (String "+" x)); split; [done|]; split; [|by left]; right; exists "e"%char, (String "+" x), x; split; [by left|]; split; [by right; left|done]|].
    rewrite Hv; [f_equal; cbn [exponent_of]; by rewrite number_of|intros ? ? [= <- <-]; apply not_digit_e|done].
  - split; [exists i, (String "e" (String "-" x)); split; [done|]; split; [|by left]; right; exists "e"%char, (String "-" x), x; split; [by left|]; split; [by right; right|done]|].
    rewrite Hv; [f_equal; cbn [exponent_of]; by rewrite number_of|intros ? ? [= <- <-]; apply not_digit_e|done].
Qed.
Lemma sci_chars c a k : scientific c a k -> every sci_char c /\ exists x r, c = String x r /\ digit_char x.
Proof.
  assert (Hd : forall w, every digit_char w -> every sci_char w) by (intros w; apply every_mono; intros y Hy; by left).
  intros (i & x & [Hni Hi] & [Hnx Hx] & -> & H). split.
  - destruct H as [[-> _]|[[-> _]|[-> _]]]; (apply every_app; split; [by apply Hd|]); repeat (apply every_cons; split; [by unfold sci_char; auto|]); by apply Hd.
  - destruct i as [|y r]; [done|]. apply every_cons in Hi as [Hy _]. destruct H as [[-> _]|[[-> _]|[-> _]]]; rewrite scons_app; eauto.
Qed.
Lemma sci_float c a k : scientific c a k -> float_of c = match finite (ten a k) with Some f => Number f | None => Infinite end.
Proof.
  intros H. destruct (sci_chars c a k H) as [Hc (x & r & Ex & Hx)]. destruct (plain_around c x r Hc Ex Hx) as (H1 & H2 & H3 & H4). destruct (sci_numeral c a k H) as [Hn Hv].
  assert (Hs : strip c = c) by (by apply strip_spec). unfold float_of.
  assert (float_ok c = true) as ->.
  { apply (proj2 (float_spec c c)). exists c. split; [|split; [done|by left]]. exists c. split; [done|]. split; [by apply drop_spec|by apply skip_sign_spec]. }
  rewrite Hs, H2, H4. apply number_spec in Hn as ->. rewrite Hv.
  assert (match c with String "-" _ => - a | _ => a end = a) as ->; [|done]. rewrite Ex. clear -Hx. destruct x as [[] [] [] [] [] [] [] []]; try done. unfold digit_char in Hx. vm_compute in Hx. lia.
Qed.
Lemma exact_limit a A m0 j : 0 <= a -> 0 < A -> 0 <= j -> a * 2 ^ j = m0 * A -> m0 < 2 ^ 53 -> finite (fround a A) = Some (fround a A) /\ truncate (fround a A) = a / A.
Proof.
  intros H0 HA Hj E Hm. pose proof (Z.pow_pos_nonneg 2 j ltac:(lia) Hj) as Hpj.
  destruct (fround a A) as [m e] eqn:Ef. set (K := Z.abs e). destruct (fround_close a A m e K H0 HA Ef ltac:(lia) ltac:(lia)) as [Hm0 Hc].
  pose proof (Z.pow_pos_nonneg 2 K ltac:(lia) ltac:(lia)) as HK.
  assert (Eg : forall L, Z.abs j <= L -> a * 2 ^ (L + j) = m0 * A * 2 ^ L) by (intros L HL; rewrite Z.pow_add_r by lia; rewrite <- E; ring).
  pose proof (fround_exact a A m e m0 j K H0 HA Eg Hm Ef ltac:(lia) ltac:(lia)) as X.
  split.
  - apply (finite_small m e K 54); [lia|lia|lia|lia|]. apply (Z.mul_lt_mono_pos_l A); [lia|]. rewrite X.
    assert (a <= m0 * A) by (rewrite <- E; rewrite <- (Z.mul_1_r a) at 1; apply Z.mul_le_mono_nonneg_l; lia).
    assert (m0 * A < 2 ^ 53 * A) by (apply Z.mul_lt_mono_pos_r; lia). replace (A * (2 ^ 54 * 2 ^ K)) with (2 ^ 54 * A * 2 ^ K) by ring. apply Z.mul_lt_mono_pos_r; [done|]. lia.
  - rewrite (truncate_spec m e K) by lia. rewrite <- (Z.div_mul_cancel_l (m * 2 ^ (K + e)) (2 ^ K) A) by lia. rewrite X. rewrite Z.mul_comm, (Z.mul_comm A). by rewrite Z.div_mul_cancel_l by lia.
Qed.
(** A limit with an exponent: the integer part of the number. *)
Theorem C201_exponent all c a k : scientific c a k ->
  (0 <= k -> a * 10 ^ k < 2 ^ 53 -> whole all (JText c) = Started (a * 10 ^ k)) /\
  (forall m0 j, k <= 0 -> 0 <= j -> a * 2 ^ j = m0 * 10 ^ (- k) -> m0 < 2 ^ 53 -> whole all (JText c) = Started (a / 10 ^ (- k))).
Proof.
  intros H. unfold whole. rewrite (sci_float c a k H). assert (H0 : 0 <= a) by (destruct H as (i & x & [_ Hi] & _ & -> & _); by apply number_nonneg). split.
  - intros Hk Ha. unfold ten. replace (0 <=? k) with true by lia. pose proof (Z.pow_pos_nonneg 10 k ltac:(lia) Hk) as Hp.
    destruct (exact_limit (a * 10 ^ k) 1 (a * 10 ^ k) 0) as [-> ->]; [nia|lia|lia|lia|lia|]. by rewrite Z.div_1_r.
  - intros m0 j Hk Hj E Hm. pose proof (Z.pow_pos_nonneg 10 (- k) ltac:(lia) ltac:(lia)) as Hp. destruct (exact_limit a (10 ^ (- k)) m0 j H0 Hp Hj E Hm) as [E1 E2].
    assert (ten a k = fround a (10 ^ (- k))) as ->. { unfold ten. destruct (Z.leb_spec 0 k); [|done]. assert (k = 0) as -> by lia. by rewrite Z.mul_1_r. }
    by rewrite E1, E2.
Qed.
Theorem C201_exponent_case : scientific "12e2" 12 2 /\ scientific "1275e-2" 1275 (-2) /\ 1275 * 2 ^ 2 = 51 * 10 ^ 2 /\ whole None (JText "1275e-2") = Started 12.
Proof.
  split; [exists "12"%string, "2"%string; split; [by apply digits_ex|]; split; [by apply digits_ex|]; split; [vm_compute; reflexivity|]; left; split; vm_compute; reflexivity|].
  split; [exists "1275"%string, "2"%string; split; [by apply digits_ex|]; split; [by apply digits_ex|]; split; [vm_compute; reflexivity|]; right; right; split; vm_compute; reflexivity|].
  split; [reflexivity|vm_compute; reflexivity].
Qed.

(** The rules of a set: the four parts of the key are, in this order, the queue, the project, the type and the user of the rule. *)
Theorem C201_rules all js rs : rules_of all js = Started rs <->
  Forall2 (fun p q => limits all (snd p) = Started (snd q) /\ exists a b c d, Forall (none_of ",") [a; b; c; d] /\ fst p = String.concat "," [a; b; c; d] /\ fst q = (a, b, c, d)) js rs.
Proof.
  assert (Hk : forall s k, key_of s = Started k <-> exists a b c d, Forall (none_of ",") [a; b; c; d] /\ s = String.concat "," [a; b; c; d] /\ k = (a, b, c, d)).
  { intros s k. unfold key_of. split.
    - destruct (split_on "," s) as [|a [|b [|c [|d [|? ?]]]]] eqn:E; try done. intros [= <-]. exists a, b, c, d. destruct (split_back "," s) as (E1 & E2 & _). rewrite E in E1, E2. split; [|split; [exact E1|reflexivity]]. eapply Forall_impl; [exact E2|]. intros x Hx. by apply none_lacks.
    - intros (a & b & c & d & H1 & -> & ->). rewrite (split_concat "," [a; b; c; d]); [done|done|]. eapply Forall_impl; [exact H1|]. intros x Hx. by apply none_lacks. }
  revert rs. induction js as [|[k v] js IH]; intros rs; cbn [rules_of].
  - split; [intros [= <-]; by constructor|]. intros H. by inversion H.
  - split.
    + destruct (limits all v) as [v'| |] eqn:Ev; [|done..]. destruct (key_of k) as [k'| |] eqn:Ek; [|done..]. destruct (rules_of all js) as [r| |] eqn:Er; [|done..]. cbn [sbind]. intros [= <-]. constructor; [|by apply IH]. cbn [fst snd]. split; [done|]. by apply Hk.
    + intros H. apply Forall2_cons_inv_l in H as (q & rs' & [H1 H2] & H3 & ->). cbn [fst snd] in *. rewrite H1. apply Hk in H2. cbn [sbind]. rewrite H2. cbn [sbind]. apply IH in H3. rewrite H3. cbn [sbind]. by destruct q.
Qed.
Theorem C201_rules_case : rules_of (Some 8) [("*,*,*,/", JList [JInt 16; JInt (-1); JInt (-1)]); ("default,p,*,*", JList [JText "ALL"; JInt 2; JInt 1])]%string =
  Started [(("*", "*", "*", "/"), mkRule 16 (-1) (-3600)); (("default", "p", "*", "*"), mkRule 8 2 3600)]%string.
Proof. vm_compute. reflexivity. Qed.
Print Assumptions C201_exponent.
Print Assumptions C201_exponent_case.
Print Assumptions C201_rules.
Print Assumptions C201_rules_case.
