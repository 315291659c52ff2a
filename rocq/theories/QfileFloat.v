(** The floats of the file of quotas: proofs. *)
From Verif Require Import Base ReqModel ReqSpec ReqProps AdmModel AdmProps FrontModel FrontSpec FrontProofs ConfModel ConfSpec ConfProps SlotModel QuotasModel CalendarModel QfileModel QfileSpec QfileText.
From Coq Require Import Ascii.

(** ** Rounding *)
Lemma nearest_close a b : 0 < b -> 2 * Z.abs (b * nearest a b - a) <= b.
Proof.
  intros Hb. unfold nearest. pose proof (Z.div_mod a b ltac:(lia)) as E. pose proof (Z.mod_pos_bound a b Hb) as Hr.
  set (q := a / b) in *. set (r := a mod b) in *. destruct ((2 * r <? b) || ((2 * r =? b) && Z.even q)) eqn:Ec.
  - apply orb_true_iff in Ec as [Ec|Ec]; [|apply andb_true_iff in Ec as [Ec _]]; lia.
  - apply orb_false_iff in Ec as [Ec _]. lia.
Qed.
Lemma nearest_exact a b m : 0 < b -> a = b * m -> nearest a b = m.
Proof. intros Hb ->. unfold nearest. rewrite (Z.mul_comm b m), Z.div_mul, Z.mod_mul by lia. replace (2 * 0 <? b) with true by lia. done. Qed.
Lemma scale_low n d : 0 < n -> 0 < d -> 2 ^ 52 * (d * 2 ^ Z.max 0 (scale n d)) <= n * 2 ^ Z.max 0 (- scale n d).
Proof.
  intros Hn Hd. unfold scale. set (e0 := Z.log2 n - Z.log2 d - 52). destruct (n * 2 ^ Z.max 0 (- e0) <? 2 ^ 52 * (d * 2 ^ Z.max 0 e0)) eqn:E; [|lia].
  clear E. pose proof (Z.log2_spec n Hn) as [Hn1 _]. pose proof (Z.log2_spec d Hd) as [_ Hd1]. pose proof (Z.log2_nonneg d) as Hd0. pose proof (Z.log2_nonneg n) as Hn0.
  set (e := e0 - 1). assert (Z.log2 n = Z.log2 d + 53 + e) as El by (unfold e, e0; lia). rewrite El in *. set (ld := Z.log2 d) in *. clearbody e ld. clear El e0.
  destruct (Z.le_gt_cases 0 e) as [He|He].
  - rewrite Z.max_r, Z.max_l by lia. rewrite Z.pow_0_r. replace (ld + 53 + e) with (52 + (Z.succ ld + e)) in Hn1 by lia. rewrite Z.pow_add_r, Z.pow_add_r in Hn1 by lia.
    pose proof (Z.pow_pos_nonneg 2 e ltac:(lia) He) as Hp. assert (d * 2 ^ e <= 2 ^ Z.succ ld * 2 ^ e) by nia. nia.
  - rewrite Z.max_l, Z.max_r by lia. rewrite Z.pow_0_r. rewrite Z.mul_1_r.
    pose proof (Z.pow_pos_nonneg 2 (- e) ltac:(lia) ltac:(lia)) as Hp. assert (2 ^ (ld + 53 + e) * 2 ^ (- e) <= n * 2 ^ (- e)) as H by nia. rewrite <- Z.pow_add_r in H by lia.
    replace (ld + 53 + e + - e) with (52 + Z.succ ld) in H by lia. rewrite Z.pow_add_r in H by lia. nia.
Qed.
(** m * 2^e is within n/d * 2^-53 of n/d; [K] makes the powers whole. *)
Lemma fround_close n d m e K : 0 <= n -> 0 < d -> fround n d = (m, e) -> 0 <= K -> 0 <= K + e -> 0 <= m /\ 2 ^ 53 * Z.abs (d * (m * 2 ^ (K + e)) - n * 2 ^ K) <= n * 2 ^ K.
Proof.
  intros Hn Hd H HK HKe. unfold fround in H. destruct (n =? 0) eqn:E0; [injection H as <- <-; assert (n = 0) as -> by lia; rewrite Z.mul_0_l, Z.mul_0_r, Z.mul_0_l; cbn; lia|].
  unfold round53 in H. rewrite (Z.abs_eq n), (Z.sgn_pos n) in H by lia. injection H as Hm He. rewrite Z.mul_1_l in Hm.
  pose proof (scale_low n d ltac:(lia) Hd) as Hl. rewrite He in Hl, Hm.
  assert (Hcl := nearest_close (n * 2 ^ Z.max 0 (- e)) (d * 2 ^ Z.max 0 e) ltac:(pose proof (Z.pow_pos_nonneg 2 (Z.max 0 e) ltac:(lia) ltac:(lia)); nia)). rewrite Hm in Hcl.
  destruct (Z.le_gt_cases 0 e) as [Hs|Hs].
  - rewrite Z.max_r, Z.max_l, Z.pow_0_r, Z.mul_1_r in Hcl by lia. rewrite Z.max_r, Z.max_l, Z.pow_0_r, Z.mul_1_r in Hl by lia. rewrite Z.pow_add_r by lia.
    pose proof (Z.pow_pos_nonneg 2 K ltac:(lia) HK) as Hp. pose proof (Z.pow_pos_nonneg 2 e ltac:(lia) Hs) as Hp2. set (k := 2 ^ K) in *. set (x := 2 ^ e) in *. clearbody k x.
    assert (2 ^ 53 * Z.abs (d * x * m - n) <= n) as H1 by (change (2 ^ 53) with 9007199254740992; change (2 ^ 52) with 4503599627370496 in Hl; lia).
    split; [assert (0 < d * x) by nia; change (2 ^ 53) with 9007199254740992 in H1; nia|].
    replace (d * (m * (k * x)) - n * k) with ((d * x * m - n) * k) by ring. rewrite Z.abs_mul, (Z.abs_eq k) by lia. nia.
  - rewrite Z.max_l, Z.max_r, Z.pow_0_r, Z.mul_1_r in Hcl by lia. rewrite Z.max_l, Z.max_r, Z.pow_0_r, Z.mul_1_r in Hl by lia.
    assert (2 ^ K = 2 ^ (- e) * 2 ^ (K + e)) as -> by (rewrite <- Z.pow_add_r by lia; f_equal; lia).
    pose proof (Z.pow_pos_nonneg 2 (K + e) ltac:(lia) HKe) as Hp. pose proof (Z.pow_pos_nonneg 2 (- e) ltac:(lia) ltac:(lia)) as Hp2. set (k := 2 ^ (K + e)) in *. set (x := 2 ^ (- e)) in *. clearbody k x.
    assert (2 ^ 53 * Z.abs (d * m - n * x) <= n * x) as H1 by (change (2 ^ 53) with 9007199254740992; change (2 ^ 52) with 4503599627370496 in Hl; lia).
    split; [change (2 ^ 53) with 9007199254740992 in H1; nia|].
    replace (d * (m * k) - n * (x * k)) with ((d * m - n * x) * k) by ring. rewrite Z.abs_mul, (Z.abs_eq k) by lia. nia.
Qed.
(** A number m0 / 2^j with m0 below 2^53 is exact. *)
Lemma fround_exact n d m e m0 j K : 0 <= n -> 0 < d -> (forall L, Z.abs j <= L -> n * 2 ^ (L + j) = m0 * d * 2 ^ L) -> m0 < 2 ^ 53 -> fround n d = (m, e) -> 0 <= K -> 0 <= K + e -> d * (m * 2 ^ (K + e)) = n * 2 ^ K.
Proof.
  intros Hn Hd E Hm0 H HK HKe. unfold fround in H. destruct (n =? 0) eqn:E0; [injection H as <- <-; assert (n = 0) as -> by lia; by rewrite !Z.mul_0_l, Z.mul_0_r|].
  unfold round53 in H. rewrite (Z.abs_eq n), (Z.sgn_pos n) in H by lia. injection H as Hm He. rewrite Z.mul_1_l in Hm.
  pose proof (scale_low n d ltac:(lia) Hd) as Hl. rewrite He in Hl, Hm. clear He.
  set (L := Z.abs j + Z.abs e). specialize (E L ltac:(lia)).
  pose proof (Z.pow_pos_nonneg 2 L ltac:(lia) ltac:(lia)) as HpL. pose proof (Z.pow_pos_nonneg 2 (L + j) ltac:(lia) ltac:(lia)) as HpLj. pose proof (Z.pow_pos_nonneg 2 (L + e) ltac:(lia) ltac:(lia)) as HpLe.
  assert (Hsc : 2 ^ Z.max 0 (- e) * 2 ^ (L + e) = 2 ^ Z.max 0 e * 2 ^ L) by (rewrite <- !Z.pow_add_r by lia; f_equal; lia).
  pose proof (Z.pow_pos_nonneg 2 (Z.max 0 e) ltac:(lia) ltac:(lia)) as Hp1. pose proof (Z.pow_pos_nonneg 2 (Z.max 0 (- e)) ltac:(lia) ltac:(lia)) as Hp2.
  assert (He2 : e <= - j).
  { destruct (Z.le_gt_cases e (- j)) as [?|Hc]; [done|exfalso].
    assert (H1 : 2 ^ 52 * (d * 2 ^ (L + e)) <= n * 2 ^ L).
    { apply (Z.mul_le_mono_pos_r _ _ (2 ^ Z.max 0 e) Hp1). replace (n * 2 ^ L * 2 ^ Z.max 0 e) with (n * (2 ^ Z.max 0 e * 2 ^ L)) by ring. rewrite <- Hsc.
      apply (Z.mul_le_mono_nonneg_r _ _ (2 ^ (L + e)) ltac:(lia)) in Hl. lia. }
    apply (Z.mul_le_mono_nonneg_r _ _ (2 ^ (L + j)) ltac:(lia)) in H1.
    replace (n * 2 ^ L * 2 ^ (L + j)) with (m0 * d * 2 ^ L * 2 ^ L) in H1 by (rewrite <- E; ring).
    assert (H2 : m0 * (d * 2 ^ L * 2 ^ L) < 2 ^ 53 * (d * 2 ^ L * 2 ^ L)) by (apply Z.mul_lt_mono_pos_r; [nia|done]).
    assert (H3 : 2 ^ (L + e) * 2 ^ (L + j) = 2 ^ (e + j) * (2 ^ L * 2 ^ L)) by (rewrite <- !Z.pow_add_r by lia; f_equal; lia).
    assert (2 <= 2 ^ (e + j)) as H4 by (change 2 with (2 ^ 1) at 1; apply Z.pow_le_mono_r; lia).
    replace (2 ^ 52 * (d * 2 ^ (L + e)) * 2 ^ (L + j)) with (2 ^ 52 * d * (2 ^ (L + e) * 2 ^ (L + j))) in H1 by ring. rewrite H3 in H1.
    change (2 ^ 53) with (2 ^ 52 * 2) in H2. set (y := d * 2 ^ L * 2 ^ L) in *. assert (0 < y) by (unfold y; nia).
    replace (2 ^ 52 * d * (2 ^ (e + j) * (2 ^ L * 2 ^ L))) with (2 ^ 52 * (2 ^ (e + j) * y)) in H1 by (unfold y; ring). replace (m0 * d * 2 ^ L * 2 ^ L) with (m0 * y) in H1 by (unfold y; ring).
    assert (2 * y <= 2 ^ (e + j) * y) by (apply Z.mul_le_mono_nonneg_r; lia). change (2 ^ 52) with 4503599627370496 in *. lia. }
  assert (E2 : n * 2 ^ L = m0 * d * 2 ^ (L - j)).
  { apply (Z.mul_reg_r _ _ (2 ^ (L + j)) ltac:(lia)). replace (n * 2 ^ L * 2 ^ (L + j)) with (n * 2 ^ (L + j) * 2 ^ L) by ring. rewrite E.
    replace (m0 * d * 2 ^ (L - j) * 2 ^ (L + j)) with (m0 * d * (2 ^ (L - j) * 2 ^ (L + j))) by ring. rewrite <- Z.pow_add_r by lia. rewrite <- Z.mul_assoc, <- Z.pow_add_r by lia. do 2 f_equal. lia. }
  assert (En : n * 2 ^ Z.max 0 (- e) = (d * 2 ^ Z.max 0 e) * (m0 * 2 ^ (- e - j))).
  { apply (Z.mul_reg_r _ _ (2 ^ (L + e)) ltac:(lia)). rewrite <- Z.mul_assoc, Hsc. replace (n * (2 ^ Z.max 0 e * 2 ^ L)) with (n * 2 ^ L * 2 ^ Z.max 0 e) by ring. rewrite E2.
    replace (2 ^ (L - j)) with (2 ^ (- e - j) * 2 ^ (L + e)) by (rewrite <- Z.pow_add_r by lia; f_equal; lia). ring. }
  rewrite (nearest_exact _ _ (m0 * 2 ^ (- e - j)) (Z.mul_pos_pos _ _ Hd Hp1) En) in Hm. rewrite <- Hm.
  apply (Z.mul_reg_r _ _ (2 ^ L) ltac:(lia)). replace (n * 2 ^ K * 2 ^ L) with (n * 2 ^ L * 2 ^ K) by ring. rewrite E2.
  replace (d * (m0 * 2 ^ (- e - j) * 2 ^ (K + e)) * 2 ^ L) with (m0 * d * (2 ^ (- e - j) * 2 ^ (K + e) * 2 ^ L)) by ring.
  rewrite <- (Z.mul_assoc (m0 * d)). f_equal. rewrite <- !Z.pow_add_r by lia. f_equal. lia.
Qed.
(** int(f) *)
Lemma truncate_spec m e K : 0 <= m -> 0 <= K -> 0 <= K + e -> truncate (m, e) = (m * 2 ^ (K + e)) / 2 ^ K.
Proof.
  intros Hm HK HKe. unfold truncate. cbn [fst snd]. pose proof (Z.pow_pos_nonneg 2 K ltac:(lia) HK) as Hp. destruct (0 <=? e) eqn:E.
  - rewrite Z.pow_add_r by lia. replace (m * (2 ^ K * 2 ^ e)) with (m * 2 ^ e * 2 ^ K) by ring. by rewrite Z.div_mul by lia.
  - pose proof (Z.pow_pos_nonneg 2 (- e) ltac:(lia) ltac:(lia)) as Hp2. pose proof (Z.pow_pos_nonneg 2 (K + e) ltac:(lia) HKe) as Hp3.
    assert (2 ^ K = 2 ^ (- e) * 2 ^ (K + e)) as -> by (rewrite <- Z.pow_add_r by lia; f_equal; lia). rewrite Z.div_mul_cancel_r by lia. by apply Z.quot_div_nonneg.
Qed.
Lemma finite_small m e K b : 0 <= m -> 0 <= K -> 0 <= K + e -> 0 <= b <= 1000 -> m * 2 ^ (K + e) < 2 ^ b * 2 ^ K -> finite (m, e) = Some (m, e).
Proof.
  intros Hm HK HKe Hb H. unfold finite. cbn [fst snd]. destruct (m =? 0) eqn:E; [done|]. cbn [orb]. rewrite Z.abs_eq by lia.
  assert (Hl : Z.log2 m + e < 1024).
  { pose proof (Z.log2_spec m ltac:(lia)) as [Hl _]. pose proof (Z.log2_nonneg m) as Hl0.
    destruct (Z.lt_ge_cases (Z.log2 m + e) 1024) as [?|Hc]; [done|exfalso].
    assert (2 ^ (Z.log2 m) * 2 ^ (K + e) <= m * 2 ^ (K + e)) as H1 by (pose proof (Z.pow_pos_nonneg 2 (K + e) ltac:(lia) HKe); nia).
    rewrite <- Z.pow_add_r in H1 by lia. rewrite <- Z.pow_add_r in H by lia.
    assert (2 ^ (b + K) <= 2 ^ (Z.log2 m + (K + e))) by (apply Z.pow_le_mono_r; lia). lia. }
  by replace (Z.log2 m + e <? 1024) with true by lia.
Qed.
Lemma fround_nonneg n d : 0 <= n -> 0 < d -> 0 <= fst (fround n d).
Proof.
  intros Hn Hd. destruct (fround n d) as [m e] eqn:E. destruct (fround_close n d m e (Z.max 0 (- e)) Hn Hd E) as [H _]; [lia|lia|done].
Qed.
(** A whole number below 2^53 is read as it is. *)
Lemma whole_exact n : 0 <= n < 2 ^ 53 -> finite (fround n 1) = Some (fround n 1) /\ truncate (fround n 1) = n.
Proof.
  intros Hn. destruct (fround n 1) as [m e] eqn:E. set (K := Z.max 0 (- e)).
  pose proof (fround_exact n 1 m e n 0 K ltac:(lia) ltac:(lia) ltac:(intros; rewrite Z.add_0_r; lia) ltac:(lia) E ltac:(lia) ltac:(lia)) as Hx. rewrite Z.mul_1_l in Hx.
  destruct (fround_close n 1 m e K ltac:(lia) ltac:(lia) E ltac:(lia) ltac:(lia)) as [Hm _].
  assert (Hp : 0 < 2 ^ K) by (apply Z.pow_pos_nonneg; lia). split.
  - apply (finite_small m e K 53); try lia. rewrite Hx. apply Z.mul_lt_mono_pos_r; lia.
  - rewrite (truncate_spec m e K) by lia. rewrite Hx. by apply Z.div_mul; lia.
Qed.

(** ** Products *)
(** The product of the float of a/A and of the whole number n. *)
Section share.
Context (a A n : Z) (Ha : 0 <= a) (HA : 0 < A) (Hn : 0 <= n < 2 ^ 53).
Lemma share_parts c f : fround a A = c -> fmul c (fround n 1) = f ->
  exists B T P, 0 < B /\ 0 <= T /\ 0 <= P /\ 2 ^ 53 * Z.abs (A * P - a * n * B) <= a * n * B /\ 2 ^ 53 * Z.abs (T - P) <= P /\
    (forall m0 j, 0 <= j -> a * 2 ^ j = m0 * A -> m0 < 2 ^ 53 -> m0 * n < 2 ^ 53 -> A * T = a * n * B) /\
    (forall b, 0 <= b <= 1000 -> T < 2 ^ b * B -> exists g, f = Some g /\ truncate g = T / B).
Proof.
  intros Hc Hf. destruct c as [m1 e1]. destruct (fround n 1) as [m2 e2] eqn:E2. unfold fmul in Hf. cbn [fst snd] in Hf. destruct (fround (m1 * m2) 1) as [m e] eqn:E.
  set (K := Z.abs e1 + Z.abs e2 + Z.abs e).
  destruct (fround_close a A m1 e1 K Ha HA Hc ltac:(lia) ltac:(lia)) as [Hm1 H1].
  pose proof (fround_exact n 1 m2 e2 n 0 K ltac:(lia) ltac:(lia) ltac:(intros; rewrite Z.add_0_r; lia) ltac:(lia) E2 ltac:(lia) ltac:(lia)) as H2. rewrite Z.mul_1_l in H2.
  destruct (fround_close n 1 m2 e2 K ltac:(lia) ltac:(lia) E2 ltac:(lia) ltac:(lia)) as [Hm2 _].
  destruct (fround_close (m1 * m2) 1 m e K ltac:(nia) ltac:(lia) E ltac:(lia) ltac:(lia)) as [Hm H3]. rewrite Z.mul_1_l in H3.
  pose proof (Z.pow_pos_nonneg 2 K ltac:(lia) ltac:(lia)) as HpK. pose proof (Z.pow_pos_nonneg 2 (K + e1) ltac:(lia) ltac:(lia)) as Hp1.
  pose proof (Z.pow_pos_nonneg 2 (K + e2) ltac:(lia) ltac:(lia)) as Hp2. pose proof (Z.pow_pos_nonneg 2 (K + e) ltac:(lia) ltac:(lia)) as Hp.
  exists (2 ^ K * 2 ^ K * 2 ^ K), (m * 2 ^ (K + e) * (2 ^ (K + e1) * 2 ^ (K + e2))), (m1 * m2 * 2 ^ K * (2 ^ (K + e1) * 2 ^ (K + e2))).
  assert (HP : m1 * m2 * 2 ^ K * (2 ^ (K + e1) * 2 ^ (K + e2)) = m1 * 2 ^ (K + e1) * (n * 2 ^ K * 2 ^ K)) by (rewrite <- H2; ring).
  split; [nia|]. split; [apply Z.mul_nonneg_nonneg; nia|]. split; [rewrite HP; apply Z.mul_nonneg_nonneg; nia|]. split; [|split; [|split]].
  - rewrite HP. replace (A * (m1 * 2 ^ (K + e1) * (n * 2 ^ K * 2 ^ K)) - a * n * (2 ^ K * 2 ^ K * 2 ^ K)) with ((A * (m1 * 2 ^ (K + e1)) - a * 2 ^ K) * (n * 2 ^ K * 2 ^ K)) by ring.
    rewrite Z.abs_mul, (Z.abs_eq (n * 2 ^ K * 2 ^ K)) by nia. assert (0 <= n * 2 ^ K * 2 ^ K) as Hz by nia.
    apply (Z.mul_le_mono_nonneg_r _ _ _ Hz) in H1. lia.
  - set (x := 2 ^ (K + e1) * 2 ^ (K + e2)) in *. assert (0 < x) as Hx by (unfold x; nia). clearbody x.
    replace (m * 2 ^ (K + e) * x - m1 * m2 * 2 ^ K * x) with ((m * 2 ^ (K + e) - m1 * m2 * 2 ^ K) * x) by ring. rewrite Z.abs_mul, (Z.abs_eq x) by lia.
    apply (Z.mul_le_mono_nonneg_r _ _ x ltac:(lia)) in H3. lia.
  - intros m0 j Hj Ea Hm0 Hmn.
    assert (Eg : forall L, Z.abs j <= L -> a * 2 ^ (L + j) = m0 * A * 2 ^ L) by (intros L HL; rewrite Z.pow_add_r by lia; rewrite <- Ea; ring).
    pose proof (fround_exact a A m1 e1 m0 j K Ha HA Eg Hm0 Hc ltac:(lia) ltac:(lia)) as X1.
    assert (X2 : m1 * 2 ^ (K + e1) * 2 ^ j = m0 * 2 ^ K).
    { apply (Z.mul_reg_l _ _ A ltac:(lia)). replace (A * (m1 * 2 ^ (K + e1) * 2 ^ j)) with (A * (m1 * 2 ^ (K + e1)) * 2 ^ j) by ring. rewrite X1. replace (a * 2 ^ K * 2 ^ j) with (a * 2 ^ j * 2 ^ K) by ring. rewrite Ea. ring. }
    assert (X3 : m * 2 ^ (K + e) = m1 * m2 * 2 ^ K).
    { rewrite <- (Z.mul_1_l (m * _)). apply (fround_exact (m1 * m2) 1 m e (m0 * n) (j + e1 + e2) K); [by apply Z.mul_nonneg_nonneg|lia| |done|exact E|lia|lia]. intros L HL.
      apply (Z.mul_reg_r _ _ (2 ^ K * 2 ^ K) ltac:(nia)).
      replace (m1 * m2 * 2 ^ (L + (j + e1 + e2)) * (2 ^ K * 2 ^ K)) with (m1 * m2 * (2 ^ (L + (j + e1 + e2)) * 2 ^ K * 2 ^ K)) by ring.
      replace (2 ^ (L + (j + e1 + e2)) * 2 ^ K * 2 ^ K) with (2 ^ (K + e1) * 2 ^ j * 2 ^ (K + e2) * 2 ^ L) by (rewrite <- !Z.pow_add_r by lia; f_equal; lia).
      replace (m1 * m2 * (2 ^ (K + e1) * 2 ^ j * 2 ^ (K + e2) * 2 ^ L)) with ((m1 * 2 ^ (K + e1) * 2 ^ j) * (m2 * 2 ^ (K + e2)) * 2 ^ L) by ring. rewrite X2, H2. ring. }
    rewrite X3, HP. replace (A * (m1 * 2 ^ (K + e1) * (n * 2 ^ K * 2 ^ K))) with (A * (m1 * 2 ^ (K + e1)) * (n * 2 ^ K * 2 ^ K)) by ring. rewrite X1. ring.
  - intros b Hb HT. assert (HTe : m * 2 ^ (K + e) * (2 ^ (K + e1) * 2 ^ (K + e2)) = m * 2 ^ (3 * K + (e + e1 + e2))) by (rewrite <- Z.mul_assoc, <- !Z.pow_add_r by lia; do 2 f_equal; lia).
    assert (HBe : 2 ^ K * 2 ^ K * 2 ^ K = 2 ^ (3 * K)) by (rewrite <- !Z.pow_add_r by lia; f_equal; lia). rewrite HTe, HBe in *.
    exists (m, e + e1 + e2). split; [rewrite <- Hf; apply (finite_small m (e + e1 + e2) (3 * K) b); lia|]. apply truncate_spec; lia.
Qed.
End share.
(** ** Decimal numbers *)
Lemma not_digit_point : ~ digit_char ".". Proof. unfold digit_char. vm_compute. lia. Qed.
Lemma decimal_chars c a k : decimal_number c a k -> every (fun x => digit_char x \/ x = "."%char) c /\ exists x r, c = String x r /\ digit_char x.
Proof.
  assert (Hd : forall w, digits_only w -> every (fun x => digit_char x \/ x = "."%char) w) by (intros w [_ H]; revert H; apply every_mono; auto).
  intros [(Hc & _)|(i & f & Hi & Hf & -> & _)].
  - split; [by apply Hd|]. destruct Hc as [Hn Hc]. destruct c as [|x r]; [done|]. apply every_cons in Hc as [Hx _]. eauto.
  - split; [apply every_app; split; [by apply Hd|]; apply every_cons; split; [by right|by apply Hd]|]. destruct Hi as [Hn Hi]. destruct i as [|x r]; [done|]. apply every_cons in Hi as [Hx _]. rewrite scons_app. eauto.
Qed.
Lemma decimal_numeral c a k : decimal_number c a k -> numeral c /\ digits_value c = (a, - Z.of_nat k).
Proof.
  intros [(Hc & -> & ->)|(i & f & Hi & Hf & -> & -> & ->)].
  - destruct Hc as [Hn Hc]. split; [exists c, ""%string; split; [done|]; split; [by left|]; left; split; [done|by rewrite app_nil_s]|].
    unfold digits_value. destruct (digits_app c "" Hc) as [E1 E2]; [done|]. rewrite app_nil_s in E1, E2. rewrite E1, E2. by rewrite number_of.
  - destruct Hi as [Hni Hi], Hf as [Hnf Hf]. split.
    + exists i, ""%string. split; [done|]. split; [by left|]. right. exists f. split; [done|]. split; [by left|]. by rewrite app_nil_s.
    + unfold digits_value. destruct (digits_app i (String "." f) Hi) as [E1 E2]; [intros ? ? [= <- <-]; apply not_digit_point|]. rewrite E1, E2.
      destruct (digits_app f "" Hf) as [E3 E4]; [done|]. rewrite app_nil_s in E3, E4. rewrite E3, E4. cbn [exponent_of]. rewrite number_of. f_equal.
Qed.
Lemma decimal_around c a k : decimal_number c a k -> around blank_char c c /\ drop_underscores c = c /\ underscores_inside c /\ skip_sign c = c.
Proof.
  intros H. destruct (decimal_chars c a k H) as [Hc (x & r & Ex & Hx)].
  assert (Hnb : every (fun x => ~ blank_char x) c) by (revert Hc; apply every_mono; intros y [Hy| ->]; [by apply digit_nonblank|by apply blank_no]).
  assert (Hnu : every (fun x => x <> "_"%char) c) by (revert Hc; apply every_mono; intros y [Hy| ->]; [intros ->; unfold digit_char in Hy; vm_compute in Hy; lia|done]).
  split; [|split; [|split]].
  - exists ""%string, ""%string. split; [apply every_nil|]. split; [apply every_nil|]. split; [by rewrite snil_app, app_nil_s|]. split.
    + intros y s E. rewrite E in Hnb. by apply every_cons in Hnb as [? _].
    + intros s y E. rewrite E in Hnb. by apply every_last in Hnb.
  - clear -Hnu. induction c as [|y c IH]; [done|]. apply every_cons in Hnu as [Hy Hc]. cbn [drop_underscores]. destruct (Ascii.eqb_spec y "_"); [done|]. by rewrite IH.
  - intros p q E. rewrite E in Hnu. apply every_app in Hnu as [_ Hnu]. apply every_cons in Hnu as [Hnu _]. done.
  - rewrite Ex. cbn [skip_sign]. destruct (Ascii.eqb_spec x "+") as [->|_]; [unfold digit_char in Hx; vm_compute in Hx; lia|]. destruct (Ascii.eqb_spec x "-") as [->|_]; [unfold digit_char in Hx; vm_compute in Hx; lia|]. done.
Qed.
Lemma ten_neg a k : ten a (- Z.of_nat k) = fround a (10 ^ Z.of_nat k).
Proof. unfold ten. destruct k as [|k]; [by rewrite Z.mul_1_r|]. replace (0 <=? - Z.of_nat (S k)) with false by lia. by rewrite Z.opp_involutive. Qed.
Lemma decimal_float c a k : decimal_number c a k -> float_of c = match finite (fround a (10 ^ Z.of_nat k)) with Some f => Number f | None => Infinite end.
Proof.
  intros H. destruct (decimal_around c a k H) as (H1 & H2 & H3 & H4). destruct (decimal_numeral c a k H) as [Hn Hv]. destruct (decimal_chars c a k H) as [_ (x & r & Ex & Hx)].
  assert (Hs : strip c = c) by (by apply strip_spec). unfold float_of.
  assert (float_ok c = true) as ->.
  { apply (proj2 (float_spec c c)). exists c. split; [|split; [done|by left]]. exists c. split; [done|]. split; [by apply drop_spec|by apply skip_sign_spec]. }
  rewrite Hs, H2, H4. apply number_spec in Hn as ->. rewrite Hv, ten_neg.
  assert (match c with String "-" _ => - a | _ => a end = a) as ->; [|done]. rewrite Ex. clear -Hx. destruct x as [[] [] [] [] [] [] [] []]; try done. unfold digit_char in Hx. vm_compute in Hx. lia.
Qed.
Lemma number_nonneg s : every digit_char s -> 0 <= number s.
Proof.
  intros H. unfold number, every in *. assert (Hg : forall n, 0 <= n -> 0 <= fold_left (fun n c => 10 * n + digit_value c) (list_ascii_of_string s) n); [|by apply Hg].
  induction (list_ascii_of_string s) as [|c l IH]; intros n Hn; [done|]. apply Forall_cons in H as [Hc Hl]. cbn [fold_left]. apply IH; [done|]. unfold digit_value, digit_char in *. lia.
Qed.
Lemma decimal_nonneg c a k : decimal_number c a k -> 0 <= a.
Proof.
  intros [([_ Hc] & -> & _)|(i & f & [_ Hi] & [_ Hf] & _ & -> & _)]; [by apply number_nonneg|]. apply number_nonneg, every_app. done.
Qed.
Lemma star_not_float s : "*"%char ∈ list_ascii_of_string s -> float_of s = NotFloat.
Proof.
  intros Hs. unfold float_of. destruct (float_ok s) eqn:E; [|done]. exfalso. apply float_decimal in E.
  assert (Hr : reads s (CText s)). { apply (C185_text s "*"); [done|]. unfold in_no_number. split; [intros Hd; apply digit_spec in Hd; discriminate|]. split; [by apply blank_no|]. intros H. apply (bool_decide_eq_true_2 _) in H. vm_compute in H. discriminate. }
  inversion Hr as [Hd| | |]. apply Hd, decimal_spec, E.
Qed.
Lemma decimal_finite c a k b : decimal_number c a k -> 0 <= b < 1000 -> a < 2 ^ b * 10 ^ Z.of_nat k -> finite (fround a (10 ^ Z.of_nat k)) = Some (fround a (10 ^ Z.of_nat k)).
Proof.
  intros H Hb Ha. pose proof (decimal_nonneg c a k H) as H0. pose proof (Z.pow_pos_nonneg 10 (Z.of_nat k) ltac:(lia) ltac:(lia)) as HA. set (A := 10 ^ Z.of_nat k) in *. clearbody A.
  destruct (fround a A) as [m e] eqn:E. set (K := Z.abs e). destruct (fround_close a A m e K H0 HA E ltac:(lia) ltac:(lia)) as [Hm Hc].
  pose proof (Z.pow_pos_nonneg 2 K ltac:(lia) ltac:(lia)) as HK. pose proof (Z.pow_pos_nonneg 2 b ltac:(lia) ltac:(lia)) as Hpb.
  apply (finite_small m e K (b + 1)); [lia|lia|lia|lia|]. rewrite (Z.pow_add_r 2 b 1) by lia. change (2 ^ 1) with 2.
  apply (Z.mul_lt_mono_pos_l A); [lia|]. set (x := A * (m * 2 ^ (K + e))) in *. change (2 ^ 53) with 9007199254740992 in Hc.
  assert (a * 2 ^ K < 2 ^ b * A * 2 ^ K) by (apply Z.mul_lt_mono_pos_r; lia). replace (A * (2 ^ b * 2 * 2 ^ K)) with (2 * (2 ^ b * A * 2 ^ K)) by ring. lia.
Qed.
