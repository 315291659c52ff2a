(** The file of quotas: C198-C205. *)
From Verif Require Import Base ReqModel ReqSpec ReqProps AdmModel AdmProps FrontModel FrontSpec FrontProofs FrontProps ConfModel ConfSpec ConfProps SlotModel SlotSpec QuotasModel CalendarModel CalendarProps QfileModel QfileSpec QfileText QfileFloat.
From Coq Require Import Ascii.

(** ** Weekly periods *)
Lemma nodup_zseq a b : NoDup (zseq a b).
Proof. unfold zseq. apply NoDup_fmap_2; [|apply NoDup_seq]. intros x y. lia. Qed.
Lemma days_once b dur rid t ds : NoDup ds -> 0 <= b -> b + dur <= 86400 -> (length (base.filter (in_period t) ((fun d => mkPer (86400 * d + b) dur rid) <$> ds)) <= 1)%nat.
Proof.
  intros Hnd Hb Hd. induction Hnd as [|d ds Hn Hnd IH]; [cbn; lia|]. rewrite fmap_cons, filter_cons. destruct (decide (in_period t (mkPer (86400 * d + b) dur rid))) as [Hp|Hp]; [|done].
  cbn [length]. assert (base.filter (in_period t) ((fun d => mkPer (86400 * d + b) dur rid) <$> ds) = []) as E.
  { clear IH Hnd. induction ds as [|d' ds IH]; [done|]. rewrite fmap_cons, filter_cons_False; [apply IH; intros H; apply Hn; by right|].
    unfold in_period in *. cbn [p_begin p_dur] in *. intros H. apply Hn. assert (d = d') as -> by lia. by left. }
  rewrite E. cbn. lia.
Qed.
Lemma from_json_once hm wd rid : good_days wd -> sane hm wd -> disjoint_in_week (from_json hm wd rid) /\ (forall p, p ∈ from_json hm wd rid -> p_rules p = rid).
Proof.
  intros Hg [Hh Hw].
  assert (Hs : forall b dur days, 0 <= b -> 0 < dur -> b + dur <= 86400 -> NoDup days -> (forall x, x ∈ days -> 0 <= x < 7) ->
    disjoint_in_week (expand b dur days rid) /\ (forall p, p ∈ expand b dur days rid -> p_rules p = rid)).
  { intros b dur days H1 H2 H3 H4 H5. rewrite expand_simple by (intros d Hd; specialize (H5 d Hd); unfold WEEK; lia). split; [split|].
    - intros p Hp. apply elem_of_list_fmap in Hp as (d & -> & Hd). specialize (H5 d Hd). cbn [p_begin p_dur]. unfold WEEK. lia.
    - intros t. by apply days_once.
    - intros p Hp. by apply elem_of_list_fmap in Hp as (d & -> & _). }
  unfold from_json. destruct hm as [[b e]|].
  - set (dur := if e =? 0 then 24 * 3600 - b else e - b).
    assert (Hdur : 0 < dur /\ b + dur <= 86400) by (unfold dur; destruct (e =? 0) eqn:E; lia).
    destruct wd as [|d0 d1|ds].
    + apply Hs; try lia; [apply nodup_zseq|]. intros x Hx. apply elem_zseq in Hx. lia.
    + cbn [good_days] in Hg. apply Hs; try lia; [apply nodup_zseq|]. intros x Hx. apply elem_zseq in Hx. lia.
    + apply Hs; try lia; done.
  - destruct wd as [|d0 d1|ds].
    + apply Hs; try lia; [apply nodup_zseq|]. intros x Hx. apply elem_zseq in Hx. lia.
    + cbn [good_days] in Hg. cbn [expand]. rewrite Z.add_0_r. destruct (d1 <? d0) eqn:E0.
      * destruct (WEEK <? 86400 * d0 + 86400 * (d1 + 7 - d0 + 1)) eqn:E; [|unfold WEEK in E; lia].
        assert (Emod : (86400 * d0 + 86400 * (d1 + 7 - d0 + 1)) mod WEEK = 86400 * (d1 + 1)).
        { replace (86400 * d0 + 86400 * (d1 + 7 - d0 + 1)) with (86400 * (d1 + 1) + 1 * WEEK) by (unfold WEEK; lia).
          rewrite Z.mod_add by (unfold WEEK; lia). apply Z.mod_small. unfold WEEK. lia. }
        rewrite Emod. split; [split|].
        -- intros p Hp. apply elem_of_cons in Hp as [->|Hp]; [cbn [p_begin p_dur]; unfold WEEK; lia|]. apply elem_of_list_singleton in Hp as ->. cbn [p_begin p_dur]. unfold WEEK. lia.
        -- intros t. rewrite !filter_cons, filter_nil. destruct (decide (in_period t (mkPer 0 _ rid))) as [H1|H1], (decide (in_period t (mkPer (86400 * d0) _ rid))) as [H2|H2]; cbn [length]; try lia.
           unfold in_period in *. cbn [p_begin p_dur] in *. lia.
        -- intros p Hp. apply elem_of_cons in Hp as [->|Hp]; [done|]. by apply elem_of_list_singleton in Hp as ->.
      * destruct (WEEK <? 86400 * d0 + 86400 * (d1 - d0 + 1)) eqn:E; [unfold WEEK in E; lia|]. split; [split|].
        -- intros p Hp. apply elem_of_list_singleton in Hp as ->. cbn [p_begin p_dur]. unfold WEEK. lia.
        -- intros t. rewrite filter_cons, filter_nil. destruct (decide _); cbn [length]; lia.
        -- intros p Hp. by apply elem_of_list_singleton in Hp as ->.
    + apply Hs; try lia; done.
Qed.
Lemma periodical_read s hm wd rid : period_text s hm wd -> periodical s rid = Started (from_json hm wd rid).
Proof.
  intros (h & d & Hw & Hh & Hd). unfold periodical. apply words_spec in Hw as ->. rewrite !bool_decide_true by done. cbn [andb].
  rewrite (hours_read h hm Hh). apply days_read in Hd as ->. done.
Qed.
Lemma sane_covers hm wd rid t : good_days wd -> sane hm wd -> 0 <= t < WEEK -> (exists p, p ∈ from_json hm wd rid /\ in_period t p) <-> at_time hm wd t.
Proof. intros Hg [H1 H2] Ht. apply C57_entry_partial; try done. by destruct wd, hm as [[]|]. Qed.

(** * C198: a weekly period is read as it is written *)
Theorem C198_read s hm wd rid : period_text s hm wd -> sane hm wd -> exists l, periodical s rid = Started l /\
  (forall p, p ∈ l -> p_rules p = rid) /\ disjoint_in_week l /\
  (forall t, 0 <= t < WEEK -> (exists p, p ∈ l /\ in_period t p) <-> at_time hm wd t).
Proof.
  intros H Hs. exists (from_json hm wd rid). split; [by apply periodical_read|]. destruct H as (h & d & _ & _ & Hd). apply good_days_text in Hd.
  destruct (from_json_once hm wd rid Hd Hs) as [H1 H2]. split; [done|]. split; [done|]. intros t Ht. by apply sane_covers.
Qed.
Lemma words_text (ws : list string) s : words s = ws -> word_list s ws. Proof. apply words_spec. Qed.
Lemma digits_ex w : all_digits w = true -> nonempty w = true -> digits_only w. Proof. intros H1 H2. split; [by apply nonempty_spec|by apply digits_spec]. Qed.
Theorem C198_case : period_text "08:00-19:30 mon-fri * *" (Some (28800, 70200)) (WInterval 0 4) /\ sane (Some (28800, 70200)) (WInterval 0 4) /\
  period_text " *  sat,sun * *" None (WList [5; 6]) /\ sane None (WList [5; 6]) /\ at_time (Some (28800, 70200)) (WInterval 0 4) (2 * 86400 + 30000).
Proof.
  split; [|split; [|split; [|split]]].
  - exists "08:00-19:30"%string, "mon-fri"%string. split; [apply words_text; vm_compute; reflexivity|]. split.
    + apply (ht_range "08:00" "19:30"); [apply (clock_hm "08" "00")|apply (clock_hm "19" "30")]; by apply digits_ex.
    + by apply days_read.
  - split; [lia|lia].
  - exists "*"%string, "sat,sun"%string. split; [apply words_text; vm_compute; reflexivity|]. split; [constructor|by apply days_read].
  - split; [done|]. by_dec.
  - unfold at_time, day_in, hour_in. vm_compute. split; [split; [split; [discriminate|reflexivity]|split; discriminate]|]. split; [discriminate|]. right. reflexivity.
Qed.

(** * C199: other texts are refused *)
Theorem C199_accepted s rid l : periodical s rid = Started l -> exists h d hm wd, word_list s [h; d; "*"; "*"]%string /\ loose_hours h hm /\ days_text d wd /\ l = from_json hm wd rid.
Proof.
  unfold periodical. destruct (words s) as [|h [|d [|md [|mo [|? ?]]]]] eqn:Ew; try done.
  destruct (bool_decide (md = "*"%string) && bool_decide (mo = "*"%string)) eqn:E; [|done]. apply andb_true_iff in E as [E1 E2]. apply bool_decide_eq_true in E1, E2. subst md mo.
  destruct (hours h) as [hm|] eqn:Eh; [|done]. destruct (week_days d) as [wd|] eqn:Ed; [|done]. intros [= <-]. exists h, d, hm, wd. apply words_spec in Ew. apply days_read in Ed. split; [done|]. split; [by apply hours_loose|done].
Qed.
(** In particular a day of the month or a month is never accepted. *)
Theorem C199_no_month s h d md mo rid : word_list s [h; d; md; mo] -> (md <> "*" \/ mo <> "*")%string -> periodical s rid = Exits.
Proof.
  intros Hw Hm. unfold periodical. apply words_spec in Hw as ->. destruct (bool_decide (md = "*"%string) && bool_decide (mo = "*"%string)) eqn:E; [|done].
  apply andb_true_iff in E as [E1 E2]. apply bool_decide_eq_true in E1, E2. by destruct Hm.
Qed.
(** Refuted: hours that do not exist are accepted, and so is what follows the seconds. *)
Theorem C199_strict_refuted : periodical "25:00-26:00 mon * *" 1 = Started [mkPer 90000 3600 1] /\ periodical "08:00:00:77-09:99 mon * *" 1 = Started [mkPer 28800 9540 1] /\
  (forall hm wd, ~ period_text "08:00:00:77-09:99 mon * *" hm wd).
Proof.
  split; [vm_compute; reflexivity|]. split; [vm_compute; reflexivity|]. intros hm wd (h & d & Hw & Hh & Hd). apply word_list_words in Hw. vm_compute in Hw. injection Hw as <- <-.
  remember "08:00:00:77-09:99"%string as s eqn:Es. destruct Hh as [|a b x y Ha Hb]; [discriminate|].
  assert (split_on "-" (a +:+ String "-" b) = [a; b]) as E by (rewrite split_on_sep, split_on_lacks by (eapply clock_lacks; eassumption); done). rewrite Es in E. vm_compute in E. injection E as <- <-.
  remember "08:00:00:77"%string as u eqn:Eu. assert (length (split_on ":" u) = 4%nat) as E4 by (by rewrite Eu).
  destruct Ha as [h Hh|h m Hh Hm|h m z Hh Hm Hz]; revert E4; [rewrite split_on_lacks|rewrite split_on_sep, split_on_lacks|rewrite split_on_sep, split_on_sep, split_on_lacks]; try done; apply digits_lack; try apply not_digit_colon; (apply Hh || apply Hm || apply Hz).
Qed.
Theorem C199_case : word_list "* mon 1 *" ["*"; "mon"; "1"; "*"]%string /\ periodical "* Mon * *" 1 = Exits /\ periodical "* mon *" 1 = Raises EValue /\ periodical "8h-9h mon * *" 1 = Exits.
Proof. split; [apply words_text; vm_compute; reflexivity|]. split; [vm_compute; reflexivity|]. split; vm_compute; reflexivity. Qed.

(** * C201: limits *)
(** Numbers written with a fraction that binary floats hold exactly, whole numbers among them: the integer part. *)
Theorem C201_number all c a k m0 j : decimal_number c a k -> 0 <= j -> a * 2 ^ j = m0 * 10 ^ Z.of_nat k -> m0 < 2 ^ 53 -> whole all (JText c) = Started (a / 10 ^ Z.of_nat k).
Proof.
  intros H Hj E Hm. pose proof (decimal_nonneg c a k H) as H0. pose proof (Z.pow_pos_nonneg 10 (Z.of_nat k) ltac:(lia) ltac:(lia)) as HA.
  pose proof (Z.pow_pos_nonneg 2 j ltac:(lia) Hj) as Hpj. unfold whole. rewrite (decimal_float c a k H).
  rewrite (decimal_finite c a k 53 H) by (try lia; nia). f_equal. set (A := 10 ^ Z.of_nat k) in *. clearbody A.
  destruct (fround a A) as [m e] eqn:Ef. set (K := Z.abs e). destruct (fround_close a A m e K H0 HA Ef ltac:(lia) ltac:(lia)) as [Hm0 _].
  assert (Eg : forall L, Z.abs j <= L -> a * 2 ^ (L + j) = m0 * A * 2 ^ L) by (intros L HL; rewrite Z.pow_add_r by lia; rewrite <- E; ring).
  pose proof (fround_exact a A m e m0 j K H0 HA Eg Hm Ef ltac:(lia) ltac:(lia)) as X. rewrite (truncate_spec m e K) by lia.
  pose proof (Z.pow_pos_nonneg 2 K ltac:(lia) ltac:(lia)) as HK. rewrite <- (Z.div_mul_cancel_l (m * 2 ^ (K + e)) (2 ^ K) A) by lia. rewrite X. rewrite Z.mul_comm, (Z.mul_comm A). by rewrite Z.div_mul_cancel_l by lia.
Qed.
Theorem C201_whole_number all w : digits_only w -> number w < 2 ^ 53 -> whole all (JText w) = Started (number w) /\ whole all (JInt (number w)) = Started (number w).
Proof.
  intros Hw Hn. split; [|done]. rewrite (C201_number all w (number w) 0 (number w) 0); [by rewrite Z.div_1_r| |lia|lia|lia]. by left.
Qed.
(** The three limits of a rule; the hours are counted in seconds. *)
Theorem C201_limits all a b c r rl : limits all (JList (a :: b :: c :: r)) = Started rl <-> exists h, whole all a = Started (lim_res rl) /\ whole all b = Started (lim_jobs rl) /\ whole all c = Started h /\ lim_time rl = 3600 * h.
Proof.
  unfold limits. cbn [items sbind]. split.
  - destruct (whole all a) as [x| |]; [|done..]. destruct (whole all b) as [y| |]; [|done..]. destruct (whole all c) as [z| |]; [|done..]. cbn [sbind]. intros [= <-]. by exists z.
  - intros (h & -> & -> & -> & E). cbn [sbind]. rewrite <- E. by destruct rl.
Qed.
(** Refuted: a part of an hour is lost; half an hour allows nothing. *)
Theorem C201_hours_refuted : limits None (JList [JInt (-1); JInt (-1); JText "0.5"]) = Started (mkRule (-1) (-1) 0) /\ limits None (JList [JInt (-1); JInt (-1); JText "1.75"]) = Started (mkRule (-1) (-1) 3600).
Proof. split; vm_compute; reflexivity. Qed.
(** Refuted: the documentation says that one number alone is a limit of resources. *)
Theorem C201_one_number_refuted : (forall all n, limits all (JOne (JInt n)) = Raises EType) /\ limits None (JOne (JText "120")) = Started (mkRule 1 2 0).
Proof. split; [done|vm_compute; reflexivity]. Qed.
Theorem C201_case : decimal_number "12.75" 1275 2 /\ 1275 * 2 ^ 2 = 51 * 10 ^ Z.of_nat 2 /\ whole None (JText "12.75") = Started 12 /\ limits (Some 8) (JList [JText "ALL"; JInt (-1); JInt 4]) = Started (mkRule 8 (-1) 14400).
Proof.
  split; [|split; [reflexivity|split; vm_compute; reflexivity]]. right. exists "12"%string, "75"%string. split; [by apply digits_ex|]. split; [by apply digits_ex|]. split; [done|]. split; vm_compute; reflexivity.
Qed.

(** * C202: shares of all the resources *)
Theorem C202_all n : whole (Some n) (JText "ALL") = Started n.
Proof. reflexivity. Qed.
Lemma share_whole c a k n : decimal_number c a k -> a < 2 ^ 500 * 10 ^ Z.of_nat k -> 
  whole (Some n) (JText (c +:+ "*ALL")) = int_of_float (fmul (fround a (10 ^ Z.of_nat k)) (fround n 1)).
Proof.
  intros H Ha. unfold whole. rewrite star_not_float by (rewrite list_app; apply elem_of_app; right; left).
  destruct (decimal_chars c a k H) as [Hc _].
  assert (Hl : lacks ["*"%char] c) by (apply none_lacks; revert Hc; apply every_mono; intros x [Hx| ->]; [intros ->; unfold digit_char in Hx; vm_compute in Hx; lia|done]).
  replace (has_char "*" (c +:+ "*ALL")) with true. 2: { symmetry. apply not_false_iff_true. rewrite has_char_spec, lacks_app. cbn [lacks]. rewrite elem_of_list_singleton. tauto. }
  rewrite split_on_sep by done. rewrite (split_on_lacks "*" "ALL") by (by apply has_char_spec).
  rewrite (decimal_float c a k H), (decimal_finite c a k 500 H) by lia. rewrite bool_decide_true by done. done.
Qed.
(** The share is right up to one unit. *)
Theorem C202_close c a k n : decimal_number c a k -> 0 < n < 2 ^ 53 -> a * n < 2 ^ 50 * 10 ^ Z.of_nat k ->
  exists v, whole (Some n) (JText (c +:+ "*ALL")) = Started v /\ a * n / 10 ^ Z.of_nat k - 1 <= v <= a * n / 10 ^ Z.of_nat k + 1.
Proof.
  intros H Hn Han. pose proof (decimal_nonneg c a k H) as H0. pose proof (Z.pow_pos_nonneg 10 (Z.of_nat k) ltac:(lia) ltac:(lia)) as HA.
  rewrite (share_whole c a k n H).
  2: { assert (2 ^ 50 * 10 ^ Z.of_nat k <= 2 ^ 500 * 10 ^ Z.of_nat k) by (apply Z.mul_le_mono_nonneg_r; [lia|]; apply Z.pow_le_mono_r; lia). nia. }
  set (A := 10 ^ Z.of_nat k) in *. clearbody A.
  destruct (share_parts a A n H0 HA ltac:(lia) _ _ eq_refl eq_refl) as (B & T & P & HB & HT & HP & H1 & H2 & _ & H3).
  set (x := a * n) in *. assert (Hx : 0 <= x) by (unfold x; nia). clearbody x.
  assert (HxB : x * B < 2 ^ 50 * A * B) by (apply Z.mul_lt_mono_pos_r; lia).
  assert (Hmain : 2 * Z.abs (A * T - x * B) <= A * B).
  { assert (HAT : 2 ^ 53 * Z.abs (A * T - A * P) <= A * P).
    { replace (A * T - A * P) with (A * (T - P)) by ring. rewrite Z.abs_mul, (Z.abs_eq A) by lia. apply (Z.mul_le_mono_nonneg_l _ _ A ltac:(lia)) in H2. lia. }
    change (2 ^ 53) with 9007199254740992 in *. change (2 ^ 50) with 1125899906842624 in HxB. set (ap := A * P) in *. set (at_ := A * T) in *. set (xb := x * B) in *. replace (1125899906842624 * A * B) with (1125899906842624 * (A * B)) in HxB by ring. set (ab := A * B) in *. clearbody ap at_ xb ab. lia. }
  destruct (H3 52) as (g & -> & Hg); [lia| |].
  { apply (Z.mul_lt_mono_pos_l A); [lia|]. change (2 ^ 50) with 1125899906842624 in HxB. change (2 ^ 52) with 4503599627370496. replace (1125899906842624 * A * B) with (1125899906842624 * (A * B)) in HxB by ring. replace (A * (4503599627370496 * B)) with (4503599627370496 * (A * B)) by ring.
    set (at_ := A * T) in *. set (xb := x * B) in *. assert (0 < A * B) by (apply Z.mul_pos_pos; lia). set (ab := A * B) in *. clearbody at_ xb ab. lia. }
  exists (T / B). split; [cbn [int_of_float]; by rewrite Hg|].
  pose proof (Z.div_mod x A ltac:(lia)) as Ex. pose proof (Z.mod_pos_bound x A HA) as Er. pose proof (Z.div_mod T B ltac:(lia)) as ET. pose proof (Z.mod_pos_bound T B HB) as Es.
  set (q := x / A) in *. set (r := x mod A) in *. set (v := T / B) in *. set (s := T mod B) in *. clearbody q r v s.
  assert (HAB : 0 < A * B) by nia.
  assert (E : A * T - x * B = A * B * (v - q) + A * s - r * B) by (rewrite ET, Ex; ring). rewrite E in Hmain.
  assert (0 <= A * s < A * B) by nia. assert (0 <= r * B < A * B) by nia. set (ab := A * B) in *. set (u := A * s) in *. set (w := r * B) in *. clearbody ab u w. clear -Hmain H4 H5 HAB. split; nia.
Qed.
(** It is exact when the share is a fraction over a power of two. *)
Theorem C202_exact_partial c a k n m0 j : decimal_number c a k -> 0 < n < 2 ^ 53 -> 0 <= j -> a * 2 ^ j = m0 * 10 ^ Z.of_nat k -> m0 * n < 2 ^ 53 ->
  whole (Some n) (JText (c +:+ "*ALL")) = Started (a * n / 10 ^ Z.of_nat k).
Proof.
  intros H Hn Hj E Hm. pose proof (decimal_nonneg c a k H) as H0. pose proof (Z.pow_pos_nonneg 10 (Z.of_nat k) ltac:(lia) ltac:(lia)) as HA. pose proof (Z.pow_pos_nonneg 2 j ltac:(lia) Hj) as Hpj.
  assert (Hm0 : 0 <= m0) by nia. assert (Hm1 : m0 < 2 ^ 53) by nia.
  assert (Ha : a <= m0 * 10 ^ Z.of_nat k) by nia.
  rewrite (share_whole c a k n H).
  2: { assert (2 ^ 53 * 10 ^ Z.of_nat k <= 2 ^ 500 * 10 ^ Z.of_nat k) by (apply Z.mul_le_mono_nonneg_r; [lia|]; apply Z.pow_le_mono_r; lia). nia. }
  set (A := 10 ^ Z.of_nat k) in *. clearbody A.
  destruct (share_parts a A n H0 HA ltac:(lia) _ _ eq_refl eq_refl) as (B & T & P & HB & HT & HP & _ & _ & H1 & H3). specialize (H1 m0 j Hj E Hm1 Hm).
  destruct (H3 54) as (g & -> & Hg); [lia| |].
  { apply (Z.mul_lt_mono_pos_l A); [lia|]. rewrite H1. assert (a * n <= m0 * n * A) by nia. assert (a * n * B <= m0 * n * A * B) by nia. assert (m0 * n * (A * B) < 2 ^ 53 * (A * B)) by (apply Z.mul_lt_mono_pos_r; [nia|done]). change (2 ^ 54) with (2 * 2 ^ 53). change (2 ^ 53) with 9007199254740992 in *. nia. }
  cbn [int_of_float]. rewrite Hg. f_equal. rewrite <- (Z.div_mul_cancel_l T B A) by lia. rewrite H1. by rewrite Z.div_mul_cancel_r by lia.
Qed.
(** Refuted: 29 % of a hundred resources are 28. *)
Theorem C202_exact_refuted : exists c a k n, decimal_number c a k /\ a * n = 29 * 10 ^ Z.of_nat k /\ whole (Some n) (JText (c +:+ "*ALL")) = Started 28.
Proof.
  exists "0.29"%string, 29, 2%nat, 100. split; [|split; [reflexivity|vm_compute; reflexivity]]. right. exists "0"%string, "29"%string. split; [by apply digits_ex|]. split; [by apply digits_ex|]. split; [done|]. split; vm_compute; reflexivity.
Qed.
(** Refuted: in the rules of a period ALL is not known. *)
Theorem C202_period_refuted : whole None (JText "ALL") = Raises EType /\ whole None (JText "0.5*ALL") = Raises EType.
Proof. split; vm_compute; reflexivity. Qed.
(** ALL is the number of resources of type default that are not dead... *)
Lemma count_not_dead rs n : nb_default_not_dead (fold_left count_one rs n) = nb_default_not_dead n + Z.of_nat (length (filter (fun r => fst r <> "Dead"%string /\ snd r = "default"%string) rs)).
Proof.
  revert n. induction rs as [|r rs IH]; intros n; [cbn; lia|]. cbn [fold_left]. rewrite IH. unfold count_one. cbn [nb_default_not_dead].
  destruct (decide (fst r <> "Dead"%string /\ snd r = "default"%string)) as [[H1 H2]|H].
  - rewrite filter_cons_True by done. rewrite (bool_decide_false _ H1), (bool_decide_true _ H2). cbn [negb andb length]. lia.
  - rewrite filter_cons_False by done. destruct (negb _ && _) eqn:E; [|lia]. apply andb_true_iff in E as [E1 E2]. apply negb_true_iff, bool_decide_eq_false in E1. apply bool_decide_eq_true in E2. exfalso. by apply H.
Qed.
Lemma count_default rs n : nb_default n = 0 \/ nb_default n = 1 -> nb_default (fold_left count_one rs n) = 0 \/ nb_default (fold_left count_one rs n) = 1.
Proof.
  revert n. induction rs as [|r rs IH]; intros n H; [done|]. cbn [fold_left]. apply IH. unfold count_one. cbn [nb_default]. destruct (_ && _); tauto.
Qed.
Theorem C202_mode mode rs : mode = None \/ mode = Some "default_not_dead"%string -> all_value mode rs = Z.of_nat (length (filter (fun r => fst r <> "Dead"%string /\ snd r = "default"%string) rs)).
Proof. intros H. unfold all_value. rewrite bool_decide_true by (by destruct H as [-> | ->]). unfold count_resources. by rewrite count_not_dead. Qed.
(** Refuted: ... and with any other mode it is at most 1, whatever the number of resources. *)
Theorem C202_mode_refuted mode rs : mode <> "default_not_dead"%string -> all_value (Some mode) rs <= 1.
Proof. intros H. unfold all_value. rewrite bool_decide_false by done. unfold count_resources. destruct (count_default rs (mkCounts 0 0)) as [-> | ->]; [by left|lia..]. Qed.
Theorem C202_mode_case : let rs := [("Alive", "default"); ("Absent", "default"); ("Dead", "default"); ("Suspected", "default"); ("Alive", "licence")]%string in
  all_value None rs = 3 /\ all_value (Some "default"%string) rs = 1.
Proof. split; vm_compute; reflexivity. Qed.
Theorem C202_case : decimal_number "0.5" 5 1 /\ 5 * 2 ^ 1 = 1 * 10 ^ Z.of_nat 1 /\ whole (Some 35) (JText "0.5*ALL") = Started 17.
Proof.
  split; [|split; [reflexivity|vm_compute; reflexivity]]. right. exists "0"%string, "5"%string. split; [by apply digits_ex|]. split; [by apply digits_ex|]. split; [done|]. split; vm_compute; reflexivity.
Qed.

(** * C200: the rules of each period *)
Definition known (f : qfile) (sets : list (string * rules)) : Prop := NoDup (fst <$> sets) /\ forall n r, (n, r) ∈ sets -> set_rules f n r.
Lemma sget_in {A} k (l : list (string * A)) v : sget k l = Some v -> (k, v) ∈ l.
Proof.
  unfold sget. destruct (List.find _ l) as [[k' v']|] eqn:E; [|done]. intros [= <-]. apply find_some in E as [H1 H2]. apply bool_decide_eq_true in H2. cbn in H2. subst k'. by apply elem_of_list_In.
Qed.
Lemma add_sets_spec f i es : forall acc acc', known f acc -> add_sets f i es acc = Started acc' ->
  known f acc' /\ (forall n, n ∈ fst <$> acc -> n ∈ fst <$> acc') /\ (forall e n, e ∈ es -> e !! i = Some n -> n ∈ fst <$> acc').
Proof.
  induction es as [|p es IH]; intros acc acc' Hk H; cbn [add_sets] in H.
  - injection H as <-. split; [done|]. split; [done|]. intros e n He. by apply elem_of_nil in He.
  - unfold nth_text in H. destruct (p !! i) as [n|] eqn:Ep; [|done]. cbn [sbind] in H. unfold add_set in H. destruct (decide (n ∈ fst <$> acc)) as [Hin|Hin].
    + rewrite bool_decide_true in H by done. cbn [sbind] in H. destruct (IH acc acc' Hk H) as (H1 & H2 & H3). split; [done|]. split; [done|].
      intros e n' He Hn'. apply elem_of_cons in He as [->|He]; [|by apply (H3 e)]. assert (n' = n) as -> by congruence. by apply H2.
    + rewrite bool_decide_false in H by done. destruct (sget n (f_sets f)) as [js|] eqn:Ej; [|done]. destruct (rules_of None js) as [r| |] eqn:Er; [|done..]. cbn [sbind] in H.
      assert (Hk' : known f (acc ++ [(n, r)])).
      { destruct Hk as [Hn Hr]. split.
        - rewrite fmap_app. apply NoDup_app. split; [done|]. split; [|apply NoDup_singleton]. intros x Hx Hx'. apply elem_of_list_singleton in Hx' as ->. done.
        - intros n' r' Hx. apply elem_of_app in Hx as [Hx|Hx]; [by apply Hr|]. apply elem_of_list_singleton in Hx as [= -> ->]. exists js. split; [by apply sget_in|done]. }
      destruct (IH _ acc' Hk' H) as (H1 & H2 & H3). split; [done|]. split.
      * intros n' Hn'. apply H2. rewrite fmap_app. apply elem_of_app. by left.
      * intros e n' He Hn'. apply elem_of_cons in He as [->|He]; [|by apply (H3 e)]. assert (n' = n) as -> by congruence. apply H2. rewrite fmap_app. apply elem_of_app. right. by left.
Qed.
Lemma id_from_spec n l : forall k z, id_from k n l = Some z -> exists i r, z = k + Z.of_nat i /\ l !! i = Some (n, r).
Proof.
  induction l as [|[n' r'] l IH]; intros k z H; cbn [id_from fst] in H; [done|]. case_bool_decide as Hn.
  - injection H as <-. subst n'. exists 0%nat, r'. split; [lia|done].
  - destruct (IH _ _ H) as (i & r & -> & Hi). exists (S i), r. split; [lia|done].
Qed.
Lemma id_rules f sets n id : known f sets -> id_of n sets = Started id -> set_rules f n (rules_by_number sets id).
Proof.
  intros [_ Hk] H. unfold id_of in H. destruct (id_from 0 n sets) as [z|] eqn:E; [|done]. injection H as <-. apply id_from_spec in E as (i & r & -> & Hi).
  unfold rules_by_number. replace (0 <=? 0 + Z.of_nat i) with true by lia. replace (Z.to_nat (0 + Z.of_nat i)) with i by lia. rewrite Hi. cbn. apply Hk. by eapply elem_of_list_lookup_2.
Qed.
(** What the entry [e] gives. *)
Definition entry_read (sets : list (string * rules)) (e : list string) (l : list per) : Prop :=
  exists s n id, entry e s n /\ id_of n sets = Started id /\ ((is_default s /\ l = []) \/ (~ is_default s /\ periodical s id = Started l)).
Lemma default_test s : bool_decide (s = "* * * *"%string) || bool_decide (s = "default"%string) = true <-> is_default s.
Proof. rewrite orb_true_iff, !bool_decide_eq_true. done. Qed.
Lemma read_periods_spec sets es : forall d acc l d', read_periods sets es d acc = Started (l, d') ->
  exists ls, l = acc ++ concat ls /\ Forall2 (entry_read sets) es ls /\
    (forall es1 ed es2 sd nd, es = es1 ++ ed :: es2 -> entry ed sd nd -> is_default sd -> (forall e s n, e ∈ es2 -> entry e s n -> ~ is_default s) -> exists id, id_of nd sets = Started id /\ d' = Some id) /\
    ((forall e s n, e ∈ es -> entry e s n -> ~ is_default s) -> d' = d).
Proof.
  induction es as [|e es IH]; intros d acc l d' H; cbn [read_periods] in H.
  - injection H as <- <-. exists []. split; [by rewrite app_nil_r|]. split; [constructor|]. split; [|done]. intros [|? ?]; discriminate.
  - unfold nth_text in H. destruct (e !! 0%nat) as [s|] eqn:E0; [|done]. cbn [sbind] in H. destruct (e !! 1%nat) as [n|] eqn:E1; [|done]. cbn [sbind] in H.
    destruct (id_of n sets) as [id| |] eqn:Ei; [|done..]. cbn [sbind] in H. assert (He : entry e s n) by done.
    destruct (bool_decide (s = "* * * *"%string) || bool_decide (s = "default"%string)) eqn:Ed.
    + apply default_test in Ed. destruct (IH _ _ _ _ H) as (ls & -> & Hf & Hd & Hnd). exists ([] :: ls). split; [done|]. split; [constructor; [|done]; exists s, n, id; auto 10|]. split.
      * intros [|e0 es1] ed es2 sd nd Es Hed Hsd Hno.
        -- injection Es as <- <-. assert (nd = n) as -> by (destruct He, Hed; congruence). exists id. split; [done|]. by apply Hnd.
        -- injection Es as <- ->. by apply (Hd es1 ed es2 sd nd).
      * intros Hno. exfalso. by apply (Hno e s n); [left| |].
    + assert (Hns : ~ is_default s) by (rewrite <- default_test, Ed; done). destruct (periodical s id) as [lp| |] eqn:Ep; [|done..]. cbn [sbind] in H.
      destruct (IH _ _ _ _ H) as (ls & -> & Hf & Hd & Hnd). exists (lp :: ls). split; [cbn; by rewrite app_assoc|]. split; [constructor; [|done]; exists s, n, id; auto 10|]. split.
      * intros [|e0 es1] ed es2 sd nd Es Hed Hsd Hno.
        -- injection Es as <- <-. exfalso. apply Hns. assert (sd = s) as -> by (destruct He, Hed; congruence). done.
        -- injection Es as <- ->. by apply (Hd es1 ed es2 sd nd).
      * intros Hno. apply Hnd. intros e' s' n' He'. apply Hno. by right.
Qed.
Lemma read_calendar_parts mktime f c : read_calendar mktime f = Started c -> exists l d shots,
  known f (c_sets c) /\ read_periods (c_sets c) (entries_of (f_periodical f)) None [] = Started (l, d) /\ c_pers c = periodicals l d /\
  read_shots mktime (c_sets c) (entries_of (f_oneshot f)) = Started shots /\ c_shots c = merge_sort earlier shots.
Proof.
  unfold read_calendar. destruct (add_sets f 1 _ []) as [s1| |] eqn:E1; [|done..]. cbn [sbind]. destruct (add_sets f 2 _ s1) as [s2| |] eqn:E2; [|done..]. cbn [sbind].
  destruct (read_periods s2 _ None []) as [[l d]| |] eqn:E3; [|done..]. cbn [sbind fst snd]. destruct (read_shots mktime s2 _) as [sh| |] eqn:E4; [|done..]. cbn [sbind]. intros [= <-]. cbn [c_sets c_pers c_shots].
  exists l, d, sh. split; [|done]. apply add_sets_spec in E1 as [E1 _]; [|split; [constructor|intros ? ? H; by apply elem_of_nil in H]]. by apply add_sets_spec in E2 as [E2 _].
Qed.
Lemma concat_once t (ls : list (list per)) : (forall l, l ∈ ls -> (length (base.filter (in_period t) l) <= 1)%nat) ->
  (forall i j a b, ls !! i = Some a -> ls !! j = Some b -> i <> j -> ~ ((exists p, p ∈ a /\ in_period t p) /\ (exists p, p ∈ b /\ in_period t p))) ->
  (length (base.filter (in_period t) (concat ls)) <= 1)%nat.
Proof.
  induction ls as [|l ls IH]; intros H1 H2; [cbn; lia|]. cbn [concat]. rewrite filter_app, app_length.
  destruct (base.filter (in_period t) l) as [|p q] eqn:E.
  - cbn [length]. apply IH; [intros x Hx; apply H1; by right|]. intros i j a b Ha Hb Hij. apply (H2 (S i) (S j)); try done. lia.
  - assert (base.filter (in_period t) (concat ls) = []) as ->; [|rewrite <- E; cbn [length]; rewrite Nat.add_0_r; apply H1; by left].
    destruct (base.filter (in_period t) (concat ls)) as [|p' q'] eqn:E2; [done|exfalso].
    assert (Hp' : p' ∈ base.filter (in_period t) (concat ls)) by (rewrite E2; by left). apply elem_of_list_filter in Hp' as [Ht' Hp']. apply elem_of_list_In, in_concat in Hp' as (b & Hb & Hpb).
    apply elem_of_list_In in Hb, Hpb. apply elem_of_list_lookup in Hb as [j Hj].
    assert (Hp : p ∈ base.filter (in_period t) l) by (rewrite E; by left). apply elem_of_list_filter in Hp as [Ht Hp].
    apply (H2 0%nat (S j) l b); [done|done|done|]. split; eauto.
Qed.
(** The entries are well written, and no two of them speak of the same instant. *)
Definition plain_entries (es : list (list string)) : Prop := forall e, e ∈ es -> exists s n, entry e s n /\ (is_default s \/ exists hm wd, period_text s hm wd /\ sane hm wd).
Definition apart (es : list (list string)) : Prop := forall i j e e' s n s' n' hm wd hm' wd' t, es !! i = Some e -> es !! j = Some e' -> i <> j -> entry e s n -> entry e' s' n' -> ~ is_default s -> ~ is_default s' ->
  period_text s hm wd -> period_text s' hm' wd' -> ~ (at_time hm wd t /\ at_time hm' wd' t).
Lemma period_text_days s hm wd : period_text s hm wd -> good_days wd.
Proof. intros (h & d & _ & _ & Hd). by eapply good_days_text. Qed.
Lemma hours_star hm : hours_text "*" hm -> hm = None.
Proof. intros H. apply hours_read in H. vm_compute in H. by injection H as <-. Qed.
Lemma period_text_fun s hm wd hm' wd' : period_text s hm wd -> period_text s hm' wd' -> hm = hm' /\ wd = wd'.
Proof.
  intros (h & d & Hw & Hh & Hd) (h' & d' & Hw' & Hh' & Hd'). apply words_spec in Hw, Hw'. assert (h = h' /\ d = d') as [<- <-] by (split; congruence).
  apply hours_read in Hh, Hh'. apply days_read in Hd, Hd'. split; congruence.
Qed.
Lemma entry_fun e s n s' n' : entry e s n -> entry e s' n' -> s = s' /\ n = n'.
Proof. intros [H1 H2] [H3 H4]. split; congruence. Qed.
Lemma default_words s hm wd : is_default s -> period_text s hm wd -> s = "* * * *"%string /\ hm = None /\ wd = WAll.
Proof.
  intros [->| ->] (h & d & Hw & Hh & Hd); apply words_spec in Hw; vm_compute in Hw; [|discriminate]. injection Hw as <- <-. split; [done|]. split; [by apply hours_star|].
  apply days_read in Hd. vm_compute in Hd. by injection Hd as <-.
Qed.
Lemma calendar_disjoint sets es ls : Forall2 (entry_read sets) es ls -> plain_entries es -> apart es ->
  disjoint_in_week (concat ls) /\
  (forall p, p ∈ concat ls -> exists e s n id hm wd, e ∈ es /\ entry e s n /\ ~ is_default s /\ id_of n sets = Started id /\ p_rules p = id /\ period_text s hm wd /\ forall t, 0 <= t < WEEK -> in_period t p -> at_time hm wd t) /\
  (forall e s n hm wd t, e ∈ es -> entry e s n -> ~ is_default s -> period_text s hm wd -> 0 <= t < WEEK -> at_time hm wd t -> exists p, p ∈ concat ls /\ in_period t p).
Proof.
  intros Hf Hp Ha.
  assert (Hone : forall i e l, es !! i = Some e -> ls !! i = Some l -> exists s n id, entry e s n /\ id_of n sets = Started id /\ ((is_default s /\ l = []) \/ (~ is_default s /\ exists hm wd, period_text s hm wd /\ sane hm wd /\ l = from_json hm wd id))).
  { intros i e l He Hl. pose proof (Forall2_lookup_lr _ _ _ _ _ _ Hf He Hl) as (s & n & id & Hen & Hid & [[H1 H2]|[H1 H2]]); exists s, n, id; (split; [done|]); (split; [done|]); [by left|right]. split; [done|].
    destruct (Hp e) as (s' & n' & Hen' & [Hd|(hm & wd & Ht & Hs)]); [by eapply elem_of_list_lookup_2| |]; destruct (entry_fun _ _ _ _ _ Hen Hen') as [<- <-]; [done|]. exists hm, wd. split; [done|]. split; [done|].
    rewrite (periodical_read s hm wd id Ht) in H2. by injection H2 as <-. }
  assert (Hall : forall l, l ∈ ls -> exists i e, es !! i = Some e /\ ls !! i = Some l).
  { intros l Hl. apply elem_of_list_lookup in Hl as [i Hi]. destruct (Forall2_lookup_r _ _ _ _ _ Hf Hi) as (e & He & _). eauto. }
  assert (Hel : forall l, l ∈ ls -> disjoint_in_week l).
  { intros l Hl. destruct (Hall l Hl) as (i & e & He & Hi). destruct (Hone i e l He Hi) as (s & n & id & _ & _ & [[_ ->]|(_ & hm & wd & Ht & Hs & ->)]).
    - split; [intros p H; by apply elem_of_nil in H|intros t; cbn; lia].
    - apply from_json_once; [by eapply period_text_days|done]. }
  assert (Hpin : forall p, p ∈ concat ls -> exists l, l ∈ ls /\ p ∈ l).
  { intros p H. apply elem_of_list_In, in_concat in H as (l & H1 & H2). apply elem_of_list_In in H1, H2. eauto. }
  split; [split|split].
  - intros p H. destruct (Hpin p H) as (l & Hl & Hpl). by apply (Hel l Hl).
  - intros t. apply concat_once; [intros l Hl; by apply (Hel l Hl)|]. intros i j a b Hia Hjb Hij [(p & Hpa & Htp) (q & Hqb & Htq)].
    assert (Ht : 0 <= t < WEEK). { destruct (Hel a) as [Hb _]; [by eapply elem_of_list_lookup_2|]. specialize (Hb p Hpa). unfold in_period in Htp. lia. }
    destruct (Forall2_lookup_r _ _ _ _ _ Hf Hia) as (e & He & _). destruct (Forall2_lookup_r _ _ _ _ _ Hf Hjb) as (e' & He' & _).
    destruct (Hone i e a He Hia) as (s & n & id & Hen & _ & [[_ ->]|(Hd & hm & wd & Hpt & Hs & ->)]); [by apply elem_of_nil in Hpa|].
    destruct (Hone j e' b He' Hjb) as (s' & n' & id' & Hen' & _ & [[_ ->]|(Hd' & hm' & wd' & Hpt' & Hs' & ->)]); [by apply elem_of_nil in Hqb|].
    apply (Ha i j e e' s n s' n' hm wd hm' wd' t); try done. split; (eapply sane_covers; [by eapply period_text_days|done|done|eauto]).
  - intros p H. destruct (Hpin p H) as (l & Hl & Hpl). destruct (Hall l Hl) as (i & e & He & Hi). destruct (Hone i e l He Hi) as (s & n & id & Hen & Hid & [[_ ->]|(Hd & hm & wd & Hpt & Hs & ->)]); [by apply elem_of_nil in Hpl|].
    exists e, s, n, id, hm, wd. split; [by eapply elem_of_list_lookup_2|]. split; [done|]. split; [done|]. split; [done|]. split; [eapply from_json_once; [by eapply period_text_days|done|done]|]. split; [done|].
    intros t Ht Hin. eapply sane_covers; [by eapply period_text_days|done|done|eauto].
  - intros e s n hm wd t He Hen Hd Hpt Ht Hat. apply elem_of_list_lookup in He as [i Hi]. destruct (Forall2_lookup_l _ _ _ _ _ Hf Hi) as (l & Hl & _).
    destruct (Hone i e l Hi Hl) as (s' & n' & id & Hen' & Hid & [[Hd' _]|(_ & hm' & wd' & Hpt' & Hs & ->)]); destruct (entry_fun _ _ _ _ _ Hen Hen') as [<- <-]; [done|].
    destruct (period_text_fun _ _ _ _ _ Hpt Hpt') as [<- <-]. destruct (proj2 (sane_covers hm wd id t (period_text_days _ _ _ Hpt) Hs Ht) Hat) as (p & Hpl & Hin).
    exists p. split; [|done]. apply elem_of_list_In, in_concat. exists (from_json hm wd id). split; apply elem_of_list_In; [by eapply elem_of_list_lookup_2|done].
Qed.
(** At each instant of the week one period applies; its rules are those of the entry that speaks of the instant, or those of the last default entry. *)
Theorem C200_week mktime f c es es1 ed es2 sd nd : read_calendar mktime f = Started c -> f_periodical f = Some es -> plain_entries es -> apart es ->
  es = es1 ++ ed :: es2 -> entry ed sd nd -> is_default sd -> (forall e s n, e ∈ es2 -> entry e s n -> ~ is_default s) ->
  forall t, 0 <= t < WEEK -> exists i p, c_pers c !! i = Some p /\ in_period t p /\ (forall j q, c_pers c !! j = Some q -> in_period t q -> j = i) /\
    (forall e s n hm wd, e ∈ es -> entry e s n -> ~ is_default s -> period_text s hm wd -> at_time hm wd t -> set_rules f n (rules_by_number (c_sets c) (p_rules p))) /\
    ((forall e s n hm wd, e ∈ es -> entry e s n -> ~ is_default s -> period_text s hm wd -> ~ at_time hm wd t) -> set_rules f nd (rules_by_number (c_sets c) (p_rules p))).
Proof.
  intros Hc Hf Hp Ha Hes Hed Hsd Hno t Ht. destruct (read_calendar_parts mktime f c Hc) as (l & d & sh & Hk & Hr & Epers & _). rewrite Hf in Hr. cbn [entries_of default from_option id] in Hr.
  destruct (read_periods_spec _ _ _ _ _ _ Hr) as (ls & -> & Hls & Hd & _). rewrite app_nil_l in *. destruct (Hd es1 ed es2 sd nd Hes Hed Hsd Hno) as (id & Hid & ->).
  destruct (calendar_disjoint (c_sets c) es ls Hls Hp Ha) as (Hdj & Hfrom & Hto). rewrite Epers.
  destruct (C27_rules_of_instant (concat ls) id t Hdj Ht) as (i & p & Hi & Hin & Hu & H1 & H2). exists i, p. split; [done|]. split; [done|]. split; [done|]. split.
  - intros e s n hm wd He Hen Hnd Hpt Hat. destruct (Hto e s n hm wd t He Hen Hnd Hpt Ht Hat) as (q & Hq & Hqt).
    assert (Hpl : p ∈ concat ls) by (apply H1; eauto). destruct (Hfrom p Hpl) as (e' & s' & n' & id' & hm' & wd' & He' & Hen' & Hnd' & Hid' & Hr' & Hpt' & Hat').
    rewrite Hr'. assert (n' = n) as ->; [|by apply id_rules].
    apply elem_of_list_lookup in He as [k1 Hk1]. apply elem_of_list_lookup in He' as [k2 Hk2]. destruct (decide (k1 = k2)) as [->|Hne].
    + assert (e' = e) as -> by congruence. by destruct (entry_fun _ _ _ _ _ Hen Hen').
    + exfalso. apply (Ha k1 k2 e e' s n s' n' hm wd hm' wd' t); try done. split; [done|by apply Hat'].
  - intros Hnone. rewrite H2; [by apply id_rules|]. intros (q & Hq & Hqt). destruct (Hfrom q Hq) as (e' & s' & n' & id' & hm' & wd' & He' & Hen' & Hnd' & Hid' & Hr' & Hpt' & Hat').
    apply (Hnone e' s' n' hm' wd' He' Hen' Hnd' Hpt'). by apply Hat'.
Qed.
(** The sets are numbered once each, whatever the number of entries that use them. *)
Theorem C200_sets mktime f c : read_calendar mktime f = Started c -> NoDup (fst <$> c_sets c) /\ forall n r, (n, r) ∈ c_sets c -> set_rules f n r.
Proof. intros H. by destruct (read_calendar_parts mktime f c H) as (_ & _ & _ & Hk & _). Qed.
(** A name that is not in the file stops the program. *)
Theorem C200_unknown_set mktime f c e n i : read_calendar mktime f = Started c -> (e ∈ entries_of (f_periodical f) /\ i = 1%nat) \/ (e ∈ entries_of (f_oneshot f) /\ i = 2%nat) -> e !! i = Some n -> n ∈ fst <$> f_sets f.
Proof.
  unfold read_calendar. destruct (add_sets f 1 _ []) as [s1| |] eqn:E1; [|done..]. cbn [sbind]. destruct (add_sets f 2 _ s1) as [s2| |] eqn:E2; [|done..]. intros _ He Hn.
  assert (K0 : known f []) by (split; [constructor|intros ? ? H; by apply elem_of_nil in H]).
  destruct (add_sets_spec _ _ _ _ _ K0 E1) as (K1 & _ & H1). destruct (add_sets_spec _ _ _ _ _ K1 E2) as (K2 & M2 & H2).
  assert (Hin : n ∈ fst <$> s2) by (destruct He as [[He ->]|[He ->]]; [by apply M2, (H1 e)|by apply (H2 e)]).
  apply elem_of_list_fmap in Hin as ([n' r] & -> & Hin). destruct K2 as [_ K2]. destruct (K2 n' r Hin) as (js & Hjs & _). apply elem_of_list_fmap. by exists (n', js).
Qed.
Definition sample : qfile := mkQfile
  (Some [["08:00-19:00 mon-fri * *"; "day"; "working hours"]; ["* sat-sun * *"; "rest"]; ["default"; "night"; "otherwise"]])%string
  (Some [["2026-07-23 19:30"; "2026-08-29 8:30"; "rest"; "summer"]])%string
  [("day", [("*,*,*,/", JList [JInt 10; JInt (-1); JInt (-1)])]); ("night", [("*,*,*,*", JList [JText "64"; JInt 4; JInt 2])]); ("rest", []); ("quotas", [("*,*,*,john", JList [JText "0.5*ALL"; JInt (-1); JInt (-1)])])]%string (Some ["besteffort"%string]).
Lemma sample_texts : period_text "08:00-19:00 mon-fri * *" (Some (28800, 68400)) (WInterval 0 4) /\ period_text "* sat-sun * *" None (WInterval 5 6).
Proof.
  split.
  - exists "08:00-19:00"%string, "mon-fri"%string. split; [apply words_text; vm_compute; reflexivity|]. split; [|by apply days_read].
    apply (ht_range "08:00" "19:00"); [apply (clock_hm "08" "00")|apply (clock_hm "19" "00")]; by apply digits_ex.
  - exists "*"%string, "sat-sun"%string. split; [apply words_text; vm_compute; reflexivity|]. split; [constructor|by apply days_read].
Qed.
Theorem C200_case : exists es, f_periodical sample = Some es /\ plain_entries es /\ apart es /\ entry ["default"; "night"; "otherwise"]%string "default" "night" /\ (exists es1 ed, es = es1 ++ [ed] /\ ed = ["default"; "night"; "otherwise"]%string) /\
  exists c, read_calendar (fun _ => 5) sample = Started c /\ length (c_pers c) = 12%nat /\ (fst <$> c_sets c) = ["day"; "rest"; "night"]%string.
Proof.
  destruct sample_texts as [T1 T2]. eexists. split; [reflexivity|]. split.
  { intros e He. apply elem_of_cons in He as [->|He]; [eexists _, _; split; [split; reflexivity|]; right; eexists _, _; split; [exact T1|]; split; [lia|lia]|].
    apply elem_of_cons in He as [->|He]; [eexists _, _; split; [split; reflexivity|]; right; eexists _, _; split; [exact T2|]; split; done|].
    apply elem_of_list_singleton in He as ->. eexists _, _. split; [split; reflexivity|]. left. by right. }
  split.
  { intros i j e e' s n s' n' hm wd hm' wd' t Hi Hj Hij [He _] [He' _] Hd Hd' Ht Ht' [[D1 _] [D2 _]].
    destruct i as [|[|[|i]]]; cbn in Hi; try done; injection Hi as <-; cbn in He; injection He as <-; [| |exfalso; apply Hd; by right];
    (destruct j as [|[|[|j]]]; cbn in Hj; try done; injection Hj as <-; cbn in He'; injection He' as <-; try (exfalso; apply Hd'; by right)).
    - destruct (period_text_fun _ _ _ _ _ Ht T1) as [-> ->]. destruct (period_text_fun _ _ _ _ _ Ht' T2) as [-> ->]. unfold day_in in D1, D2. cbn in D1, D2. lia.
    - destruct (period_text_fun _ _ _ _ _ Ht T2) as [-> ->]. destruct (period_text_fun _ _ _ _ _ Ht' T1) as [-> ->]. unfold day_in in D1, D2. cbn in D1, D2. lia. }
  split; [split; reflexivity|]. split; [by exists [["08:00-19:00 mon-fri * *"; "day"; "working hours"]; ["* sat-sun * *"; "rest"]]%string, ["default"; "night"; "otherwise"]%string|].
  destruct (read_calendar (fun _ => 5) sample) as [c| |] eqn:E; [|vm_compute in E; discriminate..]. exists c. split; [done|].
  assert ((match read_calendar (fun _ => 5) sample with Started c => Some (length (c_pers c), fst <$> c_sets c) | _ => None end) = Some (12%nat, ["day"; "rest"; "night"]%string)) as H by (vm_compute; reflexivity).
  rewrite E in H. injection H as H1 H2. split; [exact H1|exact H2].
Qed.

(** * C203: one-shot periods *)
Definition shot_text (mktime : list Z -> Z) (s : string) (n : Z) : Prop :=
  exists y mo d h mi se, date_text (s +:+ ":00") y mo d h mi se /\ real_date y mo d h mi se /\ n = mktime [y; mo; d; h; mi; se].
Lemma shot_date_spec mktime s n : shot_date mktime s = Started (Some n) <-> shot_text mktime s n.
Proof.
  unfold shot_date. split.
  - destruct (parse_date (s +:+ ":00")) as [ll|] eqn:E; [|done]. destruct (parse_date_six _ ll E) as (y & mo & d & h & mi & se & ->). apply parse_date_spec in E.
    destruct (date_exists _) eqn:Ed; [|done]. apply date_exists_spec in Ed. intros [= <-]. by exists y, mo, d, h, mi, se.
  - intros (y & mo & d & h & mi & se & H & Hd & ->). apply parse_date_spec in H as ->. apply date_exists_spec in Hd as ->. done.
Qed.
Theorem C203_read mktime f c os : read_calendar mktime f = Started c -> f_oneshot f = Some os ->
  exists l, c_shots c ≡ₚ l /\ StronglySorted (fun x y => s_begin x <= s_begin y) (c_shots c) /\
    Forall2 (fun o x => exists s0 s1 n description, o !! 0%nat = Some s0 /\ o !! 1%nat = Some s1 /\ o !! 2%nat = Some n /\ o !! 3%nat = Some description /\
      shot_text mktime s0 (s_begin x) /\ shot_text mktime s1 (s_end x) /\ set_rules f n (rules_by_number (c_sets c) (s_rules x))) os l.
Proof.
  intros Hc Hf. destruct (read_calendar_parts mktime f c Hc) as (_ & _ & sh & Hk & _ & _ & Hr & ->). rewrite Hf in Hr. cbn [entries_of default from_option id] in Hr. exists sh.
  split; [apply merge_sort_Permutation|]. split; [assert (Transitive earlier) by (intros ? ? ?; unfold earlier; lia); assert (Total earlier) by (intros ? ?; unfold earlier; lia); exact (StronglySorted_merge_sort earlier sh)|].
  revert sh Hr. clear Hc Hf. induction os as [|o os IH]; intros sh Hr; cbn [read_shots] in Hr; [injection Hr as <-; constructor|].
  destruct (oneshot mktime (c_sets c) o) as [x| |] eqn:E; [|done..]. cbn [sbind] in Hr. destruct (read_shots mktime (c_sets c) os) as [r| |] eqn:Er; [|done..]. cbn [sbind] in Hr. injection Hr as <-.
  constructor; [|by apply IH]. unfold oneshot, nth_text in E. destruct (o !! 0%nat) as [s0|]; [|done]. cbn [sbind] in E. destruct (shot_date mktime s0) as [d0| |] eqn:E0; [|done..]. cbn [sbind] in E.
  destruct (o !! 1%nat) as [s1|]; [|done]. cbn [sbind] in E. destruct (shot_date mktime s1) as [d1| |] eqn:E1; [|done..]. cbn [sbind] in E. destruct d0 as [d0|]; [|done]. destruct d1 as [d1|]; [|done].
  destruct (o !! 2%nat) as [n|]; [|done]. cbn [sbind] in E. destruct (id_of n (c_sets c)) as [id| |] eqn:Ei; [|done..]. cbn [sbind] in E. destruct (o !! 3%nat) as [de|]; [|done]. cbn [sbind] in E. injection E as <-.
  exists s0, s1, n, de. cbn [s_begin s_end s_rules]. apply shot_date_spec in E0, E1. do 6 (split; [done|]). by apply id_rules.
Qed.
(** A text that is no date stops the program. *)
Theorem C203_refused mktime f os o s c i : f_oneshot f = Some os -> o ∈ os -> (i = 0 \/ i = 1)%nat -> o !! i = Some s -> (forall n, ~ shot_text mktime s n) -> read_calendar mktime f <> Started c.
Proof.
  intros Hf Ho Hi Hs Hn Hc. destruct (C203_read mktime f c os Hc Hf) as (l & _ & _ & Hl). apply elem_of_list_lookup in Ho as [k Hk]. destruct (Forall2_lookup_l _ _ _ _ _ Hl Hk) as (x & _ & s0 & s1 & n & de & H0 & H1 & _ & _ & T0 & T1 & _).
  destruct Hi as [-> | ->]; [assert (s = s0) as -> by congruence; by apply (Hn _ T0)|assert (s = s1) as -> by congruence; by apply (Hn _ T1)].
Qed.
(** Refuted: the description, which a weekly period may lack, is required. *)
Theorem C203_description_refuted mktime f os o c : f_oneshot f = Some os -> o ∈ os -> o !! 3%nat = None -> read_calendar mktime f <> Started c.
Proof.
  intros Hf Ho Hd Hc. destruct (C203_read mktime f c os Hc Hf) as (l & _ & _ & Hl). apply elem_of_list_lookup in Ho as [k Hk]. destruct (Forall2_lookup_l _ _ _ _ _ Hl Hk) as (x & _ & s0 & s1 & n & de & _ & _ & _ & H3 & _). congruence.
Qed.
Theorem C203_case : exists os c, f_oneshot sample = Some os /\ read_calendar (fun l => nth 1 l 0) sample = Started c /\ (s_begin <$> c_shots c) = [7] /\ (s_end <$> c_shots c) = [8] /\
  read_calendar (fun _ => 5) (mkQfile None (Some [["2026-07-23 19:30"; "2026-08-29 8:30"; "rest"]]) [("rest", [])] None)%string = Raises EIndex /\
  read_calendar (fun _ => 5) (mkQfile None (Some [["23/07/2026"; "2026-08-29 8:30"; "rest"; "summer"]]) [("rest", [])] None)%string = Exits.
Proof.
  destruct (read_calendar (fun l => nth 1 l 0) sample) as [c| |] eqn:E; [|vm_compute in E; discriminate..]. eexists _, c. split; [reflexivity|]. split; [done|].
  assert ((match read_calendar (fun l => nth 1 l 0) sample with Started c => Some (s_begin <$> c_shots c, s_end <$> c_shots c) | _ => None end) = Some ([7], [8])) as H by (vm_compute; reflexivity).
  rewrite E in H. injection H as -> ->. split; [done|]. split; [done|]. split; vm_compute; reflexivity.
Qed.

(** * C204: one-shot periods alone *)
(** Refuted: with one-shot periods and no weekly one, no round can make its slots. *)
Theorem C204_alone_refuted mktime all f d c : load mktime all f = Started d -> ld_cal d = Some c -> entries_of (f_periodical f) = [] ->
  (forall period week_of t, rules_at (calendar_of c period week_of) t = Err EName) /\
  (forall period week_of fuel ss s, slots ss !! 1 = Some s -> quotas_rules_id (cont s) = -1 -> ss_with_calendar fuel (calendar_of c period week_of) ss = Err EName).
Proof.
  intros H Hc Hf. assert (Hp : c_pers c = []).
  { unfold load in H. destruct (match f_periodical f, f_oneshot f with None, None => Started None | _, _ => _ end) as [oc| |] eqn:E; [|done..]. cbn [sbind] in H.
    destruct (match sget "quotas" (f_sets f) with Some js => _ | None => _ end) as [r| |]; [|done..]. cbn [sbind] in H. injection H as <-. cbn [ld_cal] in Hc. subst oc.
    assert (Hr : read_calendar mktime f = Started c). { destruct (f_periodical f), (f_oneshot f); try discriminate E; (destruct (read_calendar mktime f) as [c'| |]; [|done..]; cbn [sbind] in E; congruence). }
    destruct (read_calendar_parts mktime f c Hr) as (l & dd & sh & _ & Hrp & -> & _). rewrite Hf in Hrp. cbn [read_periods] in Hrp. by injection Hrp as <- <-. }
  assert (Hat : forall period week_of t, rules_at (calendar_of c period week_of) t = Err EName) by (intros period week_of t; unfold rules_at, periodical_rules_at, calendar_of; cbn [pers]; by rewrite Hp).
  split; [done|]. intros period week_of fuel ss s Hs Hid. unfold ss_with_calendar, Base.dget. rewrite Hs. cbn [rbind]. rewrite Hid. cbn [Z.eqb Pos.eqb]. by rewrite Hat.
Qed.
Theorem C204_case : exists d c, load (fun _ => 5) (Some 10) (mkQfile None (f_oneshot sample) (f_sets sample) None) = Started d /\ ld_cal d = Some c /\ length (c_shots c) = 1%nat.
Proof.
  destruct (load (fun _ => 5) (Some 10) (mkQfile None (f_oneshot sample) (f_sets sample) None)) as [d| |] eqn:E; [|vm_compute in E; discriminate..].
  assert ((match load (fun _ => 5) (Some 10) (mkQfile None (f_oneshot sample) (f_sets sample) None) with Started d => (fun c => length (c_shots c)) <$> ld_cal d | _ => None end) = Some 1%nat) as H by (vm_compute; reflexivity).
  rewrite E in H. destruct (ld_cal d) as [c|] eqn:Ec; [|done]. exists d, c. split; [done|]. split; [done|]. by injection H as ->.
Qed.

(** * C205: the default rules, the rules of the periods and the job types, as the slots use them *)
Theorem C205_rules mktime all f d itvs : load mktime all f = Started d -> (forall js, sget "quotas" (f_sets f) = Some js -> rules_of all js = Started (ld_default d)) /\ (sget "quotas" (f_sets f) = None -> ld_default d = []) /\
  q_job_types (q_env (conf_of itvs d)) = "*"%string :: default [] (f_types f) /\
  (forall c id, ld_cal d = Some c -> rules_by_number (c_sets c) id <> [] -> conf_rules (conf_of itvs d) id = rules_by_number (c_sets c) id) /\ (ld_cal d = None -> forall id, conf_rules (conf_of itvs d) id = ld_default d).
Proof.
  intros H. unfold load in H. destruct (match f_periodical f, f_oneshot f with None, None => Started None | _, _ => _ end) as [oc| |] eqn:E; [|done..]. cbn [sbind] in H.
  destruct (match sget "quotas" (f_sets f) with Some js => _ | None => _ end) as [r| |] eqn:Er; [|done..]. cbn [sbind] in H. injection H as <-. cbn [ld_default ld_cal conf_of q_env q_job_types ld_types].
  split; [intros js Hj; by rewrite Hj in Er|]. split; [intros Hj; rewrite Hj in Er; congruence|]. split; [done|]. split.
  - intros c id -> Hne. unfold conf_rules. cbn [q_rules q_default conf_of ld_cal ld_default]. destruct (rules_by_number (c_sets c) id); [by exfalso|reflexivity].
  - intros -> id. done.
Qed.
(** Refuted: a period with an empty set of rules does not lift the limits: the default rules apply. *)
Theorem C205_empty_set_refuted mktime all f d c itvs id : load mktime all f = Started d -> ld_cal d = Some c -> rules_by_number (c_sets c) id = [] -> conf_rules (conf_of itvs d) id = ld_default d.
Proof. intros _ Hc Hr. unfold conf_rules, conf_of. cbn [q_rules]. rewrite Hc, Hr. done. Qed.
Theorem C205_case : exists d c, load (fun _ => 5) (Some 10) sample = Started d /\ ld_cal d = Some c /\ rules_by_number (c_sets c) 1 = [] /\ ld_default d = [(("*", "*", "*", "john")%string, mkRule 5 (-1) (-3600))] /\
  rules_by_number (c_sets c) 2 = [(("*", "*", "*", "*")%string, mkRule 64 4 7200)].
Proof.
  destruct (load (fun _ => 5) (Some 10) sample) as [d| |] eqn:E; [|vm_compute in E; discriminate..].
  assert ((match load (fun _ => 5) (Some 10) sample with Started d => (fun c => (rules_by_number (c_sets c) 1, rules_by_number (c_sets c) 2, ld_default d)) <$> ld_cal d | _ => None end) =
    Some ([], [(("*", "*", "*", "*")%string, mkRule 64 4 7200)], [(("*", "*", "*", "john")%string, mkRule 5 (-1) (-3600))])) as H by (vm_compute; reflexivity).
  rewrite E in H. destruct (ld_cal d) as [c|] eqn:Ec; [|done]. exists d, c. split; [reflexivity|]. split; [exact Ec|]. injection H as H1 H2 H3. split; [exact H1|]. split; [exact H3|exact H2].
Qed.
Print Assumptions C198_read.
Print Assumptions C198_case.
Print Assumptions C199_accepted.
Print Assumptions C199_no_month.
Print Assumptions C199_strict_refuted.
Print Assumptions C199_case.
Print Assumptions C201_number.
Print Assumptions C201_whole_number.
Print Assumptions C201_limits.
Print Assumptions C201_hours_refuted.
Print Assumptions C201_one_number_refuted.
Print Assumptions C201_case.
Print Assumptions C202_all.
Print Assumptions C202_close.
Print Assumptions C202_exact_partial.
Print Assumptions C202_exact_refuted.
Print Assumptions C202_period_refuted.
Print Assumptions C202_mode.
Print Assumptions C202_mode_refuted.
Print Assumptions C202_mode_case.
Print Assumptions C202_case.
Print Assumptions C200_week.
Print Assumptions C200_sets.
Print Assumptions C200_unknown_set.
Print Assumptions C200_case.
Print Assumptions C203_read.
Print Assumptions C203_refused.
Print Assumptions C203_description_refuted.
Print Assumptions C203_case.
Print Assumptions C204_alone_refuted.
Print Assumptions C204_case.
Print Assumptions C205_rules.
Print Assumptions C205_empty_set_refuted.
Print Assumptions C205_case.
