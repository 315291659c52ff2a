(** Durations: C30. *)
From Verif Require Import Base TimeModel.

Lemma digit_val_digit d : 0 <= d < 10 -> digit_val (digit d) = Some d.
Proof.
  intros H. assert (d = 0 \/ d = 1 \/ d = 2 \/ d = 3 \/ d = 4 \/ d = 5 \/ d = 6 \/ d = 7 \/ d = 8 \/ d = 9) as Hc by lia.
  destruct Hc as [->|[->|[->|[->|[->|[->|[->|[->|[->| ->]]]]]]]]]; vm_compute; reflexivity.
Qed.
Lemma digits_val_dec f : forall n s, 0 <= n -> n <= Z.of_nat f -> digits_val 0 (dec f n s) = digits_val n s.
Proof.
  induction f as [|f IH]; intros n s H0 Hf; cbn [dec]; destruct (n <? 10) eqn:E.
  - cbn [digits_val]. rewrite digit_val_digit by lia. f_equal. 
  - lia.
  - cbn [digits_val]. rewrite digit_val_digit by lia. f_equal.
  - rewrite IH.
    + cbn [digits_val]. rewrite digit_val_digit by (apply Z.mod_pos_bound; lia). f_equal. rewrite <- Z.div_mod; lia.
    + apply Z.div_pos; lia.
    + pose proof (Z.div_lt n 10 ltac:(lia) ltac:(lia)). lia.
Qed.
(** [dec] begins with a digit. *)
Definition is_digit (c : ascii) : Prop := is_Some (digit_val c).
Fixpoint all_digits (s : string) : Prop := match s with EmptyString => True | String c s' => is_digit c /\ all_digits s' end.
Lemma dec_digits f : forall n s, 0 <= n -> n <= Z.of_nat f -> all_digits s -> all_digits (dec f n s) /\ dec f n s <> EmptyString.
Proof.
  induction f as [|f IH]; intros n s H0 Hf Hs; cbn [dec]; destruct (n <? 10) eqn:E.
  - split; [|done]. cbn. split; [|done]. eexists. apply digit_val_digit. lia.
  - lia.
  - split; [|done]. cbn. split; [|done]. eexists. apply digit_val_digit. lia.
  - apply IH.
    + apply Z.div_pos; lia.
    + pose proof (Z.div_lt n 10 ltac:(lia) ltac:(lia)). lia.
    + cbn. split; [|done]. eexists. apply digit_val_digit. apply Z.mod_pos_bound. lia.
Qed.
Lemma digit_not c : is_digit c -> c <> "-"%char /\ c <> "+"%char /\ c <> ":"%char.
Proof. intros [x H]. split_and!; intros ->; vm_compute in H; done. Qed.
Lemma int_of_digits s : all_digits s -> s <> EmptyString -> int_of s = digits_val 0 s.
Proof.
  destruct s as [|c s]; [done|]. intros [Hc _] _. destruct (digit_not c Hc) as (H1 & H2 & _). cbn [int_of].
  rewrite !bool_decide_eq_false_2 by done. done.
Qed.
Lemma int_of_str n : int_of (str n) = Some n.
Proof.
  unfold str. destruct (n <? 0) eqn:E.
  - cbn [int_of]. rewrite bool_decide_eq_true_2 by done.
    destruct (dec_digits (Z.to_nat (- n)) (- n) "" ltac:(lia) ltac:(lia) I) as [_ Hne].
    pose proof (digits_val_dec (Z.to_nat (- n)) (- n) "" ltac:(lia) ltac:(lia)) as Hv. destruct (dec _ _ _); [done|].
    rewrite Hv. cbn. f_equal. lia.
  - destruct (dec_digits (Z.to_nat n) n "" ltac:(lia) ltac:(lia) I) as [Hd Hne]. rewrite int_of_digits by done.
    rewrite digits_val_dec by lia. done.
Qed.
Lemma int_of_plus n : 0 <= n -> int_of ("+" +:+ str n) = Some n.
Proof.
  intros Hn. unfold str. destruct (n <? 0) eqn:E; [lia|]. change (("+" +:+ dec (Z.to_nat n) n "")%string) with (String "+" (dec (Z.to_nat n) n "")). cbn [int_of].
  rewrite bool_decide_eq_false_2 by done. rewrite bool_decide_eq_true_2 by done.
  destruct (dec_digits (Z.to_nat n) n "" ltac:(lia) ltac:(lia) I) as [_ Hne].
  pose proof (digits_val_dec (Z.to_nat n) n "" ltac:(lia) ltac:(lia)) as Hv. destruct (dec _ _ _); [done|].
  rewrite Hv. done.
Qed.

(** Splitting at ":" *)
Fixpoint no_colon (s : string) : Prop := match s with EmptyString => True | String c s' => c <> ":"%char /\ no_colon s' end.
Lemma split_no_colon s : no_colon s -> split_colon s = [s].
Proof.
  induction s as [|c s IH]; cbn [no_colon split_colon]; [done|]. intros [H1 H2]. rewrite bool_decide_eq_false_2 by done. rewrite IH by done. done.
Qed.
Lemma split_append s t : no_colon s -> split_colon (s +:+ ":" +:+ t) = s :: split_colon t.
Proof.
  induction s as [|c s IH]; cbn [no_colon].
  - intros _. change (("" +:+ ":" +:+ t)%string) with (String ":" t). cbn [split_colon]. rewrite bool_decide_eq_true_2 by done. done.
  - intros [H1 H2]. change ((String c s +:+ ":" +:+ t)%string) with (String c (s +:+ ":" +:+ t)%string). cbn [split_colon].
    rewrite bool_decide_eq_false_2 by done. rewrite IH by done. done.
Qed.
Lemma digits_no_colon s : all_digits s -> no_colon s.
Proof. induction s as [|c s IH]; [done|]. intros [Hc Hs]. split; [by apply digit_not|by apply IH]. Qed.
Lemma str_no_colon n : no_colon (str n).
Proof.
  unfold str. destruct (n <? 0) eqn:E.
  - split; [done|]. apply digits_no_colon, dec_digits; try done; lia.
  - apply digits_no_colon, dec_digits; try done; lia.
Qed.
Lemma plus_no_colon n : no_colon ("+" +:+ str n).
Proof. split; [done|]. apply str_no_colon. Qed.

Lemma hms_bounds t h m s : duration_to_hms t = (h, m, s) -> hms_to_duration h m s = t /\ 0 <= m < 60 /\ 0 <= s < 60.
Proof.
  unfold duration_to_hms, hms_to_duration. intros [= <- <- <-].
  pose proof (Z.div_mod t 3600 ltac:(lia)). pose proof (Z.mod_pos_bound t 3600 ltac:(lia)).
  replace (t - t / 3600 * 3600) with (t mod 3600) by lia.
  pose proof (Z.div_mod (t mod 3600) 60 ltac:(lia)). pose proof (Z.mod_pos_bound (t mod 3600) 60 ltac:(lia)).
  assert (t mod 60 = (t mod 3600) mod 60) as ->.
  { rewrite (Z.div_mod t 3600) at 1 by lia. replace (3600 * (t / 3600) + t mod 3600) with (t mod 3600 + (60 * (t / 3600)) * 60) by lia.
    rewrite Z.mod_add by lia. done. }
  split; [lia|]. split; [|lia]. split; [apply Z.div_pos; lia|]. apply Z.div_lt_upper_bound; lia.
Qed.

(** * C30 *)
Theorem C30_hms : forall t, let '(h, m, s) := duration_to_hms t in
  hms_to_duration h m s = t /\ 0 <= m < 60 /\ 0 <= s < 60 /\ (0 <= t -> 0 <= h).
Proof.
  intros t. destruct (duration_to_hms t) as [[h m] s] eqn:E. destruct (hms_bounds t h m s E) as (H1 & H2 & H3).
  split_and!; try lia. intros Ht. unfold hms_to_duration in H1. nia.
Qed.
Print Assumptions C30_hms.

(** Through the text format, for every duration. *)
Theorem C30_sql_roundtrip : forall t, sql_to_duration (duration_to_sql t) = Some t.
Proof.
  intros t. unfold duration_to_sql. destruct (duration_to_hms t) as [[h m] s] eqn:E. unfold sql_to_duration, sql_to_hms, hms_to_sql.
  rewrite split_append by apply str_no_colon. rewrite split_append by apply str_no_colon. rewrite split_no_colon by apply str_no_colon.
  cbn [mbind option_bind]. rewrite !int_of_str. cbn [mbind option_bind]. f_equal. apply hms_bounds in E as (H & _). exact H.
Qed.
Print Assumptions C30_sql_roundtrip.

(** The text is also read back by the parser of the walltimes of requests. *)
Theorem C30_walltime_roundtrip : forall t, hms_str_to_duration (duration_to_sql t) = Some t.
Proof.
  intros t. unfold duration_to_sql. destruct (duration_to_hms t) as [[h m] s] eqn:E. unfold hms_str_to_duration, hms_to_sql.
  rewrite split_append by apply str_no_colon. rewrite split_append by apply str_no_colon. rewrite split_no_colon by apply str_no_colon.
  rewrite !int_of_str. cbn [mbind option_bind]. f_equal. apply hms_bounds in E as (H & _). unfold hms_to_duration in H. lia.
Qed.
Print Assumptions C30_walltime_roundtrip.

(** Omitted fields are zero. *)
Theorem C30_walltime_short : forall h m,
  hms_str_to_duration (str h) = Some (3600 * h) /\ hms_str_to_duration (str h +:+ ":" +:+ str m) = Some (3600 * h + 60 * m).
Proof.
  intros h m. unfold hms_str_to_duration. rewrite split_append by apply str_no_colon. rewrite !split_no_colon by apply str_no_colon.
  rewrite !int_of_str. done.
Qed.
Print Assumptions C30_walltime_short.

(** The signed format is the sign followed by the absolute value, and two durations with the same
    text are equal. *)
Theorem C30_signed : forall t,
  duration_to_sql_signed t = ((if (0 <? t)%Z then "+" else if (t <? 0)%Z then "-" else "") +:+ duration_to_sql (Z.abs t))%string /\
  (forall t', duration_to_sql_signed t = duration_to_sql_signed t' -> t = t').
Proof.
  assert (H1 : forall t, duration_to_sql_signed t = ((if (0 <? t)%Z then "+" else if (t <? 0)%Z then "-" else "") +:+ duration_to_sql (Z.abs t))%string).
  { intros t. unfold duration_to_sql_signed, duration_to_sql. destruct (duration_to_hms (Z.abs t)) as [[h m] s]. done. }
  assert (Hd : forall t, 0 <= t -> exists c r, duration_to_sql t = String c r /\ c <> "-"%char /\ c <> "+"%char).
  { intros t Ht. unfold duration_to_sql. pose proof (C30_hms t) as Hh. destruct (duration_to_hms t) as [[h m] s]. destruct Hh as (_ & _ & _ & Hh).
    unfold hms_to_sql. unfold str at 1. destruct (h <? 0) eqn:E; [lia|].
    destruct (dec_digits (Z.to_nat h) h "" ltac:(lia) ltac:(lia) I) as [Hdd Hne]. destruct (dec _ h "") as [|c r]; [done|].
    destruct Hdd as [Hc _]. destruct (digit_not c Hc) as (? & ? & _). eexists _, _. split; [done|done]. }
  intros t. split; [apply H1|]. intros t' H. rewrite !H1 in H.
  destruct (Hd (Z.abs t) ltac:(lia)) as (c & r & Ec & Hc1 & Hc2). destruct (Hd (Z.abs t') ltac:(lia)) as (c' & r' & Ec' & Hc1' & Hc2').
  pose proof (C30_sql_roundtrip (Z.abs t)) as R. pose proof (C30_sql_roundtrip (Z.abs t')) as R'.
  assert (Habs : duration_to_sql (Z.abs t) = duration_to_sql (Z.abs t') -> Z.abs t = Z.abs t') by congruence.
  rewrite Ec, Ec' in *.
  destruct (0 <? t) eqn:E1; destruct (0 <? t') eqn:E2; [|destruct (t' <? 0) eqn:E3|destruct (t <? 0) eqn:E3|destruct (t <? 0) eqn:E3; destruct (t' <? 0) eqn:E4];
    unfold String.append in H; try congruence; try (injection H as H; try congruence; specialize (Habs ltac:(congruence)); lia); try lia.
Qed.
Print Assumptions C30_signed.

(** Reading back the signed format: exact for the non-negative durations; the sign of negative
    ones only applies to the hours. *)
Theorem C30_signed_read : forall t, 0 <= t -> sql_to_duration (duration_to_sql_signed t) = Some t.
Proof.
  intros t Ht. destruct (C30_signed t) as [-> _]. destruct (0 <? t) eqn:E.
  - rewrite Z.abs_eq by lia. unfold duration_to_sql. destruct (duration_to_hms t) as [[h m] s] eqn:Eh.
    pose proof (C30_hms t) as Hh. rewrite Eh in Hh. destruct Hh as (Hv & _ & _ & Hh). specialize (Hh Ht).
    unfold sql_to_duration, sql_to_hms, hms_to_sql.
    change ("+" +:+ str h +:+ ":" +:+ str m +:+ ":" +:+ str s)%string with (("+" +:+ str h) +:+ ":" +:+ str m +:+ ":" +:+ str s)%string.
    rewrite split_append by apply plus_no_colon. rewrite split_append by apply str_no_colon. rewrite split_no_colon by apply str_no_colon.
    cbn [mbind option_bind]. rewrite int_of_plus by lia. rewrite !int_of_str. cbn [mbind option_bind]. by f_equal.
  - destruct (t <? 0) eqn:E'; [lia|]. rewrite Z.abs_eq by lia. change (("" +:+ duration_to_sql t)%string) with (duration_to_sql t). apply C30_sql_roundtrip.
Qed.
Print Assumptions C30_signed_read.
Theorem C30_signed_read_refuted : exists t, t < 0 /\ sql_to_duration (duration_to_sql_signed t) = Some (- t).
Proof. exists (-5). split; [lia|]. vm_compute. reflexivity. Qed.
Print Assumptions C30_signed_read_refuted.

(** The compound form (weeks, days, hours, minutes, seconds) denotes the same duration. *)
Theorem C30_compound : forall t, exists w d h m s, compound t = [w; d; h; m; s] /\
  t = 604800 * w + 86400 * d + 3600 * h + 60 * m + s /\ 0 <= d < 7 /\ 0 <= h < 24 /\ 0 <= m < 60 /\ 0 <= s < 60 /\
  (forall n u, (n, u) ∈ get_duration t <-> n <> 0 /\ ((n, u) = (w, "wk") \/ (n, u) = (d, "d") \/ (n, u) = (h, "hr") \/ (n, u) = (m, "min") \/ (n, u) = (s, "sec"))%string).
Proof.
  intros t. exists (t / 60 / 60 / 24 / 7), (t / 60 / 60 / 24 mod 7), (t / 60 / 60 mod 24), (t / 60 mod 60), (t mod 60).
  assert (E : compound t = [t / 60 / 60 / 24 / 7; t / 60 / 60 / 24 mod 7; t / 60 / 60 mod 24; t / 60 mod 60; t mod 60]) by done.
  split; [exact E|].
  pose proof (Z.div_mod t 60 ltac:(lia)). pose proof (Z.mod_pos_bound t 60 ltac:(lia)).
  pose proof (Z.div_mod (t / 60) 60 ltac:(lia)). pose proof (Z.mod_pos_bound (t / 60) 60 ltac:(lia)).
  pose proof (Z.div_mod (t / 60 / 60) 24 ltac:(lia)). pose proof (Z.mod_pos_bound (t / 60 / 60) 24 ltac:(lia)).
  pose proof (Z.div_mod (t / 60 / 60 / 24) 7 ltac:(lia)). pose proof (Z.mod_pos_bound (t / 60 / 60 / 24) 7 ltac:(lia)).
  split; [lia|]. do 4 (split; [done|]).
  intros n u. unfold get_duration. rewrite elem_of_list_filter, E. cbn [zip zip_with fst]. rewrite !elem_of_cons, elem_of_nil. tauto.
Qed.
Print Assumptions C30_compound.
Example C30_example : duration_to_sql 7384 = "2:3:4"%string /\ sql_to_duration "2:3:4" = Some 7384 /\ duration_to_sql_signed (-65) = "-0:1:5"%string /\
  get_duration 694861 = [(1, "wk"); (1, "d"); (1, "hr"); (1, "min"); (1, "sec")]%string /\ hms_str_to_duration "1:1" = Some 3660.
Proof. split_and!; vm_compute; reflexivity. Qed.
