From Verif Require Import Base AcctModel AcctSpec.

Lemma zsum_app l1 l2 : zsum (l1 ++ l2) = zsum l1 + zsum l2.
Proof. unfold zsum. induction l1; cbn [app foldr]; lia. Qed.

(** ** Counting seconds *)
Definition overlap (start stop ws we : Z) : Z := Z.max 0 (Z.min stop (we + 1) - Z.max start ws).
Lemma count_in start ws we : forall n,
  Z.of_nat (length (filter (fun t => ws <= t <= we) ((fun i => start + Z.of_nat i) <$> seq 0 n))) =
  overlap start (start + Z.of_nat n) ws we \/ we < ws - 1.
Proof.
  induction n as [|n IH].
  - cbn [seq fmap list_fmap]. rewrite filter_nil. cbn [length]. unfold overlap. lia.
  - rewrite seq_S, fmap_app, filter_app, app_length. cbn [fmap list_fmap Nat.add].
    destruct IH as [IH|IH]; [|by right]. rewrite Nat2Z.inj_add, IH.
    destruct (decide (ws <= start + Z.of_nat n <= we)) as [H|H].
    + rewrite filter_cons_True by done. rewrite filter_nil. cbn [length]. unfold overlap. lia.
    + rewrite filter_cons_False by done. rewrite filter_nil. cbn [length]. unfold overlap. lia.
Qed.
Lemma seconds_in_overlap start stop ws we : ws - 1 <= we -> seconds_in start stop ws we = overlap start stop ws we.
Proof.
  intros H. unfold seconds_in. destruct (count_in start ws we (Z.to_nat (stop - start))) as [->|?]; [|lia].
  unfold overlap. lia.
Qed.

(** ** One row *)
Lemma charged_no_row T ws we g : filter (fun r => key_of r = (ws, we, g)) T = [] -> charged T ws we g = 0.
Proof. unfold charged. intros ->. done. Qed.
Lemma charged_cons r T ws we g : charged (r :: T) ws we g = (if decide (key_of r = (ws, we, g)) then a_cons r else 0) + charged T ws we g.
Proof.
  unfold charged. destruct (decide (key_of r = (ws, we, g))); [rewrite filter_cons_True by done|rewrite filter_cons_False by done]; cbn [fmap list_fmap zsum foldr]; unfold zsum; cbn [foldr]; lia.
Qed.
Lemma charged_app T1 T2 ws we g : charged (T1 ++ T2) ws we g = charged T1 ws we g + charged T2 ws we g.
Proof. unfold charged. rewrite filter_app, fmap_app, zsum_app. done. Qed.
Lemma total_cons r T g : total (r :: T) g = (if decide (group_of r = g) then a_cons r else 0) + total T g.
Proof.
  unfold total. destruct (decide (group_of r = g)); [rewrite filter_cons_True by done|rewrite filter_cons_False by done]; cbn [fmap list_fmap]; unfold zsum; cbn [foldr]; lia.
Qed.
Lemma total_app T1 T2 g : total (T1 ++ T2) g = total T1 g + total T2 g.
Proof. unfold total. rewrite filter_app, fmap_app, zsum_app. done. Qed.

Lemma unique_filter T k : unique T -> filter (fun r => key_of r = k) T = [] \/ exists r, filter (fun r => key_of r = k) T = [r].
Proof.
  unfold unique. induction T as [|r T IH]; intros H; [by left|].
  cbn [fmap list_fmap] in H. apply NoDup_cons in H as [H1 H2].
  destruct (decide (key_of r = k)) as [E|E].
  - right. exists r. rewrite filter_cons_True by done. f_equal.
    destruct (filter (fun r => key_of r = k) T) as [|r' l] eqn:F; [done|]. exfalso. apply H1.
    apply elem_of_list_fmap. exists r'. assert (r' ∈ filter (fun r => key_of r = k) T) as Hin by (rewrite F; left).
    apply elem_of_list_filter in Hin as [? ?]. split; [congruence|done].
  - rewrite filter_cons_False by done. by apply IH.
Qed.

Definition incr (ws we : Z) (g : agroup) (x : Z) (r' : arow) : arow :=
  if bool_decide (key_of r' = (ws, we, g))
  then mkRow (a_start r') (a_stop r') (a_user r') (a_project r') (a_queue r') (a_type r') x else r'.
Lemma incr_key ws we g x r : key_of (incr ws we g x r) = key_of r.
Proof. unfold incr. case_bool_decide; done. Qed.
Lemma incr_group ws we g x r : group_of (incr ws we g x r) = group_of r.
Proof. unfold incr. case_bool_decide; done. Qed.
Lemma incr_charged T ws we g x : forall ws' we' g',
  charged (incr ws we g x <$> T) ws' we' g' =
  if decide ((ws', we', g') = (ws, we, g)) then Z.of_nat (length (filter (fun r => key_of r = (ws, we, g)) T)) * x else charged T ws' we' g'.
Proof.
  intros ws' we' g'. induction T as [|r T IH].
  - cbn. destruct (decide _); done.
  - cbn [fmap list_fmap]. rewrite !charged_cons, IH, incr_key.
    destruct (decide ((ws', we', g') = (ws, we, g))) as [[= -> -> ->]|Hne].
    + destruct (decide (key_of r = (ws, we, g))) as [E|E].
      * rewrite filter_cons_True by done. cbn [length]. unfold incr. rewrite bool_decide_eq_true_2 by done. cbn [a_cons]. lia.
      * rewrite filter_cons_False by done. lia.
    + destruct (decide (key_of r = (ws', we', g'))) as [E|E]; [|done].
      unfold incr. rewrite bool_decide_eq_false_2 by congruence. done.
Qed.
Lemma incr_total T ws we g x : forall g',
  total (incr ws we g x <$> T) g' =
  total T g' + (if decide (g' = g) then Z.of_nat (length (filter (fun r => key_of r = (ws, we, g)) T)) * x - charged T ws we g else 0).
Proof.
  intros g'. induction T as [|r T IH].
  - cbn. destruct (decide _); done.
  - cbn [fmap list_fmap]. rewrite !total_cons, IH, incr_group, charged_cons.
    destruct (decide (key_of r = (ws, we, g))) as [E|E].
    + rewrite filter_cons_True by done. cbn [length]. unfold incr. rewrite bool_decide_eq_true_2 by done. cbn [a_cons].
      assert (group_of r = g) as Eg by (unfold key_of in E; congruence).
      destruct (decide (g' = g)); destruct (decide (group_of r = g')); try congruence; lia.
    + rewrite filter_cons_False by done. unfold incr. rewrite bool_decide_eq_false_2 by done.
      destruct (decide (g' = g)); destruct (decide (group_of r = g')); lia.
Qed.

Lemma add_row_spec T ws we g c : unique T -> exists T', add_row T ws we g c = Ok T' /\ unique T' /\
  (forall ws' we' g', charged T' ws' we' g' = charged T ws' we' g' + if decide ((ws', we', g') = (ws, we, g)) then c else 0) /\
  (forall g', total T' g' = total T g' + if decide (g' = g) then c else 0).
Proof.
  intros HU. unfold add_row. destruct (unique_filter T (ws, we, g) HU) as [E|[r E]]; rewrite E.
  - destruct g as [[[u p] q] t]. eexists. split; [done|]. split; [|split].
    + unfold unique. rewrite fmap_app. apply NoDup_app. split; [done|]. split; [|cbn; apply NoDup_singleton].
      intros k Hk Hk'. cbn in Hk'. apply elem_of_list_singleton in Hk' as ->. apply elem_of_list_fmap in Hk as (r & Hr & Hin).
      assert (r ∈ filter (fun r => key_of r = (ws, we, (u, p, q, t))) T) as HH by (apply elem_of_list_filter; split; [symmetry; exact Hr|done]).
      rewrite E in HH. by apply elem_of_nil in HH.
    + intros ws' we' g'. rewrite charged_app, charged_cons. unfold key_of, group_of. cbn [a_start a_stop a_user a_project a_queue a_type a_cons].
      change (charged [] ws' we' g') with 0.
      destruct (decide _); destruct (decide _); try congruence; lia.
    + intros g'. rewrite total_app, total_cons. unfold group_of. cbn [a_start a_stop a_user a_project a_queue a_type a_cons].
      change (total [] g') with 0. destruct (decide _); destruct (decide _); try congruence; lia.
  - fold (incr ws we g (c + a_cons r)). eexists. split; [done|]. split; [|split].
    + unfold unique. rewrite <- list_fmap_compose. erewrite list_fmap_ext; [exact HU|]. intros i r' _. apply incr_key.
    + intros ws' we' g'. rewrite incr_charged, E. cbn [length]. destruct (decide _) as [[= -> -> ->]|]; [|lia].
      unfold charged. rewrite E. cbn [fmap list_fmap]. unfold zsum. cbn [foldr]. lia.
    + intros g'. rewrite incr_total, E. cbn [length]. destruct (decide (g' = g)) as [->|]; [|lia].
      unfold charged. rewrite E. cbn [fmap list_fmap]. unfold zsum. cbn [foldr]. lia.
Qed.

(** ** The loop *)
Lemma upd_loop_spec w g nb : 0 < w -> forall f T start stop ws we,
  unique T -> is_window w ws we -> ws <= start <= we -> stop - start <= Z.of_nat f ->
  exists T', upd_loop f T start stop ws we w g nb = Ok T' /\ unique T' /\
  (forall ws' we' g', charged T' ws' we' g' = charged T ws' we' g' +
      if decide (g' = g /\ is_window w ws' we') then nb * overlap start stop ws' we' else 0) /\
  (forall g', total T' g' = total T g' + if decide (g' = g) then nb * Z.max 0 (stop - start) else 0).
Proof.
  intros Hw. induction f as [|f IH]; intros T start stop ws we HU Hwin Hin Hf.
  - cbn [upd_loop]. destruct (start <? stop) eqn:E; [lia|]. eexists. split; [done|]. split; [done|]. split.
    + intros ws' we' g'. destruct (decide _); [|lia]. unfold overlap. lia.
    + intros g'. destruct (decide _); lia.
  - cbn [upd_loop]. destruct (start <? stop) eqn:E.
    2: { eexists. split; [done|]. split; [done|]. split.
      + intros ws' we' g'. destruct (decide _); [|lia]. unfold overlap. lia.
      + intros g'. destruct (decide _); lia. }
    set (c := if stop <=? we then stop - start else we - start + 1).
    assert (Hc : c = Z.min stop (we + 1) - start) by (unfold c; destruct (stop <=? we) eqn:?; lia).
    destruct (add_row_spec T ws we g (c * nb) HU) as (T1 & -> & HU1 & HC1 & HT1). cbn [rbind].
    destruct Hwin as [Hm ->].
    assert (Hdiv : ws = w * (ws / w)) by (rewrite (Z.div_mod ws w) at 1; lia).
    destruct (IH T1 (ws + w - 1 + 1) stop (ws + w - 1 + 1) (ws + w - 1 + w)) as (T2 & -> & HU2 & HC2 & HT2).
    { done. }
    { split; [|lia]. replace (ws + w - 1 + 1) with (ws + 1 * w) by lia. rewrite Z.mod_add by lia. done. }
    { lia. } { lia. }
    eexists. split; [done|]. split; [done|]. split.
    + intros ws' we' g'. rewrite HC2, HC1.
      destruct (decide (g' = g /\ is_window w ws' we')) as [[-> [Hm' ->]]|Hno].
      * assert (Hdiv' : ws' = w * (ws' / w)) by (rewrite (Z.div_mod ws' w) at 1; lia).
        destruct (decide ((ws', ws' + w - 1, g) = (ws, ws + w - 1, g))) as [He|He].
        -- assert (ws' = ws) as -> by congruence. unfold overlap. 
           assert (c = Z.max 0 (Z.min stop (ws + w - 1 + 1) - Z.max start ws) - Z.max 0 (Z.min stop (ws + w - 1 + 1) - Z.max (ws + w - 1 + 1) ws)) as -> by lia. lia.
        -- assert (ws' <> ws) as Hne by congruence.
           assert (ws' / w <> ws / w) as Hne' by congruence.
           assert (ws' + w <= ws \/ ws + w <= ws') as Hcase.
           { destruct (decide (ws' / w < ws / w)); [left|right]; rewrite Hdiv, Hdiv'; nia. }
           unfold overlap. rewrite Z.add_0_r. 
           assert (Z.max 0 (Z.min stop (ws' + w - 1 + 1) - Z.max (ws + w - 1 + 1) ws') = Z.max 0 (Z.min stop (ws' + w - 1 + 1) - Z.max start ws')) as -> by lia. lia.
      * destruct (decide ((ws', we', g') = (ws, ws + w - 1, g))) as [He|He]; [|lia].
        exfalso. apply Hno. injection He as -> -> ->. split; [done|]. by split.
    + intros g'. rewrite HT2, HT1. destruct (decide (g' = g)); [|lia]. rewrite Hc.
      destruct (decide (stop <= ws + w - 1 + 1)).
      * replace (Z.max 0 (stop - (ws + w - 1 + 1))) with 0 by lia. replace (Z.min stop (ws + w - 1 + 1)) with stop by lia. replace (Z.max 0 (stop - start)) with (stop - start) by lia. lia.
      * replace (Z.max 0 (stop - (ws + w - 1 + 1))) with (stop - (ws + w)) by lia. replace (Z.min stop (ws + w - 1 + 1)) with (ws + w) by lia. replace (Z.max 0 (stop - start)) with (stop - start) by lia. lia.
Qed.

Lemma update_spec T start stop w g nb : 0 < w -> 0 <= start -> unique T ->
  exists T', update_accounting T start stop w g nb = Ok T' /\ unique T' /\
  (forall ws' we' g', charged T' ws' we' g' = charged T ws' we' g' +
      if decide (g' = g /\ is_window w ws' we') then nb * overlap start stop ws' we' else 0) /\
  (forall g', total T' g' = total T g' + if decide (g' = g) then nb * Z.max 0 (stop - start) else 0).
Proof.
  intros Hw Hs HU. unfold update_accounting. rewrite Z.quot_div_nonneg by lia.
  apply upd_loop_spec; try done.
  - split; [|done]. apply Z.mod_mul. lia.
  - pose proof (Z.div_mod start w ltac:(lia)). pose proof (Z.mod_pos_bound start w Hw). lia.
  - lia.
Qed.

(** ** The whole update *)
Lemma treat_spec w l : 0 < w -> (forall j wt nb, (j, wt, nb) ∈ l -> 0 <= aj_start j) -> forall js T, unique T ->
  exists T', treat w l js T = Ok (match l with [] => js | _ => mark_all js end, T') /\ unique T' /\
  (forall ws we g, charged T' ws we g = charged T ws we g +
     zsum ((fun '(j, wt, nb) =>
              (if decide (g = (aj_user j, aj_project j, aj_queue j, "USED"%string) /\ is_window w ws we)
               then nb * overlap (aj_start j) (aj_stop j) ws we else 0) +
              (if decide (g = (aj_user j, aj_project j, aj_queue j, "ASKED"%string) /\ is_window w ws we)
               then nb * overlap (aj_start j) (aj_start j + wt) ws we else 0)) <$> l)) /\
  (forall g, total T' g = total T g +
     zsum ((fun '(j, wt, nb) =>
              (if decide (g = (aj_user j, aj_project j, aj_queue j, "USED"%string))
               then nb * Z.max 0 (aj_stop j - aj_start j) else 0) +
              (if decide (g = (aj_user j, aj_project j, aj_queue j, "ASKED"%string))
               then nb * Z.max 0 wt else 0)) <$> l)).
Proof.
  intros Hw. induction l as [|[[j wt] nb] l IH]; intros Hpos js T HU.
  - exists T. cbn [treat fmap list_fmap zsum foldr]. split; [done|]. split; [done|]. unfold zsum; cbn [foldr]. split; intros; lia.
  - cbn [treat]. pose proof (Hpos j wt nb ltac:(by left)) as Hj.
    destruct (update_spec T (aj_start j) (aj_stop j) w (aj_user j, aj_project j, aj_queue j, "USED"%string) nb Hw Hj HU) as (T1 & -> & HU1 & HC1 & HT1).
    cbn [rbind].
    destruct (update_spec T1 (aj_start j) (aj_start j + wt) w (aj_user j, aj_project j, aj_queue j, "ASKED"%string) nb Hw Hj HU1) as (T2 & -> & HU2 & HC2 & HT2).
    cbn [rbind]. destruct (IH ltac:(intros; eapply Hpos; by right) (mark_all js) T2 HU2) as (T3 & -> & HU3 & HC3 & HT3).
    assert (mark_all (mark_all js) = mark_all js) as Hidem.
    { unfold mark_all. rewrite <- list_fmap_compose. apply list_fmap_ext. intros i j' _. unfold compose.
      destruct (bool_decide (aj_accounted j' = "NO"%string)) eqn:E; [|by rewrite E]. cbn [aj_accounted]. by rewrite bool_decide_eq_false_2. }
    exists T3. split; [by destruct l; rewrite ?Hidem|]. split; [done|]. split.
    + intros ws we g. rewrite HC3, HC2, HC1. cbn [fmap list_fmap]. unfold zsum. cbn [foldr]. lia.
    + intros g. rewrite HT3, HT2, HT1. cbn [fmap list_fmap]. unfold zsum. cbn [foldr].
      replace (aj_start j + wt - aj_start j) with wt by lia. lia.
Qed.
