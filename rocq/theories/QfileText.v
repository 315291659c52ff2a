(** The texts of the file of quotas: proofs. *)
From Verif Require Import Base ReqModel ReqSpec ReqProps AdmModel AdmProps FrontModel FrontSpec FrontProofs ConfModel ConfSpec ConfProps SlotModel QuotasModel CalendarModel CalendarProps QfileModel QfileSpec.
From Coq Require Import Ascii.

(** ** Words *)
Lemma split_blank_nonnil s : split_blank s <> [].
Proof. destruct s as [|c s]; [done|]. cbn [split_blank]. destruct (is_blank c); [done|]. by destruct (split_blank s). Qed.
Lemma words_blanks b s : every blank_char b -> words (b +:+ s) = words s.
Proof.
  induction b as [|c b IH]; [done|]. rewrite every_cons. intros [Hc Hb]. rewrite scons_app. unfold words. cbn [split_blank].
  apply blank_spec in Hc as ->. rewrite filter_cons_False by (intros H; by apply H). by apply IH.
Qed.
Lemma split_blank_word w s : every (fun c => ~ blank_char c) w -> (s = ""%string \/ exists c r, s = String c r /\ blank_char c) -> split_blank (w +:+ s) = w :: tail (split_blank s).
Proof.
  intros Hw Hs. induction w as [|c w IH].
  - rewrite snil_app. destruct Hs as [->|(c & r & -> & Hc)]; [done|]. cbn [split_blank]. apply blank_spec in Hc as ->. done.
  - apply every_cons in Hw as [Hc Hw]. rewrite scons_app. cbn [split_blank]. apply blank_no in Hc as ->. by rewrite (IH Hw).
Qed.
Lemma words_word w s : w <> ""%string -> every (fun c => ~ blank_char c) w -> (s = ""%string \/ exists c r, s = String c r /\ blank_char c) -> words (w +:+ s) = w :: words s.
Proof.
  intros Hn Hw Hs. unfold words. rewrite (split_blank_word w s Hw Hs). rewrite filter_cons_True by done. f_equal.
  destruct Hs as [->|(c & r & -> & Hc)]; [done|]. cbn [split_blank]. apply blank_spec in Hc as ->. cbn [tail]. rewrite filter_cons_False; [done|]. intros H; by apply H.
Qed.
Lemma word_list_words s ws : word_list s ws -> words s = ws.
Proof.
  induction 1 as [b Hb|b w s ws Hb Hn Hw Hs H IH].
  - rewrite <- (app_nil_s b), words_blanks by done. done.
  - rewrite words_blanks, words_word by done. by rewrite IH.
Qed.
Lemma word_prefix s : exists w r, every (fun c => ~ blank_char c) w /\ s = (w +:+ r)%string /\ (r = ""%string \/ exists c r', r = String c r' /\ blank_char c).
Proof.
  induction s as [|c s (w & r & H1 & -> & H3)]; [exists ""%string, ""%string; split; [apply every_nil|]; split; [done|by left]|].
  destruct (is_blank c) eqn:E.
  - apply blank_spec in E. exists ""%string, (String c (w +:+ r)). split; [apply every_nil|]. split; [done|]. right. eauto.
  - apply blank_no in E. exists (String c w), r. rewrite every_cons, scons_app. done.
Qed.
Lemma slen_app a b : String.length (a +:+ b) = (String.length a + String.length b)%nat.
Proof. induction a as [|c a IH]; [done|]. rewrite scons_app. cbn [String.length]. by rewrite IH. Qed.
Lemma word_list_ex s : exists ws, word_list s ws.
Proof.
  remember (String.length s) as n eqn:Hn. revert s Hn. induction n as [n IH] using lt_wf_ind. intros s ->.
  destruct (lstrip_spec s) as (b & Hb & Es & Hs). destruct (word_prefix (lstrip s)) as (w & r & Hw & Ew & Hr).
  destruct (decide (w = ""%string)) as [->|Hn].
  - rewrite snil_app in Ew. destruct Hr as [Hr|(c & r' & Hr & Hc)]; [|exfalso; apply (Hs c r'); [congruence|done]].
    rewrite Hr in Ew. rewrite Ew, app_nil_s in Es. exists []. rewrite Es. by apply wl_nil.
  - destruct (IH (String.length r)) with (s := r) as (ws & Hws); [|done|].
    { rewrite Es, Ew. rewrite !slen_app. destruct w; [done|]. cbn. lia. }
    exists (w :: ws). rewrite Es, Ew. by apply wl_cons.
Qed.
Lemma words_spec s ws : word_list s ws <-> words s = ws.
Proof. split; [apply word_list_words|]. intros <-. destruct (word_list_ex s) as (ws & H). by rewrite (word_list_words s ws H). Qed.

(** ** Splitting *)
Lemma has_char_spec c s : has_char c s = false <-> lacks [c] s.
Proof.
  induction s as [|d s IH]; cbn [has_char lacks]; [done|]. rewrite orb_false_iff, IH. rewrite elem_of_list_singleton. destruct (Ascii.eqb_spec d c) as [->|Hn]; split.
  - by intros [? _].
  - intros [H _]. exfalso. by apply H.
  - by intros [_ ?].
  - by intros [_ ?].
Qed.
Lemma split_concat c ws : ws <> [] -> Forall (lacks [c]) ws -> split_on c (String.concat (String c "") ws) = ws.
Proof.
  induction ws as [|w ws IH]; [done|]. intros _ Hf. apply Forall_cons in Hf as [Hw Hf]. destruct ws as [|w' ws].
  - cbn [String.concat]. by apply split_on_lacks.
  - change (String.concat (String c "") (w :: w' :: ws)) with (w +:+ String c (String.concat (String c "") (w' :: ws)))%string.
    rewrite split_on_sep by done. f_equal. by apply IH.
Qed.
Lemma split_back c s : s = String.concat (String c "") (split_on c s) /\ Forall (lacks [c]) (split_on c s) /\ split_on c s <> [].
Proof.
  induction s as [|a s (IH1 & IH2 & IH3)]; [repeat split; [by apply Forall_singleton|done]|]. cbn [split_on]. destruct (decide (a = c)) as [->|Hn].
  - rewrite bool_decide_true by done. destruct (split_on c s) as [|w ws]; [done|].
    change (String.concat (String c "") ("" :: w :: ws)) with ("" +:+ String c (String.concat (String c "") (w :: ws)))%string. rewrite snil_app, <- IH1.
    repeat split; [|done]. by apply Forall_cons.
  - rewrite bool_decide_false by done. destruct (split_on c s) as [|w ws]; [done|]. apply Forall_cons in IH2 as [Hw IH2]. split; [|split; [|done]].
    + destruct ws as [|w' ws]; cbn [String.concat] in *; [by rewrite IH1|]. rewrite IH1. done.
    + apply Forall_cons. split; [|done]. cbn [lacks]. split; [|done]. rewrite elem_of_list_singleton. done.
Qed.

(** ** Hours *)
Lemma digits_only_int w : digits_only w -> int_ok w = true /\ int_of w = number w.
Proof.
  intros Hw. apply int_spec. exists w, w, w. destruct (number_neutral w Hw w (or_introl eq_refl)) as (H1 & H2 & H3). split; [done|]. split; [done|]. split; [done|]. split; [done|]. left. split; [by left|done].
Qed.
Lemma digits_lack w c : every digit_char w -> ~ digit_char c -> lacks [c] w.
Proof. intros Hw Hc. apply none_lacks. revert Hw. apply every_mono. intros d Hd ->. done. Qed.
Lemma not_digit_colon : ~ digit_char ":". Proof. unfold digit_char. vm_compute. lia. Qed.
Lemma not_digit_dash : ~ digit_char "-". Proof. unfold digit_char. vm_compute. lia. Qed.
Lemma clock_hms_of s n : clock s n -> hms s = Some n.
Proof.
  intros H. unfold hms. inversion H as [h Hh|h m Hh Hm|h m x Hh Hm Hx]; subst.
  - rewrite split_on_lacks by (apply digits_lack; [apply Hh|apply not_digit_colon]). destruct (digits_only_int s Hh) as [-> ->]. done.
  - rewrite split_on_sep, split_on_lacks by (apply digits_lack; [apply Hh || apply Hm|apply not_digit_colon]).
    destruct (digits_only_int h Hh) as [-> ->], (digits_only_int m Hm) as [-> ->]. done.
  - rewrite split_on_sep, split_on_sep, split_on_lacks by (apply digits_lack; [apply Hh || apply Hm || apply Hx|apply not_digit_colon]).
    destruct (digits_only_int h Hh) as [-> ->], (digits_only_int m Hm) as [-> ->], (digits_only_int x Hx) as [-> ->]. done.
Qed.
Lemma clock_lacks s n : clock s n -> lacks ["-"%char] s.
Proof.
  assert (Hd : forall w, digits_only w -> lacks ["-"%char] w) by (intros w [_ Hw]; by apply digits_lack, not_digit_dash).
  intros H. inversion H; subst; rewrite ?lacks_app; cbn [lacks]; rewrite ?lacks_app; cbn [lacks]; rewrite ?elem_of_list_singleton; auto 10.
Qed.
Lemma digits_star h t : digits_only h -> forall r, (h +:+ t)%string <> String "*" r.
Proof. intros [Hn Hh] r. destruct h as [|c h]; [done|]. apply every_cons in Hh as [Hc _]. rewrite scons_app. intros [= -> _]. unfold digit_char in Hc. vm_compute in Hc. lia. Qed.
Lemma clock_star s n : clock s n -> forall r, s <> String "*" r.
Proof.
  intros H r. inversion H as [h Hh|h m Hh Hm|h m x Hh Hm Hx]; subst; [rewrite <- (app_nil_s s)|..]; by apply digits_star.
Qed.
Lemma hours_read s hm : hours_text s hm -> hours s = Some hm.
Proof.
  intros H. inversion H as [|a b x y Ha Hb]; subst; [done|]. unfold hours. rewrite bool_decide_false.
  - rewrite split_on_sep, split_on_lacks by (eapply clock_lacks; eassumption). by rewrite (clock_hms_of a x Ha), (clock_hms_of b y Hb).
  - destruct a as [|c a]; [rewrite snil_app; discriminate|]. rewrite scons_app. intros [= -> _]. by apply (clock_star _ _ Ha a).
Qed.
(** What is accepted. *)
Lemma hms_loose s n : hms s = Some n -> loose_clock s n.
Proof.
  unfold hms. destruct (split_back ":" s) as (E & Hf & Hn). destruct (split_on ":" s) as [|h [|m [|x r]]]; [done|..]; intros H.
  - destruct (int_ok h) eqn:E1; [|done]. injection H as <-. exists [h], [int_of h]. split; [done|]. split; [done|]. split; [eapply Forall_impl; [exact Hf|]; intros ? ?; by apply none_lacks|].
    split; [|cbn; lia]. repeat constructor. by apply int_spec.
  - destruct (int_ok h) eqn:E1; [|done]. destruct (int_ok m) eqn:E2; [|done]. injection H as <-. exists [h; m], [int_of h; int_of m]. split; [done|]. split; [done|].
    split; [eapply Forall_impl; [exact Hf|]; intros ? ?; by apply none_lacks|]. split; [|cbn; lia]. repeat constructor; by apply int_spec.
  - destruct (int_ok h) eqn:E1; [|done]. destruct (int_ok m) eqn:E2; [|done]. destruct (int_ok x) eqn:E3; [|done]. injection H as <-. exists (h :: m :: x :: r), [int_of h; int_of m; int_of x]. split; [done|]. split; [done|].
    split; [eapply Forall_impl; [exact Hf|]; intros ? ?; by apply none_lacks|]. split; [|cbn; lia]. cbn [take]. rewrite take_0. repeat constructor; by apply int_spec.
Qed.
Lemma hours_loose s hm : hours s = Some hm -> loose_hours s hm.
Proof.
  unfold hours. destruct (decide (s = "*"%string)) as [->|Hn]; [rewrite bool_decide_true by done; intros [= <-]; by left|]. rewrite bool_decide_false by done.
  destruct (split_back "-" s) as (E & Hf & _). destruct (split_on "-" s) as [|a [|b [|? ?]]]; try done. destruct (hms a) as [x|] eqn:Ea; [|done]. destruct (hms b) as [y|] eqn:Eb; [|done]. intros [= <-].
  right. exists a, b, x, y. apply Forall_cons in Hf as [Ha Hf]. apply Forall_cons in Hf as [Hb _]. split; [done|]. split; [by apply none_lacks|]. split; [by apply none_lacks|]. split; [by apply hms_loose|]. split; [by apply hms_loose|done].
Qed.

(** ** Days *)
Lemma day_spec s d : sget s day_names = Some d <-> day_name s d.
Proof.
  unfold day_name. split.
  - unfold sget, day_names. cbn [List.find fst]. repeat (case_bool_decide; [intros [= <-]; subst s; cbn [snd]; by_dec|]). done.
  - intros H. repeat (apply elem_of_cons in H as [[= -> ->]|H]; [reflexivity|]). by apply elem_of_nil in H.
Qed.
Lemma day_lacks s d c : day_name s d -> c ∈ ["-"; ","; "*"]%char -> lacks [c] s.
Proof.
  intros H Hc. apply has_char_spec. unfold day_name in H.
  repeat (apply elem_of_cons in Hc as [->|Hc]; [repeat (apply elem_of_cons in H as [[= -> ->]|H]; [reflexivity|]); by apply elem_of_nil in H|]). by apply elem_of_nil in Hc.
Qed.
Lemma day_nonstar s d r : day_name s d -> s <> String "*" r.
Proof. intros H. unfold day_name in H. repeat (apply elem_of_cons in H as [[= -> ->]|H]; [discriminate|]). by apply elem_of_nil in H. Qed.
Lemma concat_lacks c sep ws : c <> sep -> Forall (lacks [c]) ws -> lacks [c] (String.concat (String sep "") ws).
Proof.
  intros Hn. induction ws as [|w ws IH]; [done|]. intros Hf. apply Forall_cons in Hf as [Hw Hf]. destruct ws as [|w' ws]; [done|].
  change (String.concat (String sep "") (w :: w' :: ws)) with (w +:+ String sep (String.concat (String sep "") (w' :: ws)))%string.
  rewrite lacks_app. cbn [lacks]. rewrite elem_of_list_singleton. split; [done|]. split; [by apply not_eq_sym|by apply IH].
Qed.
Lemma days_read s wd : days_text s wd <-> week_days s = Some wd.
Proof.
  unfold week_days. split.
  - intros H. inversion H as [|a b x y Ha Hb|names ds Hn Hf]; subst; [done| |].
    + rewrite bool_decide_false. 2: { pose proof (day_nonstar a x) as Hs. destruct a as [|c a]; [rewrite snil_app; discriminate|]. rewrite scons_app. intros [= -> _]. by apply (Hs a). }
      replace (has_char "-" (a +:+ String "-" b)) with true.
      * rewrite split_on_sep, split_on_lacks by (eapply day_lacks; [eassumption|by_dec]). apply day_spec in Ha as ->. apply day_spec in Hb as ->. done.
      * symmetry. apply not_false_iff_true. rewrite has_char_spec, lacks_app. cbn [lacks]. rewrite elem_of_list_singleton. tauto.
    + assert (Hl : forall c, c ∈ ["-"; ","; "*"]%char -> Forall (lacks [c]) names).
      { intros c Hc. clear Hn H. induction Hf as [|n d ns ds Hnd Hf IH]; [by apply Forall_nil|]. apply Forall_cons. split; [by eapply day_lacks|done]. }
      rewrite bool_decide_false.
      2: { intros E. assert (lacks ["*"%char] (String.concat "," names)) as Hx by (apply concat_lacks; [done|apply Hl; by_dec]). rewrite E in Hx. cbn [lacks] in Hx. destruct Hx as [Hx _]. apply Hx. by left. }
      replace (has_char "-" (String.concat "," names)) with false by (symmetry; apply has_char_spec, concat_lacks; [done|apply Hl; by_dec]).
      rewrite (split_concat ",") by (done || (apply Hl; by_dec)).
      assert (mapM (fun d => sget d day_names) names = Some ds) as ->; [|done]. apply mapM_Some. clear -Hf. induction Hf as [|n d ns ds Hnd Hf IH]; constructor; [by apply day_spec|done].
  - destruct (decide (s = "*"%string)) as [->|Hs]; [rewrite bool_decide_true by done; intros [= <-]; constructor|]. rewrite bool_decide_false by done.
    destruct (has_char "-" s).
    + destruct (split_back "-" s) as (E & _ & _). destruct (split_on "-" s) as [|a [|b [|? ?]]]; try done. destruct (sget a day_names) as [x|] eqn:Ea; [|done]. destruct (sget b day_names) as [y|] eqn:Eb; [|done].
      intros [= <-]. rewrite E. apply day_spec in Ea, Eb. by apply dt_range.
    + destruct (split_back "," s) as (E & _ & Hn). destruct (mapM _ (split_on "," s)) as [ds|] eqn:Em; [|done]. intros [= <-]. rewrite E. apply dt_list; [done|]. apply mapM_Some in Em.
      clear -Em. induction Em as [|n d ns ds Hnd Hf IH]; constructor; [by apply day_spec|done].
Qed.
Lemma good_days_text s wd : days_text s wd -> good_days wd.
Proof.
  assert (Hd : forall s d, day_name s d -> 0 <= d < 7) by (intros s0 d H; unfold day_name in H; repeat (apply elem_of_cons in H as [[= -> ->]|H]; [lia|]); by apply elem_of_nil in H).
  intros H. inversion H as [|a b x y Ha Hb|names ds Hn Hf]; subst; [done|split; by eapply Hd|]. cbn [good_days]. clear Hn H. induction Hf as [|n d ns ds Hnd Hf IH]; intros x Hx; [by apply elem_of_nil in Hx|]. apply elem_of_cons in Hx as [->|Hx]; [by eapply Hd|by apply IH].
Qed.
