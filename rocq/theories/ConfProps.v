(** The configuration: proofs. *)
From Verif Require Import Base ReqModel ReqSpec ReqProps AdmModel AdmProps FrontModel FrontSpec FrontProofs ConfModel ConfSpec.
From Coq Require Import Ascii.

(** ** Trimming *)
Section trim.
Context (p : ascii -> bool) (P : ascii -> Prop) (HP : forall c, p c = true <-> P c).
Fixpoint gl (s : string) : string := match s with String c s' => if p c then gl s' else s | EmptyString => EmptyString end.
Fixpoint gr (s : string) : string :=
  match s with
  | EmptyString => EmptyString
  | String c s' => match gr s' with EmptyString => if p c then EmptyString else String c EmptyString | r => String c r end
  end.
Lemma p_no c : p c = false <-> ~ P c.
Proof. rewrite <- HP. destruct (p c); split; congruence. Qed.
Lemma gl_skip a t : every P a -> gl (a +:+ t) = gl t.
Proof. induction a as [|c a IH]; [done|]. rewrite every_cons. intros [Hc Ha]. rewrite scons_app. cbn [gl]. apply HP in Hc as ->. by apply IH. Qed.
Lemma gl_spec s : exists a, every P a /\ s = (a +:+ gl s)%string /\ forall c r, gl s = String c r -> ~ P c.
Proof.
  induction s as [|c s (b & H1 & H2 & H3)]; [exists ""%string; split; [apply every_nil|done]|].
  cbn [gl]. destruct (p c) eqn:E.
  - exists (String c b). rewrite every_cons, scons_app, <- H2. by apply HP in E.
  - exists ""%string. split; [apply every_nil|]. split; [done|]. intros ? ? [= -> ->]. by apply p_no in E.
Qed.
Lemma gr_all s : every P s -> gr s = ""%string.
Proof. induction s as [|c s IH]; [done|]. rewrite every_cons. intros [Hc Hs]. cbn [gr]. rewrite (IH Hs). apply HP in Hc as ->. done. Qed.
Lemma gr_app a b : every P b -> gr (a +:+ b) = gr a.
Proof. intros Hb. induction a as [|c a IH]; [rewrite snil_app; by apply gr_all|]. rewrite scons_app. cbn [gr]. by rewrite IH. Qed.
Lemma gr_well s : (forall a d, s = (a +:+ String d "")%string -> ~ P d) -> gr s = s.
Proof.
  induction s as [|c s IH]; [done|]. intros H. cbn [gr]. destruct s as [|d s].
  - cbn [gr]. assert (~ P c) as ->%p_no by (apply (H ""%string c); done). done.
  - rewrite IH; [done|]. intros a d' He. apply (H (String c a) d'). by rewrite scons_app, He.
Qed.
Lemma gr_spec s : exists b, every P b /\ s = (gr s +:+ b)%string /\ forall a d, gr s = (a +:+ String d "")%string -> ~ P d.
Proof.
  induction s as [|c s (b & H1 & H2 & H3)]; [exists ""%string; repeat split; [apply every_nil|intros [|? ?] ?; discriminate]|].
  cbn [gr]. destruct (gr s) as [|d r] eqn:E.
  - destruct (p c) eqn:Ec.
    + exists (String c b). rewrite every_cons. rewrite snil_app in H2. subst. apply HP in Ec. repeat split; [done|done|]. intros [|? ?] ?; discriminate.
    + exists b. rewrite snil_app in H2. subst. repeat split; [done|]. intros [|e [|? ?]] d; [|discriminate|discriminate]. intros [= <-]. by apply p_no.
  - exists b. repeat split; [done|rewrite scons_app; congruence|]. intros [|e a] d' He.
    + discriminate He.
    + rewrite scons_app in He. injection He as -> He. by apply (H3 a).
Qed.
Lemma trim_around s : around P s (gr (gl s)).
Proof.
  destruct (gl_spec s) as (a & Ha & Es & Hs). destruct (gr_spec (gl s)) as (b & Hb & Et & Ht). exists a, b.
  split; [done|]. split; [done|]. split; [by rewrite <- Et|]. split; [|done].
  intros c r E. rewrite E, scons_app in Et. by apply (Hs c (r +:+ b)%string).
Qed.
Lemma around_trim s t : around P s t -> gr (gl s) = t.
Proof.
  intros (a & b & Ha & Hb & -> & Hs & He). rewrite gl_skip by done. destruct t as [|c t].
  - rewrite snil_app. rewrite <- (app_nil_s b), gl_skip by done. done.
  - rewrite scons_app. cbn [gl]. assert (p c = false) as -> by (by apply p_no, (Hs c t)). rewrite <- scons_app, gr_app by done. by apply gr_well.
Qed.
End trim.
Lemma lstrip_gl s : lstrip s = gl is_blank s.
Proof. induction s as [|c s IH]; [done|]. cbn [lstrip gl]. by rewrite IH. Qed.
Lemma rstrip_gr s : rstrip s = gr is_blank s.
Proof. induction s as [|c s IH]; [done|]. cbn [rstrip gr]. by rewrite IH. Qed.
Lemma lq_gl s : lstrip_quotes s = gl is_quote s.
Proof. induction s as [|c s IH]; [done|]. cbn [lstrip_quotes gl]. by rewrite IH. Qed.
Lemma rq_gr s : rstrip_quotes s = gr is_quote s.
Proof. induction s as [|c s IH]; [done|]. cbn [rstrip_quotes gr]. by rewrite IH. Qed.
Lemma quote_spec c : is_quote c = true <-> quote c.
Proof. unfold is_quote, quote. rewrite orb_true_iff, !Ascii.eqb_eq. done. Qed.
Lemma strip_spec s t : around blank_char s t <-> strip s = t.
Proof.
  unfold strip. rewrite lstrip_gl, rstrip_gr. split; [apply (around_trim _ _ blank_spec)|]. intros <-. apply trim_around, blank_spec.
Qed.
Lemma unquote_spec s t : around quote s t <-> unquote s = t.
Proof.
  unfold unquote. rewrite lq_gl, rq_gr. split; [apply (around_trim _ _ quote_spec)|]. intros <-. apply trim_around, quote_spec.
Qed.

(** ** A line *)
Lemma every_mono (P Q : ascii -> Prop) s : (forall c, P c -> Q c) -> every P s -> every Q s.
Proof. intros H Hs. eapply Forall_impl; [exact Hs|done]. Qed.
Lemma none_lacks c s : none_of c s <-> lacks [c] s.
Proof.
  unfold none_of. induction s as [|a s IH]; [split; [done|intros; apply every_nil]|]. rewrite every_cons, IH. cbn [lacks]. rewrite elem_of_list_singleton. tauto.
Qed.
Lemma uncommented_spec l b : uncommented l b <-> before_char "#" l = b.
Proof.
  unfold uncommented. revert b. induction l as [|c l IH]; intros b.
  - cbn [before_char]. split.
    + intros [_ [E|(r & E)]]; [done|]. destruct b; discriminate.
    + intros <-. split; [apply every_nil|by left].
  - cbn [before_char]. destruct (Ascii.eqb "#" c) eqn:E.
    + apply Ascii.eqb_eq in E as <-. split.
      * intros [Hb [E|(r & E)]].
        -- subst b. apply every_cons in Hb as [? _]. done.
        -- destruct b as [|d b]; [done|]. rewrite scons_app in E. injection E as <- _. apply every_cons in Hb as [? _]. done.
      * intros <-. split; [apply every_nil|]. right. exists l. done.
    + apply Ascii.eqb_neq in E. split.
      * intros [Hb E']. destruct b as [|d b].
        -- destruct E' as [E'|(r & E')]; [discriminate|]. rewrite snil_app in E'. injection E' as -> _. done.
        -- apply every_cons in Hb as [Hd Hb]. assert (d = c) as ->. { destruct E' as [E'|(r & E')]; [by injection E'|]. rewrite scons_app in E'. by injection E'. }
           f_equal. apply IH. split; [done|]. destruct E' as [E'|(r & E')]; [left; by injection E'|right]. rewrite scons_app in E'. injection E' as E'. by exists r.
      * intros <-. destruct (proj2 (IH _) eq_refl) as [H1 H2]. split; [apply every_cons; split; [congruence|done]|]. destruct H2 as [H2|(r & H2)]; [left; congruence|right].
        exists r. rewrite scons_app. congruence.
Qed.
Lemma cut_at_spec c s k v : cut_at c s = Some (k, v) <-> none_of c k /\ s = (k +:+ String c v)%string.
Proof.
  rewrite none_lacks. split; [|intros [H ->]; by apply cut_at_app].
  revert k v. induction s as [|a s IH]; intros k v; cbn [cut_at]; [discriminate|]. destruct (bool_decide (a = c)) eqn:E.
  - intros [= <- <-]. apply bool_decide_eq_true in E as ->. done.
  - destruct (cut_at c s) as [[x y]|]; [|discriminate]. intros [= <- <-]. destruct (IH _ _ eq_refl) as [H ->]. apply bool_decide_eq_false in E.
    split; [|by rewrite scons_app]. split; [by rewrite elem_of_list_singleton|done].
Qed.
Lemma cut_at_none c s : cut_at c s = None -> forall k v, s <> (k +:+ String c v)%string.
Proof.
  induction s as [|a s IH]; cbn [cut_at]; [intros _ [|? ?] ?; discriminate|]. destruct (bool_decide (a = c)) eqn:E; [discriminate|].
  destruct (cut_at c s) as [[x y]|]; [discriminate|]. intros _ [|b k] v; apply bool_decide_eq_false in E.
  - rewrite snil_app. congruence.
  - rewrite scons_app. intros [= _ Ek]. by apply (IH eq_refl k v).
Qed.

(** ** Numerals *)
Lemma nonempty_spec s : nonempty s = true <-> s <> ""%string.
Proof. unfold nonempty. by rewrite negb_true_iff, bool_decide_eq_false. Qed.
Lemma skip_sign_spec s t : signed s t <-> skip_sign s = t.
Proof.
  unfold signed. destruct s as [|c s]; cbn [skip_sign].
  - split; [intros [[-> _]|[H|H]]; [done|discriminate|discriminate]|]. intros <-. by left.
  - destruct (Ascii.eqb c "+"%char) eqn:E1; [apply Ascii.eqb_eq in E1 as ->; cbn [orb]|destruct (Ascii.eqb c "-"%char) eqn:E2; [apply Ascii.eqb_eq in E2 as ->; cbn [orb]|]].
    + split; [|intros <-; right; by left]. intros [[<- H]|[H|H]]; [by destruct (H _ _ eq_refl)|by injection H|discriminate].
    + split; [|intros <-; right; by right]. intros [[<- H]|[H|H]]; [by destruct (H _ _ eq_refl)|discriminate|by injection H].
    + cbn [orb]. apply Ascii.eqb_neq in E1, E2. split; [|intros <-; left; split; [done|by intros ? ? [= -> ->]]].
      intros [[<- _]|[H|H]]; [done|by injection H|by injection H].
Qed.
Lemma digits_app i e : every digit_char i -> (forall c r, e = String c r -> ~ digit_char c) -> digits_of (i +:+ e) = i /\ skip_digits (i +:+ e) = e.
Proof.
  intros Hi He. induction i as [|c i IH].
  - rewrite snil_app. destruct e as [|c r]; [done|]. cbn [digits_of skip_digits]. assert (is_digit c = false) as ->; [|done].
    destruct (is_digit c) eqn:E; [|done]. apply digit_spec in E. by destruct (He c r).
  - apply every_cons in Hi as [Hc Hi]. rewrite scons_app. cbn [digits_of skip_digits]. apply digit_spec in Hc as ->. destruct (IH Hi) as [-> ->]. done.
Qed.
Lemma digits_parts s : exists i e, every digit_char i /\ (forall c r, e = String c r -> ~ digit_char c) /\ s = (i +:+ e)%string.
Proof.
  induction s as [|c s (i & e & H1 & H2 & ->)]; [exists "", ""%string; split; [apply every_nil|done]|]. destruct (is_digit c) eqn:E.
  - apply digit_spec in E. exists (String c i), e. by rewrite every_cons, scons_app.
  - exists "", (String c (i +:+ e)). split; [apply every_nil|]. split; [|done]. intros ? ? [= -> _] H. apply digit_spec in H. congruence.
Qed.
Lemma exponent_spec e : exponent_ok e = true <-> exponent e.
Proof.
  unfold exponent. destruct e as [|c r]; cbn [exponent_ok]; [split; [by left|done]|].
  rewrite !andb_true_iff, orb_true_iff, !Ascii.eqb_eq, nonempty_spec, digits_spec. split.
  - intros [[H1 H2] H3]. right. exists c, r, (skip_sign r). split; [done|]. split; [by apply skip_sign_spec|]. done.
  - intros [H|(c' & x & ds & H1 & H2 & [H3 H4] & E)]; [discriminate|]. injection E as -> ->. apply skip_sign_spec in H2 as ->. done.
Qed.
Lemma exponent_start e c r : exponent e -> e = String c r -> ~ digit_char c /\ c <> "."%char.
Proof. intros [->|(c' & x & ds & [-> | ->] & _ & _ & ->)]; [discriminate| |]; intros [= <- _]; (split; [unfold digit_char; vm_compute; lia|done]). Qed.
Lemma number_spec t : number_ok t = true <-> numeral t.
Proof.
  unfold number_ok, numeral. split.
  - destruct (digits_parts t) as (i & e & Hi & He & ->). destruct (digits_app i e Hi He) as [-> ->].
    intros H. assert ((exists r, e = String "." r /\ (nonempty i || nonempty (digits_of r)) && exponent_ok (skip_digits r) = true) \/ nonempty i && exponent_ok e = true) as [(r & -> & H1)|H1].
    { destruct e as [|c r]; [by right|]. destruct (decide (c = "."%char)) as [->|Hc]; [left; by exists r|right]. by destruct c as [[] [] [] [] [] [] [] []]. }
    + destruct (digits_parts r) as (f & g & Hf & Hg & ->). destruct (digits_app f g Hf Hg) as [E1 E2]. rewrite E1, E2 in H1.
      apply andb_true_iff in H1 as [H1 H2]. apply orb_true_iff in H1. rewrite !nonempty_spec in H1. exists i, g. split; [done|]. split; [by apply exponent_spec|]. right. exists f. done.
    + apply andb_true_iff in H1 as [H1 H2]. apply nonempty_spec in H1. exists i, e. split; [done|]. split; [by apply exponent_spec|]. by left.
  - intros (i & e & Hi & He & [[Hn ->]|(f & Hf & Hn & ->)]).
    + destruct (digits_app i e Hi) as [-> ->]; [intros c r E; by destruct (exponent_start e c r)|]. apply exponent_spec in He as He'.
      assert (nonempty i = true) as Hn' by by apply nonempty_spec. destruct e as [|c r]; [by rewrite Hn'|]. destruct (exponent_start _ c r He eq_refl) as [_ Hc].
      destruct c as [[] [] [] [] [] [] [] []]; try (by rewrite Hn'); try done.
    + destruct (digits_app i ("." +:+ f +:+ e) Hi) as [-> ->]; [intros c r E; injection E as <- _; unfold digit_char; vm_compute; lia|].
      change ("." +:+ f +:+ e)%string with (String "." (f +:+ e)). destruct (digits_app f e Hf) as [-> ->]; [intros c r E; by destruct (exponent_start e c r)|].
      rewrite andb_true_iff, orb_true_iff, !nonempty_spec, exponent_spec. done.
Qed.
Lemma lower_spec s t : same_letters s t <-> lower s = t.
Proof.
  unfold same_letters. revert t. induction s as [|c s IH]; intros t; cbn [lower list_ascii_of_string].
  - destruct t as [|d t]; cbn [list_ascii_of_string]; [split; [done|constructor]|]. split; [inversion 1|discriminate].
  - destruct t as [|d t]; cbn [list_ascii_of_string]; [split; [inversion 1|discriminate]|].
    assert (Hc : lower_char c = d <-> ((65 <= nat_of_ascii c <= 90 /\ nat_of_ascii d = nat_of_ascii c + 32) \/ (~ 65 <= nat_of_ascii c <= 90 /\ d = c))%nat).
    { unfold lower_char. cbv zeta. destruct ((65 <=? nat_of_ascii c) && (nat_of_ascii c <=? 90))%nat eqn:E.
      - apply andb_true_iff in E. rewrite !Nat.leb_le in E. split.
        + intros <-. left. split; [lia|]. apply nat_ascii_embedding. lia.
        + intros [[_ H]|[H _]]; [|lia]. rewrite <- H. apply ascii_nat_embedding.
      - apply andb_false_iff in E. rewrite !Nat.leb_gt in E. split; [intros <-; right; split; [lia|done]|]. intros [[H _]|[_ H]]; [lia|done]. }
    split.
    + intros H. apply Forall2_cons in H as [H1 H2]. apply Hc in H1 as ->. f_equal. by apply IH.
    + intros [= H1 H2]. apply Forall2_cons. split; [by apply Hc|by apply IH].
Qed.
Lemma infinite_spec s : infinite s = true <-> infinity_word s.
Proof. unfold infinite, infinity_word. by rewrite orb_true_iff, !bool_decide_eq_true, !lower_spec. Qed.
Lemma nan_spec s : nan_ok s = true <-> nan_word s.
Proof.
  unfold nan_ok, nan_word. split.
  - intros H. destruct (after_prefix "snan" (lower s)) as [r|] eqn:E1.
    + apply after_prefix_spec in E1. exists "snan"%string, r. split; [by right|]. split; [by apply digits_spec|]. by apply lower_spec.
    + destruct (after_prefix "nan" (lower s)) as [r|] eqn:E2; [|discriminate]. apply after_prefix_spec in E2. exists "nan"%string, r. split; [by left|]. split; [by apply digits_spec|]. by apply lower_spec.
  - intros (n & t & [-> | ->] & Ht & H); apply lower_spec in H as ->.
    + assert (after_prefix "snan" ("nan" +:+ t) = None) as -> by done. rewrite (proj2 (after_prefix_spec "nan" _ t)) by done. by apply digits_spec.
    + rewrite (proj2 (after_prefix_spec "snan" _ t)) by done. by apply digits_spec.
Qed.
Lemma drop_spec s t : without_underscores s t <-> drop_underscores s = t.
Proof.
  assert (H : list_ascii_of_string (drop_underscores s) = filter (fun c => c <> "_"%char) (list_ascii_of_string s)).
  { induction s as [|c s IH]; [done|]. cbn [drop_underscores list_ascii_of_string]. destruct (Ascii.eqb c "_"%char) eqn:E.
    - apply Ascii.eqb_eq in E. rewrite filter_cons_False by tauto. done.
    - apply Ascii.eqb_neq in E. rewrite filter_cons_True by done. cbn [list_ascii_of_string]. by rewrite IH. }
  unfold without_underscores. rewrite <- H. split; [|by intros <-]. intros E. rewrite <- (string_of_list_ascii_of_string t), E. by rewrite string_of_list_ascii_of_string.
Qed.
Lemma between_from p s : between_digits p s = true <->
  forall a b, s = (a +:+ String "_" b)%string -> ((a = ""%string /\ p = true) \/ exists a' c, digit_char c /\ a = (a' +:+ String c "")%string) /\ exists d b', digit_char d /\ b = String d b'.
Proof.
  revert p. induction s as [|c s IH]; intros p; cbn [between_digits]; [split; [intros _ [|? ?] ? ?; discriminate|done]|].
  destruct (Ascii.eqb c "_"%char) eqn:E.
  - apply Ascii.eqb_eq in E as ->. rewrite !andb_true_iff, IH. split.
    + intros [[-> H1] H2] a b Hs. destruct a as [|a0 a].
      * rewrite snil_app in Hs. injection Hs as <-. split; [by left|]. destruct s as [|d s]; [discriminate|]. apply digit_spec in H1. by exists d, s.
      * rewrite scons_app in Hs. injection Hs as <- Hs. destruct (H2 _ _ Hs) as [[[_ ?]|(a' & c & Hc & ->)] H4]; [discriminate|]. split; [|done]. right. exists (String "_" a'), c. split; [done|]. by rewrite scons_app.
    + intros H. destruct (H ""%string s eq_refl) as [[[_ ->]|(a' & c & _ & Ha)] (d & b' & Hd & ->)]; [|destruct a'; discriminate].
      split; [split; [done|by apply digit_spec]|]. intros a b Hs. destruct (H (String "_" a) b) as [[[? _]|(a' & c & Hc & Ha)] H2]; [by rewrite Hs, scons_app|discriminate|].
      split; [|done]. right. destruct a' as [|a0 a'].
      * rewrite snil_app in Ha. injection Ha as <- _. exfalso. revert Hc. unfold digit_char. vm_compute. lia.
      * rewrite scons_app in Ha. injection Ha as _ ->. by exists a', c.
  - apply Ascii.eqb_neq in E. rewrite IH. split.
    + intros H a b Hs. destruct a as [|a0 a]; [rewrite snil_app in Hs; injection Hs as -> _; done|]. rewrite scons_app in Hs. injection Hs as -> Hs.
      destruct (H a b Hs) as [[[-> Hd]|(a' & c & Hc & ->)] H2]; (split; [right|done]).
      * apply digit_spec in Hd. by exists ""%string, a0.
      * exists (String a0 a'), c. by rewrite scons_app.
    + intros H a b Hs. destruct (H (String c a) b) as [[[? _]|(a' & d & Hd & Ha)] H2]; [by rewrite Hs, scons_app|discriminate|]. split; [|done].
      destruct a' as [|a0 a'].
      * rewrite snil_app in Ha. injection Ha as -> ->. left. split; [done|by apply digit_spec].
      * rewrite scons_app in Ha. injection Ha as -> ->. right. by exists a', d.
Qed.
Lemma between_spec s : between_digits false s = true <-> underscores_inside s.
Proof.
  rewrite between_from. unfold underscores_inside. split; intros H a b E; destruct (H a b E) as [H1 H2]; (split; [|done]).
  - destruct H1 as [[_ ?]|H1]; [discriminate|done].
  - by right.
Qed.
Lemma decimal_spec u : decimal_ok u = true <-> decimal_text u.
Proof.
  unfold decimal_ok, decimal_text, cleaned. cbv zeta. rewrite !orb_true_iff, number_spec, infinite_spec, nan_spec. split.
  - intros H. exists (strip u), (skip_sign (drop_underscores (strip u))). split; [|tauto]. exists (drop_underscores (strip u)).
    split; [by apply strip_spec|]. split; [by apply drop_spec|by apply skip_sign_spec].
  - intros (t & w & (x & H1 & H2 & H3) & H). apply strip_spec in H1 as ->. apply drop_spec in H2 as ->. apply skip_sign_spec in H3 as ->. tauto.
Qed.
Lemma float_spec u t : (float_ok u = true /\ strip u = t) <-> float_text u t.
Proof.
  unfold float_ok, float_text, cleaned. cbv zeta. rewrite andb_true_iff, !orb_true_iff, bool_decide_eq_true, number_spec, infinite_spec, between_spec. split.
  - intros [[H1 H2] <-]. exists (skip_sign (drop_underscores (strip u))). split; [|split; [done|rewrite lower_spec; tauto]]. exists (drop_underscores (strip u)).
    split; [by apply strip_spec|]. split; [by apply drop_spec|by apply skip_sign_spec].
  - intros (w & (x & H1 & H2 & H3) & H4 & H5). apply strip_spec in H1 as ->. apply drop_spec in H2 as ->. apply skip_sign_spec in H3 as ->. rewrite lower_spec in H5. tauto.
Qed.
Lemma number_of w : number_from 0 w = number w.
Proof. apply number_from_spec. Qed.
Lemma digit_no_sign w c : every digit_char w -> (c = "+" \/ c = "-")%char -> forall r, w <> String c r.
Proof. intros H Hc r ->. apply every_cons in H as [H _]. revert H. unfold digit_char. destruct Hc as [-> | ->]; vm_compute; lia. Qed.
Lemma int_of_spec u x w : drop_underscores (strip u) = x -> every digit_char w ->
  (x = w \/ x = String "+" w -> int_of u = number w) /\ (x = String "-" w -> int_of u = - number w).
Proof.
  intros Ex Hw. unfold int_of. cbv zeta. rewrite Ex. split.
  - intros [-> | ->]; [|by rewrite <- number_of]. rewrite <- number_of. destruct w as [|c r]; [done|].
    assert (c <> "+"%char /\ c <> "-"%char) as [H1 H2] by (split; intros ->; [by apply (digit_no_sign _ _ Hw (or_introl eq_refl) r)|by apply (digit_no_sign _ _ Hw (or_intror eq_refl) r)]).
    destruct c as [[] [] [] [] [] [] [] []]; try reflexivity; done.
  - intros ->. by rewrite number_of.
Qed.
Lemma int_spec u n : (int_ok u = true /\ int_of u = n) <-> integer_text u n.
Proof.
  unfold int_ok, integer_text. cbv zeta. rewrite !andb_true_iff, nonempty_spec, digits_spec, between_spec. split.
  - intros [(H1 & H2 & H3) <-]. set (x := drop_underscores (strip u)) in *. exists (strip u), (skip_sign x), x.
    split; [by apply strip_spec|]. split; [done|]. split; [by apply drop_spec|]. split; [done|]. destruct (int_of_spec u x (skip_sign x) eq_refl H3) as [I1 I2].
    destruct (proj2 (skip_sign_spec x _) eq_refl) as [[E _]|[E|E]]; [left|left|right].
    + split; [by left|]. apply I1. by left.
    + split; [by right|]. apply I1. by right.
    + split; [done|]. by apply I2.
  - intros (t & w & x & H1 & H2 & H3 & [H4 H5] & H6). apply strip_spec in H1. apply drop_spec in H3. rewrite <- H1 in H2, H3. destruct (int_of_spec u x w H3 H5) as [I1 I2].
    assert (E : skip_sign x = w). { apply skip_sign_spec. destruct H6 as [[[-> | ->] _]|[-> _]]; [left|right; by left|right; by right]. split; [done|]. intros c r E. split; intros ->; [by apply (digit_no_sign _ _ H5 (or_introl eq_refl) r)|by apply (digit_no_sign _ _ H5 (or_intror eq_refl) r)]. }
    rewrite H3, E. split; [done|]. destruct H6 as [[H6 ->]|[H6 ->]]; [by apply I1|by apply I2].
Qed.
Lemma int_decimal u : int_ok u = true -> decimal_ok u = true.
Proof.
  unfold int_ok, decimal_ok. cbv zeta. rewrite !andb_true_iff, !orb_true_iff, nonempty_spec, digits_spec. intros (_ & H1 & H2). left; left. apply number_spec.
  exists (skip_sign (drop_underscores (strip u))), ""%string. split; [done|]. split; [by left|]. left. split; [done|]. by rewrite app_nil_s.
Qed.
Lemma float_decimal u : float_ok u = true -> decimal_ok u = true.
Proof.
  unfold float_ok, decimal_ok. cbv zeta. rewrite andb_true_iff, !orb_true_iff, bool_decide_eq_true. intros (_ & [H|H]); [by left|]. right. apply nan_spec.
  exists "nan", ""%string. split; [by left|]. split; [apply every_nil|]. by apply lower_spec.
Qed.
Lemma convert_reads u x : reads u x <-> convert u = x.
Proof.
  unfold convert. split.
  - intros [H|n H|t H1 H2|H1 H2 H3].
    + destruct (decimal_ok u) eqn:E; [by apply decimal_spec in E|done].
    + apply int_spec in H as [H <-]. by rewrite (int_decimal u H), H.
    + apply float_spec in H2 as [H2 <-]. rewrite (float_decimal u H2), H2. destruct (int_ok u) eqn:E; [|done]. by destruct (H1 (int_of u)); apply int_spec.
    + apply decimal_spec in H1 as ->. destruct (int_ok u) eqn:E; [by destruct (H2 (int_of u)); apply int_spec|]. destruct (float_ok u) eqn:E2; [|done]. by destruct (H3 (strip u)); apply float_spec.
  - intros <-. destruct (decimal_ok u) eqn:E; [|apply r_text; rewrite <- decimal_spec; congruence].
    destruct (int_ok u) eqn:E1; [by apply r_int, int_spec|]. assert (forall n, ~ integer_text u n) by (intros n [? _]%int_spec; congruence).
    destruct (float_ok u) eqn:E2; [apply r_float; [done|by apply float_spec]|]. apply r_none; [by apply decimal_spec|done|]. intros t [? _]%float_spec. congruence.
Qed.

(** ** Dictionaries *)
Lemma dget_dput k k' v d : dget k (dput k' v d) = if decide (k' = k) then Some v else dget k d.
Proof.
  induction d as [|[k0 v0] d IH]; cbn [dput dget].
  - destruct (decide (k' = k)) as [->|H]; [by rewrite bool_decide_true|by rewrite bool_decide_false].
  - destruct (bool_decide (k0 = k')) eqn:E; cbn [dget].
    + apply bool_decide_eq_true in E as ->. destruct (decide (k' = k)) as [->|H]; [by rewrite bool_decide_true|by rewrite bool_decide_false].
    + apply bool_decide_eq_false in E. rewrite IH. destruct (decide (k' = k)) as [->|H]; [by rewrite bool_decide_false|done].
Qed.
Lemma dput_keys k v d : fst <$> dput k v d = (if decide (k ∈ fst <$> d) then fst <$> d else (fst <$> d) ++ [k]).
Proof.
  induction d as [|[k0 v0] d IH]; cbn [dput].
  - rewrite decide_False; [done|]. apply not_elem_of_nil.
  - destruct (bool_decide (k0 = k)) eqn:E.
    + apply bool_decide_eq_true in E as ->. rewrite decide_True; [done|]. apply elem_of_cons. by left.
    + apply bool_decide_eq_false in E. rewrite fmap_cons, IH. cbn [fst]. rewrite fmap_cons. cbn [fst]. destruct (decide (k ∈ fst <$> d)) as [H|H].
      * rewrite decide_True; [done|]. apply elem_of_cons. by right.
      * rewrite decide_False; [done|]. intros [->|?]%elem_of_cons; done.
Qed.
Lemma dput_proper k v d : proper d -> proper (dput k v d).
Proof.
  unfold proper. rewrite dput_keys. destruct (decide _) as [H|H]; [done|]. intros Hd. apply NoDup_app. split; [done|]. split; [|apply NoDup_singleton].
  intros x Hx ->%elem_of_list_singleton. done.
Qed.
Lemma dget_in k v d : proper d -> dget k d = Some v <-> (k, v) ∈ d.
Proof.
  unfold proper. induction d as [|[k0 v0] d IH]; cbn [dget].
  - intros _. split; [discriminate|by intros ?%not_elem_of_nil].
  - rewrite fmap_cons. cbn [fst]. intros [H1 H2]%NoDup_cons. rewrite elem_of_cons. destruct (bool_decide (k0 = k)) eqn:E.
    + apply bool_decide_eq_true in E as ->. split; [intros [= ->]; by left|]. intros [[= ->]|H]; [done|]. destruct H1. apply elem_of_list_fmap. by exists (k, v).
    + apply bool_decide_eq_false in E. rewrite (IH H2). split; [by right|]. intros [[= -> ->]|H]; done.
Qed.
Lemma dget_none k d : dget k d = None <-> k ∉ fst <$> d.
Proof.
  induction d as [|[k0 v0] d IH]; cbn [dget]; [split; [intros _; apply not_elem_of_nil|done]|]. rewrite fmap_cons, not_elem_of_cons. cbn [fst].
  destruct (bool_decide (k0 = k)) eqn:E; [apply bool_decide_eq_true in E as ->; split; [discriminate|intros [? _]; done]|]. apply bool_decide_eq_false in E. rewrite IH.
  split; [intros; split; congruence|by intros [_ ?]].
Qed.
Lemma read_proper ls : forall d, proper d -> proper (read_settings ls d).
Proof. induction ls as [|l ls IH]; [done|]. intros d Hd. cbn [read_settings]. apply IH. destruct (read_setting l) as [[k v]|]; [by apply dput_proper|done]. Qed.
Lemma dget_update more : proper more -> forall k d, dget k (update d more) = match dget k more with Some v => Some v | None => dget k d end.
Proof.
  unfold proper. induction more as [|[k0 v0] more IH]; [done|]. rewrite fmap_cons. cbn [fst]. intros [H1 H2]%NoDup_cons k d. cbn [update dget].
  rewrite (IH H2), dget_dput. destruct (bool_decide (k0 = k)) eqn:E.
  - apply bool_decide_eq_true in E as ->. rewrite decide_True by done. by rewrite (proj2 (dget_none k more) H1).
  - apply bool_decide_eq_false in E. by rewrite decide_False.
Qed.

(** ** The file *)
Lemma read_setting_spec l k v : says l k v <-> read_setting l = Some (k, convert (unquote v)) /\ exists a c, cut_at "=" (before_char "#" l) = Some (a, c) /\ strip a = k /\ strip c = v.
Proof.
  unfold says, read_setting. split.
  - intros (a & c & H1%uncommented_spec & H2 & H3%strip_spec & H4%strip_spec). rewrite H1. rewrite (proj2 (cut_at_spec "=" _ a c)) by done.
    split; [by rewrite H3, H4|]. by exists a, c.
  - intros [_ (a & c & [H1 H2]%cut_at_spec & H3 & H4)]. exists a, c. split; [by apply uncommented_spec|]. split; [done|]. split; by apply strip_spec.
Qed.
Lemma read_setting_gives l k x : read_setting l = Some (k, x) <-> gives l k x.
Proof.
  unfold gives. split.
  - unfold read_setting. destruct (cut_at "=" (before_char "#" l)) as [[a c]|] eqn:E; [|discriminate]. intros [= <- <-]. exists (strip c), (unquote (strip c)).
    split; [|split; [by apply unquote_spec|by apply convert_reads]]. apply read_setting_spec. unfold read_setting. rewrite E. split; [done|]. by exists a, c.
  - intros (v & u & [H _]%read_setting_spec & H2%unquote_spec & H3%convert_reads). rewrite H. by rewrite H2, H3.
Qed.
Lemma says_gives l k v : says l k v -> exists x, gives l k x.
Proof. intros [H _]%read_setting_spec. eexists. by apply read_setting_gives. Qed.
Lemma gives_says l k x : gives l k x -> exists v, says l k v.
Proof. intros (v & u & H & _). by exists v. Qed.
Lemma gives_fun l k x k' x' : gives l k x -> gives l k' x' -> k = k' /\ x = x'.
Proof. rewrite <- !read_setting_gives. intros -> [= -> ->]. done. Qed.
Lemma read_silent k ls : silent_on k ls -> forall d, dget k (read_settings ls d) = dget k d.
Proof.
  induction ls as [|l ls IH]; [done|]. intros H d. cbn [read_settings]. rewrite IH by (intros l' v Hl; apply H, elem_of_cons; by right).
  destruct (read_setting l) as [[k0 v0]|] eqn:E; [|done]. rewrite dget_dput. rewrite decide_False; [done|]. intros ->. apply read_setting_gives, gives_says in E as (v & Hv).
  apply (H l v); [apply elem_of_cons; by left|done].
Qed.
Lemma read_last k ls x : last_says k ls x -> forall d, dget k (read_settings ls d) = Some x.
Proof.
  induction 1 as [l ls x H1 H2|l ls x H IH]; intros d; cbn [read_settings]; [|apply IH].
  rewrite read_silent by done. apply read_setting_gives in H1 as ->. rewrite dget_dput. by rewrite decide_True.
Qed.
Lemma last_or_silent k ls : silent_on k ls \/ exists x, last_says k ls x.
Proof.
  induction ls as [|l ls [IH|(x & IH)]]; [left; intros l v ?%not_elem_of_nil; done| |right; exists x; by apply l_later].
  destruct (read_setting l) as [[k0 x]|] eqn:E.
  - apply read_setting_gives in E. destruct (decide (k0 = k)) as [->|Hk]; [right; exists x; by apply l_here|]. left. intros l' v [->|Hl]%elem_of_cons H; [|by apply (IH l' v)].
    apply says_gives in H as (x' & H). destruct (gives_fun _ _ _ _ _ E H). done.
  - left. intros l' v [->|Hl]%elem_of_cons H; [|by apply (IH l' v)]. apply says_gives in H as (x' & H). apply read_setting_gives in H. congruence.
Qed.
Theorem C184_last_setting ls f silent clear d : all_lines ls f ->
  fst (load_file f silent clear d) = Ok true /\
  (forall k x, last_says k ls x -> dget k (snd (load_file f silent clear d)) = Some x) /\
  (forall k, silent_on k ls -> dget k (snd (load_file f silent clear d)) = if clear then None else dget k d) /\
  (forall k, silent_on k ls \/ exists x, last_says k ls x).
Proof.
  intros (t & -> & Ht). unfold load_file, read_file. rewrite (split_on_lines ls t Ht). cbn [fst snd].
  assert (HP : proper (read_settings ls [])) by (apply read_proper; apply NoDup_nil_2).
  split; [done|]. split; [|split; [|intros k; apply last_or_silent]].
  - intros k x H. rewrite dget_update by done. by rewrite (read_last k ls x H).
  - intros k H. rewrite dget_update by done. rewrite (read_silent k ls H). by destruct clear.
Qed.
Theorem C184_proper f silent clear d : proper d -> proper (snd (load_file f silent clear d)).
Proof.
  intros Hd. unfold load_file. destruct (read_file f) as [conf [io|]]; cbn [snd]; [done|]. assert (H : proper (if clear then [] else d)) by (destruct clear; [apply NoDup_nil_2|done]).
  revert H. generalize (if clear then [] else d). clear d Hd. induction conf as [|[k v] conf IH]; intros d Hd; [done|]. cbn [update]. apply IH. by apply dput_proper.
Qed.
Theorem C186_failure f silent clear d : (forall t, f <> Text t) ->
  snd (load_file f silent clear d) = d /\ fst (load_file f silent clear d) <> Ok true.
Proof. intros H. unfold load_file, read_file. destruct f as [|t|t io]; [|by destruct (H t)|]; cbn [snd fst]; (split; [done|]); [by destruct silent|]. by destruct io, silent. Qed.

(** ** Values *)
Lemma clear_around P t : ends_clear P t -> around P t t.
Proof. intros [H1 H2]. exists "", ""%string. repeat split; [apply every_nil|apply every_nil|by rewrite app_nil_s|done|done]. Qed.
Lemma blank_space : blank_char " ".
Proof. unfold blank_char. vm_compute. lia. Qed.
Lemma quote_clear q u : quote q -> ends_clear blank_char (String q "" +:+ u +:+ String q "").
Proof.
  intros Hq. assert (Hb : ~ blank_char q) by (destruct Hq as [-> | ->]; unfold blank_char; vm_compute; lia). split.
  - intros c r [= <- _]. done.
  - intros r c E. assert (E' : ((String q "" +:+ u) +:+ String q "")%string = (r +:+ String c "")%string) by (by rewrite app_assoc_s).
    assert (q = c) as <-; [|done]. revert E'. generalize (String q "" +:+ u)%string. clear E. intros a. revert r. induction a as [|b a IH]; intros [|b' r].
    + rewrite !snil_app. by intros [= ->].
    + rewrite snil_app, scons_app. intros [= _ E1]. destruct r; discriminate.
    + rewrite snil_app, scons_app. intros [= _ E1]. destruct a; discriminate.
    + rewrite !scons_app. intros [= _ E1]. by apply (IH r).
Qed.
Lemma setting_gives k q u l x : setting k q u l -> reads u x -> gives l k x.
Proof.
  intros ((K1 & K2 & K3) & Hu & Hc & Hq & ->) Hx. exists (q +:+ u +:+ q)%string, u. split; [|split; [|done]].
  - exists (k +:+ " ")%string, (" " +:+ q +:+ u +:+ q)%string. split; [|split; [|split]].
    + split; [|left; by rewrite app_assoc_s]. rewrite app_assoc_s. unfold none_of in *. change (String "=" (" " +:+ q +:+ u +:+ q)) with ("= " +:+ q +:+ u +:+ q)%string. rewrite !every_app.
      assert (every (fun a => a <> "#"%char) q) by (destruct Hq as [[-> _]|[-> | ->]]; [apply every_nil| |]; apply every_cons; (split; [done|apply every_nil])).
      repeat split; try done; repeat (apply every_cons; split; [done|]); apply every_nil.
    + unfold none_of. rewrite every_app. split; [done|]. apply every_cons. split; [done|apply every_nil].
    + exists ""%string, " "%string. split; [apply every_nil|]. split; [apply every_cons; split; [apply blank_space|apply every_nil]|]. split; [done|apply K3].
    + exists " "%string, ""%string. split; [apply every_cons; split; [apply blank_space|apply every_nil]|]. split; [apply every_nil|]. rewrite app_nil_s. split; [done|].
      destruct Hq as [[-> Hb]|[-> | ->]]; [rewrite snil_app, app_nil_s; done| |]; apply quote_clear; [by left|by right].
  - exists q, q. assert (every quote q) by (destruct Hq as [[-> _]|[-> | ->]]; [apply every_nil| |]; apply every_cons; (split; [|apply every_nil]); [by left|by right]). done.
Qed.
Theorem C185_value k q u l x ls1 ls2 f silent clear d :
  setting k q u l -> reads u x -> all_lines (ls1 ++ l :: ls2) f -> silent_on k ls2 -> dget k (snd (load_file f silent clear d)) = Some x.
Proof.
  intros Hl Hx Hf Hs. destruct (C184_last_setting _ _ silent clear d Hf) as (_ & H & _). apply H. clear H Hf.
  induction ls1 as [|l1 ls1 IH]; [|by apply l_later]. apply l_here; [by apply (setting_gives k q u)|exact Hs].
Qed.
Lemma digits_blank w : every digit_char w -> ends_clear blank_char w.
Proof. intros H. split; [intros c r E; rewrite E in H; apply digit_nonblank; by apply every_cons in H as [H _]|intros r c E; rewrite E in H; apply digit_nonblank; by apply every_last in H]. Qed.
Lemma number_neutral w : digits_only w -> forall s, s = w \/ s = String "-" w -> around blank_char s s /\ without_underscores s s /\ underscores_inside s.
Proof.
  intros [H0 H] s Hs. assert (HN : none_of "_" s).
  { assert (none_of "_" w) by (apply (every_mono digit_char); [intros c Hc ->; revert Hc; unfold digit_char; vm_compute; lia|done]). destruct Hs as [-> | ->]; [done|]. by apply every_cons. }
  split; [|split].
  - apply clear_around. destruct Hs as [-> | ->]; [by apply digits_blank|]. split.
    + intros c r [= <- _]. unfold blank_char. vm_compute. lia.
    + intros [|c0 r] c E; [rewrite snil_app in E; by injection E as _ ->|]. rewrite scons_app in E. injection E as _ E. by apply (proj2 (digits_blank w H) r).
  - unfold without_underscores, none_of, every in *. induction HN as [|c l Hc _ IH]; [done|]. rewrite filter_cons_True by done. by rewrite <- IH.
  - intros a b ->. unfold none_of in HN. rewrite every_app, every_cons in HN. destruct HN as (_ & [? _]). done.
Qed.
(** Numbers are read as numbers. *)
Theorem C185_integer w : digits_only w -> reads w (CInt (number w)) /\ reads (String "-" w) (CInt (- number w)).
Proof.
  intros H. split; apply r_int.
  - destruct (number_neutral w H w (or_introl eq_refl)) as (H1 & H2 & H3). exists w, w, w. split; [done|]. split; [done|]. split; [done|]. split; [done|]. left. split; [by left|done].
  - destruct (number_neutral w H _ (or_intror eq_refl)) as (H1 & H2 & H3). exists (String "-" w), w, (String "-" w). split; [done|]. split; [done|]. split; [done|]. split; [done|]. by right.
Qed.
(** A text with a character that no number has is kept. *)
Lemma every_in P s c : every P s -> c ∈ list_ascii_of_string s -> P c.
Proof. unfold every. rewrite Forall_forall. auto. Qed.
Lemma list_app a b : list_ascii_of_string (a +:+ b) = list_ascii_of_string a ++ list_ascii_of_string b.
Proof. induction a as [|c a IH]; [done|]. rewrite scons_app. cbn [list_ascii_of_string]. by rewrite IH. Qed.
Lemma same_in s t c : same_letters s t -> c ∈ list_ascii_of_string s -> exists d, d ∈ list_ascii_of_string t /\ (d = c \/ (65 <= nat_of_ascii c <= 90 /\ nat_of_ascii d = nat_of_ascii c + 32)%nat).
Proof.
  unfold same_letters. intros H Hc. apply elem_of_list_lookup in Hc as (i & Hi). destruct (Forall2_lookup_l _ _ _ _ _ H Hi) as (d & Hd & Hcd). exists d. split; [by apply elem_of_list_lookup_2 in Hd|]. destruct Hcd as [?|[_ ?]]; [by right|by left].
Qed.
Lemma word_chars s t c : same_letters s t -> every (fun d => digit_char d \/ d ∈ list_ascii_of_string "inftyas") t -> c ∈ list_ascii_of_string s -> ~ in_no_number c.
Proof.
  intros H Ht Hc (N1 & N2 & N3). destruct (same_in s t c H Hc) as (d & Hd & Hcd). destruct (every_in _ _ _ Ht Hd) as [Hd'|Hd'].
  - destruct Hcd as [->|[Hc1 Hc2]]; [done|]. unfold digit_char in Hd'. lia.
  - destruct Hcd as [->|[Hc1 Hc2]].
    + apply N3. clear -Hd'. assert (HI : forall x, x ∈ list_ascii_of_string "inftyas" -> x ∈ list_ascii_of_string "+-._eEinftyasINFTYAS").
      { intros x Hx. change (x ∈ ["i";"n";"f";"t";"y";"a";"s"]%char) in Hx. change (x ∈ (["+";"-";".";"_";"e";"E"] ++ ["i";"n";"f";"t";"y";"a";"s"] ++ ["I";"N";"F";"T";"Y";"A";"S"])%char). rewrite !elem_of_app. tauto. }
      by apply HI.
    + apply N3. assert (Ec : c = ascii_of_nat (nat_of_ascii d - 32)) by (rewrite Hc2, Nat.add_sub; symmetry; apply ascii_nat_embedding). rewrite Ec.
      clear -Hd'. change (d ∈ ["i";"n";"f";"t";"y";"a";"s"]%char) in Hd'. change (ascii_of_nat (nat_of_ascii d - 32) ∈ (["+";"-";".";"_";"e";"E"] ++ ["i";"n";"f";"t";"y";"a";"s"] ++ ["I";"N";"F";"T";"Y";"A";"S"])%char). rewrite !elem_of_app. right; right.
      repeat (apply elem_of_cons in Hd' as [->|Hd']; [vm_compute ascii_of_nat; rewrite !elem_of_cons; tauto|]). by apply not_elem_of_nil in Hd'.
Qed.
Lemma numeral_chars w c : numeral w -> c ∈ list_ascii_of_string w -> ~ in_no_number c.
Proof.
  intros (i & e & Hi & He & Hw) Hc (N1 & N2 & N3).
  assert (HE : c ∈ list_ascii_of_string e -> False).
  { destruct He as [->|(c' & x & ds & Hc' & Hs & [_ Hd] & ->)]; [apply not_elem_of_nil|]. cbn [list_ascii_of_string]. intros [->|Hx]%elem_of_cons.
    - apply N3. destruct Hc' as [-> | ->]; cbn [list_ascii_of_string]; rewrite !elem_of_cons; tauto.
    - assert (c ∈ list_ascii_of_string ds \/ c = "+"%char \/ c = "-"%char) as [H|H].
      { destruct Hs as [[-> _]|[-> | ->]]; [by left| |]; cbn [list_ascii_of_string] in Hx; apply elem_of_cons in Hx; tauto. }
      + by apply N1, (every_in _ ds).
      + apply N3. destruct H as [-> | ->]; cbn [list_ascii_of_string]; rewrite !elem_of_cons; tauto. }
  destruct Hw as [[_ ->]|(f & Hf & _ & ->)].
  - rewrite list_app in Hc. apply elem_of_app in Hc as [Hc|Hc]; [|by apply HE]. by apply N1, (every_in _ i).
  - rewrite !list_app in Hc. rewrite !elem_of_app in Hc. destruct Hc as [Hc|[Hc|[Hc|Hc]]]; [by apply N1, (every_in _ i)| |by apply N1, (every_in _ f)|by apply HE].
    apply elem_of_list_singleton in Hc as ->. apply N3. cbn [list_ascii_of_string]; rewrite !elem_of_cons; tauto.
Qed.
Theorem C185_text u c : c ∈ list_ascii_of_string u -> in_no_number c -> reads u (CText u).
Proof.
  intros Hc HN. apply r_text. intros (t & w & (x & (a & b & Ha & Hb & -> & _) & Hx & Hs) & H).
  assert (Ht : c ∈ list_ascii_of_string t). { rewrite !list_app, !elem_of_app in Hc. destruct HN as (_ & N2 & _). destruct Hc as [Hc|[Hc|Hc]]; [|done|]; destruct N2; [by apply (every_in _ a)|by apply (every_in _ b)]. }
  assert (Hx' : c ∈ list_ascii_of_string x). { rewrite Hx. apply elem_of_list_filter. split; [|done]. intros ->. destruct HN as (_ & _ & N3). apply N3. cbn [list_ascii_of_string]; rewrite !elem_of_cons; tauto. }
  assert (Hw : c ∈ list_ascii_of_string w).
  { destruct HN as (_ & _ & N3). destruct Hs as [[-> _]|[-> | ->]]; [done| |]; cbn [list_ascii_of_string] in Hx'; (apply elem_of_cons in Hx' as [->|?]; [|done]); destruct N3; cbn [list_ascii_of_string]; rewrite !elem_of_cons; tauto. }
  destruct H as [H|[[H|H]|(n & r & Hn & Hr & H)]]; [by apply (numeral_chars w c)|apply (word_chars w _ c H)|apply (word_chars w _ c H)|apply (word_chars w _ c H)]; try done.
  - unfold every. cbn [list_ascii_of_string]. rewrite !Forall_cons. repeat split; try (right; rewrite !elem_of_cons; tauto). by apply Forall_nil.
  - unfold every. cbn [list_ascii_of_string]. rewrite !Forall_cons. repeat split; try (right; rewrite !elem_of_cons; tauto). by apply Forall_nil.
  - apply every_app. split; [|apply (every_mono digit_char); [by left|done]]. destruct Hn as [-> | ->]; unfold every; cbn [list_ascii_of_string]; rewrite !Forall_cons; repeat split; try (right; rewrite !elem_of_cons; tauto); by apply Forall_nil.
Qed.
(** What one line gives to [k]. *)
Definition got (k line : string) : option cval := dget k (snd (load_file (Text line) false false [])).
(** '#' starts a comment even between quotes; the quotes of the text itself are lost at its ends; leading zeros are lost; some texts are lost. *)
Theorem C185_text_refuted :
  got "DB_BASE_PASSWD" ("DB_BASE_PASSWD=" +:+ String """" "pa#ss" +:+ String """" "") = Some (CText "pa") /\
  got "ENERGY_SAVING_NODES_KEEPALIVE" ("ENERGY_SAVING_NODES_KEEPALIVE=" +:+ String """" "type='default'" +:+ String """" "") = Some (CText "type='default") /\
  got "DB_BASE_PASSWD" ("DB_BASE_PASSWD=" +:+ String """" "0042" +:+ String """" "") = Some (CInt 42) /\
  got "DB_BASE_PASSWD" "DB_BASE_PASSWD=1_000" = Some (CInt 1000) /\
  got "DB_BASE_PASSWD" "DB_BASE_PASSWD=1e3" = Some (CFloat "1e3") /\ got "DB_BASE_LOGIN" "DB_BASE_LOGIN=nan42" = Some CNone /\ got "DB_BASE_LOGIN" "DB_BASE_LOGIN=_1" = Some CNone.
Proof. vm_compute. done. Qed.
Definition sample_file : list string := ["# OAR"; "DB_TYPE = 'Pg' # kind"; "DB_PORT=5432"; "#DB_PORT=1"; "DB_PORT = 5433"; ""]%string.
Theorem C184_case : all_lines sample_file (Text (String.concat (String newline "") sample_file)) /\
  (let d := snd (load_file (Text (String.concat (String newline "") sample_file)) false false [("A", CInt 1); ("DB_PORT", CText "x")]%string) in
   dget "DB_TYPE" d = Some (CText "Pg") /\ dget "DB_PORT" d = Some (CInt 5433) /\ dget "A" d = Some (CInt 1) /\ dget "#DB_PORT" d = None).
Proof.
  split; [|vm_compute; done]. exists (String.concat (String newline "") sample_file). split; [done|]. split; [done|]. split; [|done].
  unfold sample_file, every. repeat (apply Forall_cons; split; [cbn [list_ascii_of_string]; repeat (apply Forall_cons; split; [done|]); by apply Forall_nil|]). by apply Forall_nil.
Qed.

(** ** The constructor *)
(** Configuration(defaults) is the dictionary of the defaults of the program, whatever is given. *)
Lemma update_other more : forall d k, k ∉ fst <$> more -> dget k (update d more) = dget k d.
Proof.
  induction more as [|[k0 v0] more IH]; intros d k; [done|]. rewrite fmap_cons, not_elem_of_cons. cbn [fst]. intros [H1 H2]. cbn [update]. rewrite IH by done. rewrite dget_dput. by rewrite decide_False.
Qed.
Theorem C187_defaults defaults given k : proper defaults -> dget k (configuration defaults given) = dget k defaults.
Proof. intros H. unfold configuration. rewrite dget_update by done. by destruct (dget k defaults). Qed.
Theorem C187_given_refuted : exists given k v, dget k given = Some v /\ forall defaults, k ∉ fst <$> defaults -> dget k (configuration defaults given) = None.
Proof.
  exists [("SERVER_HOSTNAME", CText "front")]%string, "SERVER_HOSTNAME"%string, (CText "front"). split; [done|]. intros defaults H. unfold configuration. rewrite update_other by done. by apply dget_none.
Qed.

(** ** get_namespace *)
Lemma named_spec ns lc tr k k' : named_in ns lc tr k k' <-> exists r, after_prefix ns k = Some r /\ (if lc then lower (if tr then r else k) else (if tr then r else k)) = k'.
Proof.
  unfold named_in. split; intros (r & H1 & H2); exists r.
  - split; [by apply after_prefix_spec|]. destruct lc; [by apply lower_spec|done].
  - apply after_prefix_spec in H1. split; [done|]. destruct lc; [by apply lower_spec|done].
Qed.
Theorem C188_namespace ns lc tr d k' : proper d ->
  proper (get_namespace ns lc tr d) /\
  (forall v, dget k' (get_namespace ns lc tr d) = Some v -> exists k, named_in ns lc tr k k' /\ dget k d = Some v) /\
  (forall k v, named_in ns lc tr k k' -> dget k d = Some v -> (forall k2, k2 ∈ fst <$> d -> named_in ns lc tr k2 k' -> k2 = k) -> dget k' (get_namespace ns lc tr d) = Some v).
Proof.
  intros Hd.
  assert (HG : forall rv, proper rv -> let r := fold_left (fun rv p => match after_prefix ns (fst p) with
                         | Some r => let k := if tr then r else fst p in dput (if lc then lower k else k) (snd p) rv
                         | None => rv end) d rv in proper r /\
     (forall v, dget k' r = Some v -> dget k' rv = Some v \/ exists k, named_in ns lc tr k k' /\ dget k d = Some v) /\
     ((forall k, k ∈ fst <$> d -> ~ named_in ns lc tr k k') -> dget k' r = dget k' rv) /\
     (forall k v, named_in ns lc tr k k' -> dget k d = Some v -> (forall k2, k2 ∈ fst <$> d -> named_in ns lc tr k2 k' -> k2 = k) -> dget k' r = Some v)).
  { unfold proper in Hd. induction d as [|[k0 v0] d IH]; intros rv Hrv; cbn zeta; cbn [fold_left fst snd].
    - split; [done|]. split; [by left|]. split; [done|]. discriminate.
    - rewrite fmap_cons in Hd |- *. cbn [fst] in *. apply NoDup_cons in Hd as [Hk0 Hd].
      destruct (after_prefix ns k0) as [r|] eqn:E; cbn zeta.
      + set (kk := if lc then lower (if tr then r else k0) else (if tr then r else k0)). assert (Hkk : named_in ns lc tr k0 kk) by (apply named_spec; by exists r).
        destruct (IH Hd (dput kk v0 rv) (dput_proper kk v0 rv Hrv)) as (I1 & I2 & I3 & I4). split; [done|]. split; [|split].
        * intros v Hv. destruct (I2 v Hv) as [H|(k & Hk & Hg)].
          -- rewrite dget_dput in H. destruct (decide (kk = k')) as [<-|_]; [|by left]. injection H as <-. right. exists k0. split; [done|]. cbn [dget]. by rewrite bool_decide_true.
          -- right. exists k. split; [done|]. cbn [dget]. rewrite bool_decide_false; [done|]. intros ->. apply Hk0. apply (elem_of_list_fmap_1_alt _ _ (k, v)); [by apply dget_in|done].
        * intros H. rewrite I3 by (intros k Hk; apply H, elem_of_cons; by right). rewrite dget_dput, decide_False; [done|]. intros <-. apply (H k0); [apply elem_of_cons; by left|done].
        * intros k v Hk Hg Hu. cbn [dget] in Hg. destruct (bool_decide (k0 = k)) eqn:Ek.
          -- apply bool_decide_eq_true in Ek as ->. injection Hg as ->. rewrite I3.
             ++ rewrite dget_dput, decide_True; [done|]. apply named_spec in Hk as (r' & Er & <-). rewrite E in Er. injection Er as <-. done.
             ++ intros k2 Hk2 Hn. assert (k2 = k) as -> by (apply Hu; [apply elem_of_cons; by right|done]). done.
          -- apply bool_decide_eq_false in Ek. apply (I4 k v); [done|done|]. intros k2 Hk2. apply Hu, elem_of_cons. by right.
      + destruct (IH Hd rv Hrv) as (I1 & I2 & I3 & I4). split; [done|]. split; [|split].
        * intros v Hv. destruct (I2 v Hv) as [H|(k & Hk & Hg)]; [by left|]. right. exists k. split; [done|]. cbn [dget]. rewrite bool_decide_false; [done|]. intros ->. apply Hk0. apply (elem_of_list_fmap_1_alt _ _ (k, v)); [by apply dget_in|done].
        * intros H. apply I3. intros k Hk. apply H, elem_of_cons. by right.
        * intros k v Hk Hg Hu. cbn [dget] in Hg. destruct (bool_decide (k0 = k)) eqn:Ek.
          -- apply bool_decide_eq_true in Ek as ->. apply named_spec in Hk as (r' & Er & _). congruence.
          -- apply (I4 k v); [done|done|]. intros k2 Hk2. apply Hu, elem_of_cons. by right. }
  destruct (HG [] (NoDup_nil_2 : proper [])) as (I1 & I2 & _ & I4). split; [done|]. split; [|exact I4]. intros v Hv. destruct (I2 v Hv) as [?|?]; [discriminate|done].
Qed.
(** Two keys that differ by the case of their letters: one is lost. *)
Theorem C188_case_refuted : exists d, proper d /\ dget "DB_PORT" d = Some (CInt 1) /\ dget "DB_port" d = Some (CInt 2) /\ get_namespace "DB_" true true d = [("port"%string, CInt 2)].
Proof. exists [("DB_PORT", CInt 1); ("DB_port", CInt 2)]%string. split; [unfold proper; by_dec|]. vm_compute. done. Qed.
Theorem C188_case : get_namespace "OARSUB_" true true [("OARSUB_DEFAULT_RESOURCES", CInt 2); ("DB_PORT", CInt 1); ("OARSUB_FORCE_JOB_KEY", CText "/resource_id=1")]%string
  = [("default_resources", CInt 2); ("force_job_key", CText "/resource_id=1")]%string.
Proof. vm_compute. done. Qed.

(** ** get_sqlalchemy_uri *)
Lemma fill_app pi d parts : forall acc, fill pi d parts acc = match fill pi d parts "" with Uri s => Uri (acc +:+ s) | Missing k => Missing k | Raised e => Raised e end.
Proof.
  induction parts as [|[s|k] parts IH]; intros acc; cbn [fill]; [by rewrite app_nil_s| |].
  - rewrite (IH (acc +:+ s)%string), (IH ("" +:+ s)%string). destruct (fill pi d parts ""); [|done|done]. by rewrite snil_app, app_assoc_s.
  - destruct (dget k d) as [v|]; [|done]. rewrite (IH (acc +:+ print_val pi v)%string), (IH ("" +:+ print_val pi v)%string). destruct (fill pi d parts ""); [|done|done]. by rewrite snil_app, app_assoc_s.
Qed.
Lemma ns_db d k k' v : proper d -> (forall k2, k2 ∈ fst <$> d -> named_in "DB_" true true k2 k' -> k2 = k) -> named_in "DB_" true true k k' ->
  dget k d = Some v -> dget k' (get_namespace "DB_" true true d) = Some v.
Proof. intros Hd Hu Hn Hv. destruct (C188_namespace "DB_" true true d k' Hd) as (_ & _ & H). by apply (H k v). Qed.
Lemma ns_db_none d k' : proper d -> (forall k, k ∈ fst <$> d -> ~ named_in "DB_" true true k k') -> dget k' (get_namespace "DB_" true true d) = None.
Proof.
  intros Hd Hn. destruct (dget k' (get_namespace "DB_" true true d)) as [v|] eqn:E; [|done]. destruct (C188_namespace "DB_" true true d k' Hd) as (_ & H & _).
  destruct (H v E) as (k & Hk & Hv). destruct (Hn k); [|done]. apply (elem_of_list_fmap_1_alt _ _ (k, v)); [by apply dget_in|done].
Qed.
Lemma ns_get d k k' : proper d -> no_twins d -> named_in "DB_" true true k k' -> (forall k2, k2 ∈ fst <$> d -> named_in "DB_" true true k2 k' -> k2 = k) \/ k ∈ fst <$> d ->
  dget k' (get_namespace "DB_" true true d) = dget k d.
Proof.
  intros Hd Ht Hn Hk. destruct (dget k d) as [v|] eqn:E.
  - apply (ns_db d k k' v); [done| |done|done]. intros k2 H2 Hn2. apply (Ht k2 k k'); [done| |done|done]. apply (elem_of_list_fmap_1_alt _ _ (k, v)); [by apply dget_in|done].
  - apply dget_none in E. destruct Hk as [Hk|Hk]; [|done]. apply ns_db_none; [done|]. intros k2 H2 Hn2. rewrite (Hk k2 H2 Hn2) in H2. done.
Qed.
Lemma shows_print pi v s : shows pi v s -> print_val pi v = s.
Proof. by intros []. Qed.
Lemma same_fun s t t' : same_letters s t -> same_letters s t' -> t = t'.
Proof. rewrite !lower_spec. congruence. Qed.
Theorem C189_address pi d (ro : bool) t v_login login password v_host host v_port port v_base base :
  proper d -> no_twins d ->
  (forall k, k ∈ fst <$> d -> named_in "DB_" true true k (if ro then "base_passwd_ro" else "base_passwd")%string -> k = password_key ro) ->
  dget "DB_TYPE" d = Some (CText t) -> postgres t ->
  dget (login_key ro) d = Some v_login -> shows pi v_login login ->
  password_in pi d (password_key ro) password ->
  dget "DB_HOSTNAME" d = Some v_host -> shows pi v_host host ->
  dget "DB_PORT" d = Some v_port -> shows pi v_port port ->
  dget "DB_BASE_NAME" d = Some v_base -> shows pi v_base base -> (forall n, pi n <> ""%string) ->
  sqlalchemy_uri pi d ro = Uri (address "postgresql" login password host port base).
Proof.
  intros Hd Ht Hp Et (s & Hs & Hpg) El Hl Hpw Eh Hh Epo Hpo Eb Hb Hpi.
  assert (HG : forall k k' v, named_in "DB_" true true k k' -> dget k d = Some v -> dget k' (get_namespace "DB_" true true d) = Some v).
  { intros k k' v Hn Ev. rewrite (ns_get d k k'); [done|done|done|done|]. right. apply (elem_of_list_fmap_1_alt _ _ (k, v)); [by apply dget_in|done]. }
  assert (G1 : dget "type" (get_namespace "DB_" true true d) = Some (CText t)) by (apply (HG "DB_TYPE"%string); [exists "TYPE"%string; (split; [done|by apply lower_spec])|done]).
  assert (G2 : dget (if ro then "base_login_ro" else "base_login")%string (get_namespace "DB_" true true d) = Some v_login) by (apply (HG (login_key ro)); [destruct ro; [exists "BASE_LOGIN_RO"%string|exists "BASE_LOGIN"%string]; (split; [done|by apply lower_spec])|done]).
  assert (G3 : dget "hostname" (get_namespace "DB_" true true d) = Some v_host) by (apply (HG "DB_HOSTNAME"%string); [exists "HOSTNAME"%string; (split; [done|by apply lower_spec])|done]).
  assert (G4 : dget "port" (get_namespace "DB_" true true d) = Some v_port) by (apply (HG "DB_PORT"%string); [exists "PORT"%string; (split; [done|by apply lower_spec])|done]).
  assert (G5 : dget "base_name" (get_namespace "DB_" true true d) = Some v_base) by (apply (HG "DB_BASE_NAME"%string); [exists "BASE_NAME"%string; (split; [done|by apply lower_spec])|done]).
  assert (G6 : dget (if ro then "base_passwd_ro" else "base_passwd")%string (get_namespace "DB_" true true d) = dget (password_key ro) d).
  { apply ns_get; [done|done| |by left]. destruct ro; [exists "BASE_PASSWD_RO"%string|exists "BASE_PASSWD"%string]; (split; [done|by apply lower_spec]). }
  clear HG Et El Eh Epo Eb Hp Hd Ht. apply lower_spec in Hs. apply shows_print in Hl, Hh, Hpo, Hb.
  unfold sqlalchemy_uri. cbv zeta. revert G1 G2 G3 G4 G5 G6. generalize (get_namespace "DB_" true true d). intros db G1 G2 G3 G4 G5 G6. rewrite G1, Hs.
  rewrite bool_decide_false by (intros ->; apply (bool_decide_eq_true_2 _) in Hpg; vm_compute in Hpg; discriminate).
  assert (Et : (if bool_decide (s ∈ ["pg"; "psql"; "pgsql"]%string) then "postgresql"%string else s) = "postgresql"%string).
  { destruct (bool_decide (s ∈ ["pg"; "psql"; "pgsql"]%string)) eqn:E; [done|]. apply bool_decide_eq_false in E. apply elem_of_cons in Hpg as [->|Hpg]; [destruct E; apply elem_of_cons; by left|]. apply elem_of_cons in Hpg as [->|Hpg]; [destruct E; apply elem_of_cons; right; apply elem_of_cons; by left|].
    apply elem_of_cons in Hpg as [->|Hpg]; [destruct E; apply elem_of_cons; right; apply elem_of_cons; right; apply elem_of_cons; by left|]. by apply elem_of_list_singleton in Hpg. }
  rewrite Et. set (db' := dput "type" (CText "postgresql") db).
  assert (J : forall k, k <> "type"%string -> dget k db' = dget k db) by (intros k Hk; unfold db'; rewrite dget_dput, decide_False; done).
  assert (J1 : dget "type" db' = Some (CText "postgresql")) by (unfold db'; rewrite dget_dput, decide_True; done).
  assert (J6 : dget (if ro then "base_passwd_ro" else "base_passwd")%string db' = dget (password_key ro) d) by (rewrite J; [done|by destruct ro]).
  rewrite <- J in G2 by (by destruct ro). rewrite <- J in G3, G4, G5 by done. clear J. clearbody db'. rewrite J6.
  assert (HF : exists pw, (if bool_decide (default (CText "") (dget (password_key ro) d) = CText "") then [inr (if ro then "base_login_ro" else "base_login")%string]
     else [inr (if ro then "base_login_ro" else "base_login")%string; inl ":"%string; inr (if ro then "base_passwd_ro" else "base_passwd")%string]) = inr (if ro then "base_login_ro" else "base_login")%string :: pw /\
     forall rest acc, fill pi db' (pw ++ rest) acc = fill pi db' rest (acc +:+ (match password with Some p => ":" +:+ p | None => "" end))).
  { destruct password as [p|]; cbn [password_in] in Hpw.
    - destruct Hpw as (Hp0 & v & Ev & Hv). rewrite Ev. cbn [default from_option id]. rewrite bool_decide_false by (intros ->; inversion Hv; congruence).
      exists [inl ":"%string; inr (if ro then "base_passwd_ro" else "base_passwd")%string]. split; [done|]. intros rest acc. cbn [app fill]. rewrite J6, Ev. apply shows_print in Hv as ->. by rewrite app_assoc_s.
    - exists []. split; [destruct Hpw as [-> | ->]; cbn [default from_option id]; by rewrite bool_decide_true|]. intros rest acc. cbn [app]. by rewrite app_nil_s. }
  destruct HF as (pw & -> & HF). cbn [app fill]. rewrite J1, G2, HF. cbn [fill]. rewrite G3, G4, G5. cbn [fill print_val]. rewrite Hl, Hh, Hpo, Hb. f_equal. unfold address. rewrite snil_app. by rewrite !app_assoc_s.
Qed.
Lemma cut_eq c a b a' b' : none_of c a -> none_of c a' -> (a +:+ String c b = a' +:+ String c b')%string -> a = a' /\ b = b'.
Proof. intros H H' E. assert (E1 : cut_at c (a +:+ String c b) = Some (a, b)) by by apply cut_at_spec. assert (E2 : cut_at c (a +:+ String c b) = Some (a', b')) by by apply cut_at_spec. rewrite E1 in E2. by injection E2. Qed.
(** Different parts give different addresses. *)
Theorem C189_injective t l p h po b t' l' p' h' po' b' :
  Forall plain_part [t; l; h; po; t'; l'; h'; po'] -> (forall s, p = Some s \/ p' = Some s -> plain_part s) ->
  address t l p h po b = address t' l' p' h' po' b' -> [t; l; h; po; b] = [t'; l'; h'; po'; b'] /\ p = p'.
Proof.
  rewrite !Forall_cons. intros ([T _] & [L1 [_ L2]] & [H _] & [_ [P _]] & [T' _] & [L1' [_ L2']] & [H' _] & [_ [P' _]] & _) HP E. unfold address in E.
  destruct (cut_eq ":" t _ t' _ T T' E) as [-> E1]. injection E1 as E1. rewrite <- !(app_assoc_s l), <- !(app_assoc_s l') in E1.
  set (q := match p with Some s => (":" +:+ s)%string | None => ""%string end) in *. set (q' := match p' with Some s => (":" +:+ s)%string | None => ""%string end) in *.
  assert (Q : none_of "@" q). { unfold q. destruct p as [s|]; [|apply every_nil]. apply every_cons. split; [done|]. apply (HP s). by left. }
  assert (Q' : none_of "@" q'). { unfold q'. destruct p' as [s|]; [|apply every_nil]. apply every_cons. split; [done|]. apply (HP s). by right. }
  assert (A1 : none_of "@" (l +:+ q)) by (by apply every_app). assert (A2 : none_of "@" (l' +:+ q')) by (by apply every_app).
  destruct (cut_eq "@" (l +:+ q) _ (l' +:+ q') _ A1 A2 E1) as [E2 E3].
  destruct (cut_eq ":" h _ h' _ H H' E3) as [-> E4]. destruct (cut_eq "/" po _ po' _ P P' E4) as [-> ->].
  assert (l = l' /\ p = p') as [-> ->]; [|done]. clear -E2 L1 L1'. unfold q, q' in E2. destruct p as [s|], p' as [s'|].
  - destruct (cut_eq ":" l s l' s' L1 L1' E2) as [-> ->]. done.
  - rewrite app_nil_s in E2. rewrite <- E2 in L1'. apply every_app in L1' as [_ L]. apply every_cons in L as [? _]. done.
  - rewrite app_nil_s in E2. rewrite E2 in L1. apply every_app in L1 as [_ L]. apply every_cons in L as [? _]. done.
  - rewrite !app_nil_s in E2. done.
Qed.
(** A missing setting is named. *)
Theorem C189_missing pi d ro k : proper d -> sqlalchemy_uri pi d ro = Missing k -> forall K, K ∈ fst <$> d -> ~ named_in "DB_" true true K k.
Proof.
  intros Hd HM K HK Hn.
  assert (HN : dget k (get_namespace "DB_" true true d) = None).
  { unfold sqlalchemy_uri in HM. cbv zeta in HM. revert HM. generalize (get_namespace "DB_" true true d). intros db HM. destruct (dget "type" db) as [[t|n|x| |b]|] eqn:E; try discriminate; [|by injection HM as <-].
    assert (HF : forall parts v acc, fill pi (dput "type" v db) parts acc = Missing k -> dget k db = None).
    { induction parts as [|[x|k0] parts IH]; intros v acc; cbn [fill]; [discriminate|apply IH|]. destruct (dget k0 (dput "type" v db)) as [w|] eqn:E0; [apply IH|]. intros [= <-].
      rewrite dget_dput in E0. by destruct (decide _). }
    destruct (bool_decide _); [by apply HF in HM|]. revert HM. destruct (bool_decide (default _ _ = _)); apply HF. }
  destruct (C188_namespace "DB_" true true d k Hd) as (HP & _ & H3).
  (* some key of that name gives a value *)
  assert (exists v, dget k (get_namespace "DB_" true true d) = Some v) as (v & Hv); [|congruence].
  clear -HK Hn. apply named_spec in Hn as (r & E & Ek). unfold get_namespace.
  assert (HG : forall rv, (is_Some (dget k rv) \/ K ∈ fst <$> d) -> is_Some (dget k (fold_left (fun rv p => match after_prefix "DB_" (fst p) with | Some r => let k := if true then r else fst p in dput (if true then lower k else k) (snd p) rv | None => rv end) d rv))).
  { clear HK. induction d as [|[k0 v0] d IH]; intros rv H; cbn [fold_left fst snd].
    - destruct H as [H|H]; [done|]. by apply not_elem_of_nil in H.
    - apply IH. rewrite fmap_cons, elem_of_cons in H. cbn [fst] in H. destruct H as [H|[<-|H]]; [left|left|by right].
      + destruct (after_prefix "DB_" k0) as [r0|]; [|done]. rewrite dget_dput. destruct (decide _); [by eexists|done].
      + rewrite E. rewrite dget_dput, decide_True; [by eexists|]. done. }
  apply HG. by right.
Qed.
(** '@' or '/' in a part: the same address for two configurations.  A password of digits loses its zeros. *)
Theorem C189_ambiguous_refuted : exists p p' h h', p <> p' /\ h <> h' /\ address "postgresql" "oar" (Some p) h "5432" "oar" = address "postgresql" "oar" (Some p') h' "5432" "oar".
Proof. exists "a@b", "a", "db", "b@db"%string. vm_compute. done. Qed.
Definition db_file : string := String.concat (String newline "") ["DB_TYPE=Pg"; "DB_HOSTNAME=db"; "DB_PORT=5432"; "DB_BASE_NAME=oar"; "DB_BASE_LOGIN=oar"; "DB_BASE_PASSWD='0042'"]%string.
Theorem C189_password_refuted pi : sqlalchemy_uri pi (snd (load_file (Text db_file) false false [])) false = Uri (address "postgresql" "oar" (Some (pi 42)) "db" (pi 5432) "oar").
Proof.
  set (db := dput "type" (CText "postgresql") (get_namespace "DB_" true true (snd (load_file (Text db_file) false false [])))).
  assert (Hdb : db = [("type", CText "postgresql"); ("hostname", CText "db"); ("port", CInt 5432); ("base_name", CText "oar"); ("base_login", CText "oar"); ("base_passwd", CInt 42)]%string) by (vm_compute; reflexivity).
  transitivity (fill pi db [inr "type"; inl "://"; inr "base_login"; inl ":"; inr "base_passwd"; inl "@"; inr "hostname"; inl ":"; inr "port"; inl "/"; inr "base_name"]%string ""); [reflexivity|].
  rewrite Hdb. cbn [fill]. repeat match goal with |- context [dget ?k ?d] => let x := eval vm_compute in (dget k d) in change (dget k d) with x; cbn [fill print_val] end.
  unfold address. rewrite snil_app, !app_assoc_s. reflexivity.
Qed.
Theorem C189_case pi : sqlalchemy_uri pi (snd (load_file (Text (db_file +:+ "x")) false false [])) true = Missing "base_login_ro".
Proof. reflexivity. Qed.
(** The file of the previous example meets the hypotheses of C189_address. *)
Theorem C189_hypotheses : let d := snd (load_file (Text db_file) false false []) in
  proper d /\ no_twins d /\ postgres "Pg" /\ dget "DB_TYPE" d = Some (CText "Pg") /\
  (forall k, k ∈ fst <$> d -> named_in "DB_" true true k "base_passwd" -> k = password_key false).
Proof.
  cbv zeta. set (ks := ["DB_TYPE"; "DB_HOSTNAME"; "DB_PORT"; "DB_BASE_NAME"; "DB_BASE_LOGIN"; "DB_BASE_PASSWD"]%string).
  assert (E : fst <$> snd (load_file (Text db_file) false false []) = ks) by (vm_compute; reflexivity).
  assert (HL : forall k k', k ∈ ks -> named_in "DB_" true true k k' -> (k, k') ∈ zip ks ["type"; "hostname"; "port"; "base_name"; "base_login"; "base_passwd"]%string).
  { intros k k' Hk (r & H1 & H2)%named_spec. unfold ks in Hk. repeat (apply elem_of_cons in Hk as [->|Hk]; [cbn in H1; injection H1 as <-; rewrite <- H2; vm_compute lower; unfold ks; cbn [zip]; by_dec|]). by apply not_elem_of_nil in Hk. }
  unfold proper. rewrite E. split; [unfold ks; by_dec|]. split; [|split; [|split; [vm_compute; reflexivity|]]].
  - intros k1 k2 k H1 H2 N1 N2. rewrite E in H1, H2. apply HL in N1, N2; [|done|done]. apply elem_of_list_lookup in N1 as (i & Hi), N2 as (j & Hj).
    assert (i = j) as ->.
    { apply (NoDup_lookup (snd <$> zip ks ["type"; "hostname"; "port"; "base_name"; "base_login"; "base_passwd"]%string) i j k); [by_dec|by rewrite list_lookup_fmap, Hi|by rewrite list_lookup_fmap, Hj]. }
    congruence.
  - exists "pg"%string. split; [by apply lower_spec|by_dec].
  - intros k Hk N. apply HL in N; [|done]. clear -N. unfold ks in N. cbn [zip] in N. repeat (apply elem_of_cons in N as [N|N]; [injection N; intros; subst; try discriminate; try reflexivity|]). by apply not_elem_of_nil in N.
Qed.
Print Assumptions C184_last_setting.
Print Assumptions C184_proper.
Print Assumptions C186_failure.
Print Assumptions C185_value.
Print Assumptions C185_integer.
Print Assumptions C185_text.
Print Assumptions C185_text_refuted.
Print Assumptions C184_case.
Print Assumptions C187_defaults.
Print Assumptions C187_given_refuted.
Print Assumptions C188_namespace.
Print Assumptions C188_case_refuted.
Print Assumptions C188_case.
Print Assumptions C189_address.
Print Assumptions C189_injective.
Print Assumptions C189_missing.
Print Assumptions C189_ambiguous_refuted.
Print Assumptions C189_password_refuted.
Print Assumptions C189_case.
Print Assumptions C189_hypotheses.
