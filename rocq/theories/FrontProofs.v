(** The lines of a script: lemmas. *)
From Verif Require Import Base ReqModel ReqSpec ReqProps AdmModel AdmProps FrontModel FrontSpec.
From Coq Require Import Ascii.

(** ** Strings *)
Lemma scons_app c a b : (String c a +:+ b)%string = String c (a +:+ b)%string.
Proof. reflexivity. Qed.
Lemma snil_app b : ("" +:+ b)%string = b.
Proof. reflexivity. Qed.
Lemma every_nil P : every P "".
Proof. apply Forall_nil. done. Qed.
Lemma every_cons P c s : every P (String c s) <-> P c /\ every P s.
Proof. unfold every. cbn [list_ascii_of_string]. apply Forall_cons. Qed.
Lemma every_app P s t : every P (s +:+ t) <-> every P s /\ every P t.
Proof.
  induction s as [|c s IH]; [rewrite snil_app; pose proof (every_nil P); tauto|].
  rewrite scons_app, !every_cons, IH. tauto.
Qed.
Lemma blank_spec c : is_blank c = true <-> blank_char c.
Proof. unfold is_blank, blank_char. cbv zeta. rewrite orb_true_iff, !andb_true_iff, !Nat.leb_le. tauto. Qed.
Lemma blank_no c : is_blank c = false <-> ~ blank_char c.
Proof. rewrite <- blank_spec. destruct (is_blank c); split; congruence. Qed.
Lemma digit_spec c : is_digit c = true <-> digit_char c.
Proof. unfold is_digit, digit_char. cbv zeta. rewrite andb_true_iff, !N.leb_le. unfold nat_of_ascii. lia. Qed.
Lemma digits_spec s : all_digits s = true <-> every digit_char s.
Proof. induction s as [|c s IH]; [split; [intros _; apply every_nil|done]|]. cbn [all_digits]. rewrite andb_true_iff, digit_spec, IH, every_cons. done. Qed.
Lemma digit_nonblank c : digit_char c -> ~ blank_char c.
Proof. unfold digit_char, blank_char. lia. Qed.
Lemma lstrip_blanks s t : every blank_char s -> lstrip (s +:+ t) = lstrip t.
Proof.
  induction s as [|c s IH]; [done|]. rewrite every_cons. intros [Hc Hs]. rewrite scons_app. cbn [lstrip].
  apply blank_spec in Hc as ->. by apply IH.
Qed.
Lemma lstrip_start c s : ~ blank_char c -> lstrip (String c s) = String c s.
Proof. intros H%blank_no. cbn [lstrip]. by rewrite H. Qed.
Lemma lstrip_spec s : exists b, every blank_char b /\ s = (b +:+ lstrip s)%string /\ forall c r, lstrip s = String c r -> ~ blank_char c.
Proof.
  induction s as [|c s (b & H1 & H2 & H3)]; [exists ""%string; split; [apply every_nil|done]|].
  cbn [lstrip]. destruct (is_blank c) eqn:E.
  - exists (String c b). rewrite every_cons, scons_app, <- H2. by apply blank_spec in E.
  - exists ""%string. split; [apply every_nil|]. split; [done|]. intros ? ? [= -> ->]. by apply blank_no in E.
Qed.
Lemma lstrip_all s : every blank_char s <-> lstrip s = ""%string.
Proof.
  split; [intros H; rewrite <- (app_nil_s s), lstrip_blanks; done|].
  intros E. destruct (lstrip_spec s) as (b & H1 & H2 & _). rewrite E, app_nil_s in H2. by subst.
Qed.
(** The text does not end with a blank. *)
Definition ends_well (s : string) : Prop := forall a d, s = (a +:+ String d "")%string -> ~ blank_char d.
Lemma rstrip_blanks s : every blank_char s -> rstrip s = ""%string.
Proof. induction s as [|c s IH]; [done|]. rewrite every_cons. intros [Hc Hs]. cbn [rstrip]. rewrite (IH Hs). apply blank_spec in Hc as ->. done. Qed.
Lemma rstrip_app a b : every blank_char b -> rstrip (a +:+ b) = rstrip a.
Proof. intros Hb. induction a as [|c a IH]; [rewrite snil_app; by apply rstrip_blanks|]. rewrite scons_app. cbn [rstrip]. by rewrite IH. Qed.
Lemma ends_tail c s : ends_well (String c s) -> s <> ""%string -> ends_well s.
Proof. intros H _ a d ->. apply (H (String c a) d). done. Qed.
Lemma rstrip_well s : ends_well s -> rstrip s = s.
Proof.
  induction s as [|c s IH]; [done|]. intros H. cbn [rstrip]. destruct s as [|d s].
  - cbn [rstrip]. assert (~ blank_char c) as ->%blank_no by (apply (H ""%string c); done). done.
  - rewrite IH; [done|]. by apply (ends_tail c).
Qed.
Lemma rstrip_spec s : exists b, every blank_char b /\ s = (rstrip s +:+ b)%string /\ ends_well (rstrip s).
Proof.
  induction s as [|c s (b & H1 & H2 & H3)]; [exists ""%string; repeat split; [apply every_nil|intros [|? ?] ?; discriminate]|].
  cbn [rstrip]. destruct (rstrip s) as [|d r] eqn:E.
  - destruct (is_blank c) eqn:Ec.
    + exists (String c b). rewrite every_cons. rewrite snil_app in H2. subst. apply blank_spec in Ec. repeat split; [done|done|]. intros [|? ?] ?; discriminate.
    + exists b. rewrite snil_app in H2. subst. repeat split; [done|]. intros [|e [|? ?]] d; [|discriminate|discriminate]. intros [= <-]. by apply blank_no.
  - exists b. repeat split; [done|rewrite scons_app; congruence|]. intros [|e a] d' He.
    + discriminate He.
    + rewrite scons_app in He. injection He as -> He. by apply (H3 a).
Qed.
Lemma ends_suffix a s : ends_well (a +:+ s) -> ends_well s.
Proof. intros H b d ->. apply (H (a +:+ b)%string d). by rewrite app_assoc_s. Qed.
Lemma ends_app a s : s <> ""%string -> ends_well s -> ends_well (a +:+ s).
Proof.
  intros Hs H. induction a as [|c a IH]; [done|]. intros [|e b] d He; rewrite scons_app in He.
  - rewrite snil_app in He. injection He as -> He. destruct a as [|? ?]; [rewrite snil_app in He; done|discriminate].
  - rewrite scons_app in He. injection He as -> He. by apply (IH b).
Qed.
Lemma every_last P a d : every P (a +:+ String d "") -> P d.
Proof. rewrite every_app, every_cons. tauto. Qed.
Lemma digits_ends v : every digit_char v -> ends_well v.
Proof. intros H a d ->. apply digit_nonblank. by apply every_last in H. Qed.

(** ** The table *)
Definition kind_of (x : key) : kind :=
  match argument x with text => One | texts => Many | digits => Number | list_of_digits => Numbers | nothing => Flag end.
Lemma table_rows : Forall (fun r => let '(opts, k, x) := r in opts = names x /\ k = kind_of x) table.
Proof. unfold table. repeat (apply Forall_cons; split; [split; reflexivity|]). by apply Forall_nil. Qed.
Lemma match_options_sound opts k r v : match_options opts k r = Some v -> exists o r', o ∈ opts /\ r = (o +:+ r')%string /\ value_ok k r' = true /\ v = lstrip r'.
Proof.
  induction opts as [|o opts IH]; [done|]. cbn [match_options]. destruct (after_prefix o r) as [r'|] eqn:E.
  - destruct (value_ok k r') eqn:Ev.
    + intros [= <-]. exists o, r'. apply after_prefix_spec in E. split; [left|done].
    + intros H. destruct (IH H) as (o' & r'' & Ho & ?). exists o', r''. split; [by right|done].
  - intros H. destruct (IH H) as (o' & r'' & Ho & ?). exists o', r''. split; [by right|done].
Qed.
Lemma match_table_sound t r k x v : match_table t r = Some (k, x, v) -> exists opts, (opts, k, x) ∈ t /\ match_options opts k r = Some v.
Proof.
  induction t as [|[[opts k'] x'] t IH]; [done|]. cbn [match_table]. destruct (match_options opts k' r) as [v'|] eqn:E.
  - intros [= -> -> ->]. exists opts. split; [left|done].
  - intros H. destruct (IH H) as (opts' & ? & ?). exists opts'. split; [by right|done].
Qed.
Lemma value_ok_good x r : ends_well r -> value_ok (kind_of x) r = true -> good_value (argument x) (lstrip r).
Proof.
  intros He. unfold kind_of. destruct (lstrip_spec r) as (b & Hb & Er & Hs).
  assert (Hl : ends_well (lstrip r)) by (rewrite Er in He; by apply ends_suffix in He).
  assert (Ht : negb (bool_decide (lstrip r = ""%string)) = true -> exists c s, lstrip r = String c s /\ ~ blank_char c /\ (forall s' d, lstrip r = (s' +:+ String d "")%string -> ~ blank_char d)).
  { rewrite negb_true_iff, bool_decide_eq_false. intros H. destruct (lstrip r) as [|c s] eqn:E; [done|]. exists c, s. split; [done|]. split; [by apply (Hs c s)|]. exact Hl. }
  assert (Hd : negb (bool_decide (lstrip r = ""%string)) && all_digits (lstrip r) = true -> lstrip r <> ""%string /\ every digit_char (lstrip r)).
  { rewrite andb_true_iff, negb_true_iff, bool_decide_eq_false, digits_spec. done. }
  destruct (argument x); cbn [value_ok good_value]; try assumption. by rewrite bool_decide_eq_true.
Qed.
Lemma read_line_sound l k x v : read_line l = Some (Some (k, x, v)) -> k = kind_of x /\ directive x v l.
Proof.
  unfold read_line. destruct (after_prefix "#OAR" l) as [[|c r]|] eqn:El; [done| |done]. apply after_prefix_spec in El.
  destruct (is_blank c) eqn:Ec; [|done]. intros H. apply (f_equal (fun o => match o with Some r => r | None => None end)) in H. cbn iota in H.
  apply match_table_sound in H as (opts & Hin & H).
  pose proof (proj1 (Forall_forall _ _) table_rows _ Hin) as Hr. cbn beta iota in Hr. destruct Hr as [-> ->]. split; [done|].
  apply match_options_sound in H as (o & r' & Ho & Er & Hv & ->).
  destruct (rstrip_spec (String c r)) as (b1 & Hb1 & E1 & He).
  destruct (lstrip_spec (rstrip (String c r))) as (b2 & Hb2 & E2 & _). rewrite Er in E2.
  destruct (lstrip_spec r') as (b3 & Hb3 & E3 & _).
  assert (Hr' : ends_well r'). { rewrite E2 in He. apply ends_suffix in He. by apply ends_suffix in He. }
  destruct b2 as [|c' b2].
  { exfalso. rewrite snil_app in E2. rewrite E2 in E1. apply blank_spec in Ec.
    assert (Hf : exists o', o = String "-" o') by (destruct x; cbn [names] in Ho; repeat (apply elem_of_cons in Ho as [->|Ho]; [eexists; reflexivity|]); by apply elem_of_nil in Ho).
    destruct Hf as [o' ->]. rewrite !scons_app in E1. injection E1 as -> _. vm_compute in Ec. lia. }
  rewrite E2, scons_app in E1. injection E1 as E1c E1.
  apply every_cons in Hb2 as [Hc' Hb2].
  exists c', b2, o, b3, b1. repeat (split; [first [assumption|by apply value_ok_good]|]).
  rewrite <- E1c in *. rewrite El. rewrite E1. rewrite E3 at 1. rewrite !scons_app, !app_assoc_s. reflexivity.
Qed.
Lemma option_ends x o : o ∈ names x -> ends_well o /\ exists o', o = String "-" o'.
Proof.
  intros H.
  destruct x; cbn [names] in H; repeat (apply elem_of_cons in H as [->|H];
    [split; [intros a d Ha; apply (f_equal (fun s => last (list_ascii_of_string s))) in Ha;
             assert (Hl : forall a, last (list_ascii_of_string (a +:+ String d ""))%string = Some d)
               by (intros a'; induction a' as [|e a' IH]; [done|]; rewrite scons_app; cbn [list_ascii_of_string]; destruct a' as [|? ?]; [done|]; exact IH);
             rewrite Hl in Ha; vm_compute in Ha; injection Ha as <-; unfold blank_char; vm_compute; lia|eexists; reflexivity]|]); by apply elem_of_nil in H.
Qed.
Lemma match_table_complete x o t v : o ∈ names x -> x <> KStageinMd5 -> value_ok (kind_of x) t = true -> lstrip t = v ->
  match_table table (o +:+ t) = Some (kind_of x, x, v).
Proof.
  intros Ho Hx Hv <-.
  destruct x; try done; cbn [names] in Ho; unfold kind_of in Hv |- *; cbn [argument] in Hv |- *;
   repeat (apply elem_of_cons in Ho as [->|Ho];
     [rewrite !scons_app, snil_app; cbn [table match_table match_options after_prefix Ascii.eqb Bool.eqb]; try (rewrite Hv; reflexivity)|]);
   try (by apply elem_of_nil in Ho).
Qed.
Lemma good_value_ok x s v : every blank_char s -> good_value (argument x) v ->
  exists t, value_ok (kind_of x) t = true /\ lstrip t = v /\ (v = ""%string /\ t = ""%string \/ v <> ""%string /\ t = (s +:+ v)%string /\ ends_well v).
Proof.
  intros Hs Hv. unfold kind_of. destruct (decide (v = ""%string)) as [->|Hn].
  - exists ""%string. destruct (argument x); cbn [good_value] in Hv; try (by destruct Hv as (? & ? & [=] & _)); try (by destruct Hv as [? _]).
    split; [reflexivity|]. split; [done|]. by left.
  - exists (s +:+ v)%string.
    assert (Hd : every digit_char v -> lstrip v = v).
    { destruct v as [|c v]; [done|]. rewrite every_cons. intros [Hc _]. apply lstrip_start. by apply digit_nonblank. }
    rewrite lstrip_blanks by done.
    destruct (argument x); cbn [good_value value_ok] in Hv |- *; rewrite ?lstrip_blanks by done.
    + destruct Hv as (c & r & Ev & Hc & He). rewrite Ev in *. rewrite lstrip_start by done. split; [by rewrite bool_decide_false|]. split; [done|]. right. done.
    + destruct Hv as (c & r & Ev & Hc & He). rewrite Ev in *. rewrite lstrip_start by done. split; [by rewrite bool_decide_false|]. split; [done|]. right. done.
    + destruct Hv as [_ Hv]. rewrite (Hd Hv). rewrite bool_decide_false by done. rewrite (proj2 (digits_spec v)) by done. split; [done|]. split; [done|]. right. split; [done|]. split; [done|]. by apply digits_ends.
    + destruct Hv as [_ Hv]. rewrite (Hd Hv). rewrite bool_decide_false by done. rewrite (proj2 (digits_spec v)) by done. split; [done|]. split; [done|]. right. split; [done|]. split; [done|]. by apply digits_ends.
    + done.
Qed.
Lemma read_line_complete l x v : directive x v l -> x <> KStageinMd5 -> read_line l = Some (Some (kind_of x, x, v)).
Proof.
  intros (b & s & o & s' & s'' & Hb & Hs & Ho & Hs' & Hs'' & Hv & ->) Hx. unfold read_line.
  rewrite (proj2 (after_prefix_spec "#OAR" _ _) eq_refl). rewrite (scons_app b s). rewrite (proj2 (blank_spec b) Hb).
  destruct (good_value_ok x s' v Hs' Hv) as (t & Ht1 & Ht2 & Ht3). destruct (option_ends x o Ho) as (Heo & o' & Eo).
  assert (E : lstrip (rstrip (String b (s +:+ o +:+ s' +:+ v +:+ s''))) = (o +:+ t)%string).
  { assert (E1 : rstrip (String b (s +:+ o +:+ s' +:+ v +:+ s'')) = (String b s +:+ o +:+ t)%string).
    { destruct Ht3 as [[-> ->]|(Hn & -> & Hev)].
      - rewrite snil_app, app_nil_s. rewrite <- (scons_app b s), <- !app_assoc_s. rewrite (rstrip_app _ s'') by done. rewrite rstrip_app by done.
        apply rstrip_well. apply ends_app; [by rewrite Eo|done].
      - rewrite <- (scons_app b s), <- !app_assoc_s. rewrite rstrip_app by done. rewrite !app_assoc_s. apply rstrip_well.
        rewrite <- !app_assoc_s. by apply ends_app. }
    rewrite E1. rewrite lstrip_blanks by (apply every_cons; done). rewrite Eo, scons_app. apply lstrip_start. unfold blank_char; vm_compute; lia. }
  rewrite E. by rewrite (match_table_complete x o t v).
Qed.
Lemma directive_addressed x v l : directive x v l -> addressed l.
Proof. intros (b & s & o & s' & s'' & Hb & _ & _ & _ & _ & _ & ->). exists b. eexists. split; [done|]. rewrite (scons_app b s). reflexivity. Qed.
Lemma read_line_addressed l : addressed l <-> read_line l <> None.
Proof.
  unfold read_line. split.
  - intros (b & s & Hb & ->). rewrite (proj2 (after_prefix_spec "#OAR" _ _) eq_refl). by rewrite (proj2 (blank_spec b) Hb).
  - destruct (after_prefix "#OAR" l) as [[|c r]|] eqn:E; [done| |done]. apply after_prefix_spec in E. destruct (is_blank c) eqn:Ec; [|done].
    intros _. exists c, r. apply blank_spec in Ec. done.
Qed.
Lemma directive_fun x v x' v' l : directive x v l -> directive x' v' l -> x <> KStageinMd5 -> x' <> KStageinMd5 -> x = x' /\ v = v'.
Proof. intros H H' Hx Hx'. pose proof (read_line_complete l x v H Hx) as E. rewrite (read_line_complete l x' v' H' Hx') in E. injection E as _ -> ->. done. Qed.
Lemma md5_is_stagein v l : directive KStageinMd5 v l -> exists v', directive KStagein v' l.
Proof.
  intros (b & s & o & s' & s'' & Hb & Hs & Ho & Hs' & Hs'' & Hv & ->). cbn [names] in Ho. apply elem_of_list_singleton in Ho as ->.
  exists ("-md5sum" +:+ s' +:+ v)%string, b, s, "--stagein"%string, ""%string, s''.
  split; [done|]. split; [done|]. split; [cbn [names]; apply elem_of_cons; right; apply elem_of_cons; by left|]. split; [apply every_nil|]. split; [done|]. split.
  - cbn [argument good_value] in *. exists "-"%char. eexists. split; [rewrite scons_app; reflexivity|]. split; [unfold blank_char; vm_compute; lia|].
    destruct Hv as (c & r & Ev & _ & He). intros a d. revert a d. rewrite <- app_assoc_s. apply (ends_app _ v); [by rewrite Ev|exact He].
  - rewrite snil_app. rewrite !app_assoc_s. reflexivity.
Qed.
Lemma read_line_none l : read_line l = Some None <-> addressed l /\ forall x v, ~ directive x v l.
Proof.
  split.
  - intros H. split; [apply read_line_addressed; congruence|].
    assert (Hk : forall x v, x <> KStageinMd5 -> ~ directive x v l) by (intros x v Hx Hd; by rewrite (read_line_complete l x v Hd Hx) in H).
    intros x v Hd. destruct (decide (x = KStageinMd5)) as [->|Hx]; [|by apply (Hk x v)].
    destruct (md5_is_stagein v l Hd) as [v' H']. by apply (Hk KStagein v').
  - intros [Ha Hn]. destruct (read_line l) as [[[[k x] v]|]|] eqn:E; [|done|].
    + exfalso. apply read_line_sound in E as [_ E]. by apply (Hn x v).
    + by apply read_line_addressed in Ha.
Qed.
Lemma scan_bad ls : forall b m, fst (scan_lines ls b m) = true <-> b = true \/ exists l, l ∈ ls /\ addressed l /\ forall x v, ~ directive x v l.
Proof.
  induction ls as [|l ls IH]; intros b m; cbn [scan_lines].
  - split; [by left|]. intros [?|(? & ?%elem_of_nil & _)]; done.
  - destruct (read_line l) as [[[[k x] v]|]|] eqn:E; rewrite IH.
    + split.
      * intros [?|(l' & Hl & Hl')]; [by left|]. right. exists l'. split; [by right|done].
      * intros [?|(l' & [->|Hl]%elem_of_cons & Hl')]; [by left| |right; by exists l']. apply read_line_none in Hl'. congruence.
    + split; [|by left]. intros _. right. exists l. split; [left|by apply read_line_none].
    + split.
      * intros [?|(l' & Hl & Hl')]; [by left|]. right. exists l'. split; [by right|done].
      * intros [?|(l' & [->|Hl]%elem_of_cons & Hl')]; [by left| |right; by exists l']. apply read_line_none in Hl'. congruence.
Qed.
Lemma number_from_spec s : forall n, number_from n s = fold_left (fun n c => 10 * n + digit_value c) (list_ascii_of_string s) n.
Proof. induction s as [|c s IH]; intros n; [done|]. cbn [number_from list_ascii_of_string fold_left]. rewrite IH. f_equal. unfold digit_value. lia. Qed.
Lemma note_value k x v vs m : k = kind_of x -> m x = value_of x vs -> note k x v m x = value_of x (vs ++ [v]).
Proof.
  intros -> Hm. unfold kind_of, value_of in *. destruct (argument x); cbn [note]; unfold put; rewrite (decide_True (P := x = x)) by done; rewrite ?last_snoc; cbn [fmap option_fmap option_map compose].
  - done.
  - rewrite Hm. rewrite (decide_False (P := vs ++ [v] = [])) by (by destruct vs). destruct (decide (vs = [])) as [->|]; done.
  - cbn. f_equal. f_equal. apply number_from_spec.
  - rewrite Hm. rewrite (decide_False (P := vs ++ [v] = [])) by (by destruct vs). unfold number. rewrite number_from_spec. destruct (decide (vs = [])) as [->|]; [done|]. by rewrite fmap_app.
  - rewrite (decide_False (P := vs ++ [v] = [])) by (by destruct vs). done.
Qed.
Lemma note_other k x y v m : y <> x -> note k x v m y = m y.
Proof. intros H. destruct k; cbn [note]; unfold put; by rewrite decide_False. Qed.
Lemma scan_values x ls vs : collected x ls vs -> x <> KStageinMd5 -> forall b m vs0, m x = value_of x vs0 -> snd (scan_lines ls b m) x = value_of x (vs0 ++ vs).
Proof.
  intros H Hx. induction H as [|v l ls vs Hd Hc IH|l ls vs Hn Hc IH]; intros b m vs0 Hm; cbn [scan_lines].
  - by rewrite app_nil_r.
  - rewrite (read_line_complete l x v Hd Hx). rewrite (IH b _ (vs0 ++ [v])); [by rewrite <- app_assoc|]. by apply note_value.
  - destruct (read_line l) as [[[[k y] v]|]|] eqn:E; [|by apply IH|by apply IH].
    apply read_line_sound in E as [-> E]. apply IH. rewrite note_other; [done|]. intros ->. by apply (Hn v).
Qed.
Lemma split_on_lines ls t : lines_of ls t -> split_on newline t = ls.
Proof.
  intros (Hn & Hl & ->).
  assert (Hlack : forall s, every (fun a => a <> newline) s -> lacks [newline] s).
  { induction s as [|c s IH]; [done|]. rewrite every_cons. intros [Hc Hs]. split; [by intros ->%elem_of_list_singleton|by apply IH]. }
  induction ls as [|l ls IH]; [done|]. apply Forall_cons in Hl as [Hl Hls]. destruct ls as [|l' ls].
  - cbn [String.concat]. apply split_on_lacks. by apply Hlack.
  - change (String.concat (String newline "") (l :: l' :: ls)) with (l +:+ String newline (String.concat (String newline "") (l' :: ls)))%string.
    rewrite split_on_sep by (by apply Hlack). f_equal. by apply IH.
Qed.
Lemma first_word_app f r : every (fun a => ~ blank_char a) f -> (r = ""%string \/ exists b r', blank_char b /\ r = String b r') -> first_word (f +:+ r) = f.
Proof.
  intros Hf Hr. induction f as [|c f IH].
  - rewrite snil_app. destruct Hr as [->|(b & r' & Hb & ->)]; [done|]. cbn [first_word]. by rewrite (proj2 (blank_spec b) Hb).
  - apply every_cons in Hf as [Hc Hf]. rewrite scons_app. cbn [first_word]. rewrite (proj2 (blank_no c) Hc). by rewrite (IH Hf).
Qed.
Lemma word_first c f : word_of c f -> first_word (lstrip c) = f /\ lstrip c <> ""%string.
Proof.
  intros (s & r & Hs & Hn & Hf & -> & Hr). rewrite lstrip_blanks by done. destruct f as [|a f]; [done|].
  rewrite scons_app, lstrip_start by (by apply every_cons in Hf as [? _]). split; [|done]. rewrite <- scons_app. by apply first_word_app.
Qed.
Lemma script_scan w l ls : script_of w l ls -> exists c, l_cmd l = Some c /\ lstrip c <> ""%string /\ scan_text (cat w (first_word (lstrip c))) = scan_lines ls false (fun _ => None).
Proof.
  intros (c & f & Hc & Hw & Hl). exists c. apply word_first in Hw as [E Hn]. split; [done|]. split; [done|]. unfold scan_text. rewrite E. by rewrite (split_on_lines ls).
Qed.
