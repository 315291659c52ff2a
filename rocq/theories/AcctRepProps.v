(** The accounting reports of oarstat: C226 to C232. *)
From Verif Require Import Base ReqModel AdmModel FrontModel FrontSpec FrontProofs FrontProps LaunchModel AcctModel AcctSpec AcctProofs AcctProps AcctRepModel AcctRepSpec.
From Coq Require Import Ascii.

(** ** Dictionaries *)
Lemma look_put {A} k k' f (d : list (string * A)) : look k (put k' f d) = if decide (k = k') then Some (f (look k d)) else look k d.
Proof.
  induction d as [|[k0 v] d IH]; cbn [put look].
  - destruct (decide (k = k')) as [->|H]; [by rewrite bool_decide_true|by rewrite bool_decide_false].
  - destruct (decide (k' = k0)) as [->|H0].
    + rewrite bool_decide_true by done. cbn [look]. destruct (decide (k = k0)) as [->|H]; [by rewrite bool_decide_true|by rewrite bool_decide_false].
    + rewrite bool_decide_false by done. cbn [look]. destruct (decide (k = k0)) as [->|H].
      * rewrite bool_decide_true by done. destruct (decide (k0 = k')) as [E|_]; [congruence|done].
      * rewrite bool_decide_false by done. exact IH.
Qed.
Lemma put_keys {A} k f (d : list (string * A)) : (put k f d).*1 = if decide (k ∈ d.*1) then d.*1 else d.*1 ++ [k].
Proof.
  induction d as [|[k0 v] d IH]; cbn [put]; [rewrite decide_False; [done|apply not_elem_of_nil]|].
  destruct (decide (k = k0)) as [->|H0].
  - rewrite bool_decide_true by done. rewrite decide_True; [done|]. cbn. left.
  - rewrite bool_decide_false by done. rewrite !fmap_cons. cbn [fst]. rewrite IH. destruct (decide (k ∈ d.*1)) as [H|H].
    + rewrite decide_True; [done|]. by right.
    + rewrite decide_False; [done|]. intros [?|?]%elem_of_cons; done.
Qed.
Lemma look_in {A} k (v : A) d : NoDup d.*1 -> (k, v) ∈ d -> look k d = Some v.
Proof.
  induction d as [|[k0 v0] d IH]; intros Hn Hi; [by apply elem_of_nil in Hi|]. rewrite fmap_cons in Hn. apply NoDup_cons in Hn as [H1 H2]. cbn [fst] in H1. cbn [look].
  apply elem_of_cons in Hi as [[= <- <-]|Hi]; [by rewrite bool_decide_true|].
  rewrite bool_decide_false; [by apply IH|]. intros ->. apply H1. apply elem_of_list_fmap. by exists (k0, v).
Qed.
Lemma look_elem {A} k (v : A) d : look k d = Some v -> (k, v) ∈ d.
Proof.
  induction d as [|[k0 v0] d IH]; cbn [look]; [done|]. destruct (bool_decide (k = k0)) eqn:E; [apply bool_decide_eq_true in E as ->; intros [= ->]; left|]. intros H. right. by apply IH.
Qed.
Section group.
  Context {X B : Type} (key : X -> string) (g : option B -> X -> B).
  Definition grouped (l : list X) : list (string * B) := foldl (fun d x => put (key x) (fun o => g o x) d) [] l.
  Definition gathered (l : list X) : option B := foldl (fun o x => Some (g o x)) None l.
  Lemma look_grouped k (l : list X) : look k (grouped l) = gathered (filter (fun x => key x = k) l).
  Proof.
    unfold grouped, gathered. induction l as [|x l IH] using rev_ind; [done|]. rewrite foldl_app, filter_app, foldl_app. cbn [foldl]. rewrite look_put, IH.
    destruct (decide (k = key x)) as [E|H]; [rewrite filter_cons_True by congruence|rewrite filter_cons_False by congruence]; done.
  Qed.
  Lemma grouped_keys (l : list X) : NoDup (grouped l).*1 /\ forall k, k ∈ (grouped l).*1 <-> exists x, x ∈ l /\ key x = k.
  Proof.
    unfold grouped. induction l as [|x l [IH1 IH2]] using rev_ind.
    - split; [cbn; apply NoDup_nil; done|]. intros k. split; [intros H; by apply elem_of_nil in H|intros (x & H & _); by apply elem_of_nil in H].
    - rewrite foldl_app. cbn [foldl]. rewrite put_keys. destruct (decide _) as [H|H].
      + split; [done|]. intros k. rewrite IH2. split.
        * intros (y & Hy & E). exists y. split; [apply elem_of_app; by left|done].
        * intros (y & [Hy|Hy]%elem_of_app & E); [by exists y|]. apply elem_of_list_singleton in Hy as ->. subst k. by apply IH2.
      + split; [apply NoDup_app; split_and!; [done| |apply NoDup_singleton]; intros y Hy ->%elem_of_list_singleton; done|].
        intros k. rewrite elem_of_app, IH2, elem_of_list_singleton. split.
        * intros [(y & Hy & E)| ->]; [exists y; split; [apply elem_of_app; by left|done]|exists x; split; [apply elem_of_app; right; left|done]].
        * intros (y & [Hy|Hy]%elem_of_app & E); [left; by exists y|]. apply elem_of_list_singleton in Hy as ->. by right.
  Qed.
End group.
Lemma gathered_last {X} (f : X -> Z) (l : list X) : gathered (fun (_ : option Z) x => f x) l = f <$> last l.
Proof. unfold gathered. destruct l as [|x l _] using rev_ind; [done|]. rewrite foldl_app, last_snoc. done. Qed.

(** ** Groups of rows *)
Lemma filter_keyed {K X} `{EqDecision K} (f : K -> X) (key : X -> K) (l : list K) (k : K) : (forall k, key (f k) = k) -> NoDup l ->
  filter (fun x => key x = k) (f <$> l) = if decide (k ∈ l) then [f k] else [].
Proof.
  intros Hk. induction l as [|k0 l IH]; intros Hn; [rewrite decide_False; [done|apply not_elem_of_nil]|].
  apply NoDup_cons in Hn as [H1 H2]. rewrite fmap_cons. destruct (decide (k0 = k)) as [->|Hne].
  - rewrite filter_cons_True by (by rewrite Hk). rewrite IH by done. rewrite decide_False by done. rewrite decide_True; [done|left].
  - rewrite filter_cons_False by (by rewrite Hk). rewrite IH by done. destruct (decide (k ∈ l)) as [H|H].
    + rewrite decide_True; [done|by right].
    + rewrite decide_False; [done|]. intros [?|?]%elem_of_cons; congruence.
Qed.
Lemma add_up_zsum l : add_up l = zsum l.
Proof. reflexivity. Qed.
Lemma filter_none {X} (P : X -> Prop) `{!forall x, Decision (P x)} (l : list X) : (forall x, x ∈ l -> ~ P x) -> filter P l = [].
Proof. induction l as [|x l IH]; intros Hl; [done|]. rewrite filter_cons_False by (apply Hl; left). apply IH. intros y Hy. apply Hl. by right. Qed.
Lemma filter_both {X} (P Q R : X -> Prop) `{!forall x, Decision (P x)} `{!forall x, Decision (Q x)} `{!forall x, Decision (R x)} (l : list X) :
  (forall x, x ∈ l -> (R x <-> P x /\ Q x)) -> filter P (filter Q l) = filter R l.
Proof.
  induction l as [|x l IH]; intros Hl; [done|]. assert (IH' : filter P (filter Q l) = filter R l) by (apply IH; intros y Hy; apply Hl; by right).
  assert (Hx := Hl x ltac:(left)). destruct (decide (Q x)) as [HQ|HQ].
  - rewrite (filter_cons_True Q) by done. destruct (decide (P x)) as [HP|HP].
    + rewrite filter_cons_True by done. rewrite (filter_cons_True R) by tauto. by rewrite IH'.
    + rewrite filter_cons_False by done. rewrite (filter_cons_False R) by tauto. done.
  - rewrite (filter_cons_False Q) by done. rewrite (filter_cons_False R) by tauto. done.
Qed.
Lemma perm_short {X} (l l' : list X) : l ≡ₚ l' -> (length l' <= 1)%nat -> l = l'.
Proof. intros H Hl. destruct l' as [|x [|y l']]; [by apply Permutation_nil_r in H|by apply Permutation_singleton_r in H|cbn in Hl; lia]. Qed.

(** Of the sorted groups, those of a user and a type: one or none. *)
Lemma sums_one P order u ty : by_seconds order -> filter (fun x => s_type x = ty) (filter (fun x => s_user x = u) (order (sums P))) =
  if decide ((u, ty) ∈ (fun r => (a_user r, a_type r)) <$> P) then [sum_of P (u, ty)] else [].
Proof.
  intros Ho. apply perm_short; [|destruct (decide _); cbn; lia].
  rewrite (filter_both _ _ (fun x => (s_user x, s_type x) = (u, ty))) by (intros x _; split; [intros [= ? ?]; done|intros [? ?]; congruence]).
  etrans; [apply filter_Permutation, (proj1 (Ho _))|]. unfold sums.
  rewrite (filter_keyed (sum_of P) (fun x => (s_user x, s_type x))); [|by intros []|apply NoDup_remove_dups].
  destruct (decide ((u, ty) ∈ remove_dups _)) as [H|H]; rewrite elem_of_remove_dups in H; [by rewrite decide_True|by rewrite decide_False].
Qed.
Definition old_cons (o : option ucons) : list (string * Z) := match o with Some c => u_cons c | None => [] end.
Definition next_u (o : option ucons) (x : sumrow) : ucons := mkU (put (s_type x) (fun _ => s_secs x) (old_cons o)) (s_first x) (s_last x).
Lemma summary_grouped order d1 d2 u p T : summary order d1 d2 u p T = grouped s_user next_u (order (sums (period d1 d2 u p T))).
Proof. reflexivity. Qed.
Lemma gathered_u (l : list sumrow) c : gathered next_u l = Some c -> u_cons c = grouped s_type (fun _ x => s_secs x) l /\
  exists x, last l = Some x /\ u_begin c = s_first x /\ u_end c = s_last x.
Proof.
  revert c. unfold gathered, grouped. induction l as [|x l IH] using rev_ind; intros c; [done|]. rewrite !foldl_app, last_snoc. cbn [foldl]. intros [= <-].
  split; [|by exists x]. unfold next_u. cbn [u_cons]. f_equal. destruct (foldl _ None l) as [c'|] eqn:E; [by destruct (IH c' eq_refl)|].
  destruct l as [|y l _] using rev_ind; [done|]. rewrite foldl_app in E. done.
Qed.
Lemma gathered_some {X B} (g : option B -> X -> B) (l : list X) : is_Some (gathered g l) <-> l <> [].
Proof.
  unfold gathered. destruct l as [|y l _] using rev_ind; [split; [intros [? [=]]|done]|]. rewrite foldl_app. cbn [foldl]. split; [by intros _; destruct l|by eauto].
Qed.
Lemma user_keys P order u : by_seconds order -> (exists x, x ∈ order (sums P) /\ s_user x = u) <-> exists r, r ∈ P /\ a_user r = u.
Proof.
  intros Ho. split.
  - intros (x & Hx & E). rewrite (proj1 (Ho _)) in Hx. unfold sums in Hx. apply elem_of_list_fmap in Hx as (k & -> & Hk). rewrite elem_of_remove_dups in Hk.
    apply elem_of_list_fmap in Hk as (r & -> & Hr). cbn in E. by exists r.
  - intros (r & Hr & E). exists (sum_of P (a_user r, a_type r)). split; [|done]. rewrite (proj1 (Ho _)). unfold sums. apply elem_of_list_fmap.
    exists (a_user r, a_type r). split; [done|]. rewrite elem_of_remove_dups. apply elem_of_list_fmap. by exists r.
Qed.
Lemma look_type P order u c ty : by_seconds order -> look u (grouped s_user next_u (order (sums P))) = Some c ->
  none0 (look ty (u_cons c)) = zsum (a_cons <$> filter (fun r => a_user r = u /\ a_type r = ty) P).
Proof.
  intros Ho. rewrite look_grouped. intros H. apply gathered_u in H as [-> _]. rewrite look_grouped, gathered_last, sums_one by done.
  assert (E : filter (fun r => (a_user r, a_type r) = (u, ty)) P = filter (fun r => a_user r = u /\ a_type r = ty) P).
  { apply list_filter_iff. intros r. split; [by intros [= -> ->]|by intros [-> ->]]. }
  destruct (decide _) as [H|H]; cbn; [by rewrite E|]. rewrite filter_none; [done|]. intros r Hr [H1 H2]. apply H. apply elem_of_list_fmap. exists r. by rewrite H1, H2.
Qed.
Lemma period_consumed d1 d2 u p T ty v : (v = ""%string \/ v = u) -> zsum (a_cons <$> filter (fun r => a_user r = u /\ a_type r = ty) (period d1 d2 v p T)) = consumed T d1 d2 p u ty.
Proof.
  intros Hv. unfold period, consumed. rewrite (filter_both _ _ (fun r => d1 < a_stop r /\ a_start r < d2 /\ p r = true /\ a_user r = u /\ a_type r = ty)); [done|].
  intros r _. split; [intros (H1 & H2 & H3 & H4 & H5)|tauto]. split_and!; try done. destruct Hv as [->|Hv]; [by left|right; congruence].
Qed.
Lemma in_period d1 d2 v p T r : r ∈ period d1 d2 v p T <-> r ∈ T /\ d1 < a_stop r /\ a_start r < d2 /\ (v = ""%string \/ a_user r = v) /\ p r = true.
Proof. unfold period. rewrite elem_of_list_filter. tauto. Qed.

(** ** The text of the period *)
Lemma dates_of_spec s y m d y' m' d' : dates_of s = Some [y; m; d; y'; m'; d'] <-> exists rest, period_text s rest y m d y' m' d'.
Proof.
  unfold dates_of. split.
  - intros H. destruct (lstrip_spec s) as (s0 & Hs0 & Es & _).
    apply field_sound in H as (ty & y0 & r1 & r1' & E1 & By & S1 & H). apply take_char_spec in S1 as ->.
    apply field_sound in H as (tm & mo & r2 & r2' & -> & Bm & S2 & H). apply take_char_spec in S2 as ->.
    apply field_sound in H as (td & dd & r3 & r3' & -> & Bd & S3 & H). apply take_char_spec in S3.
    destruct (lstrip_spec r3) as (s1 & Hs1 & Es1 & _). rewrite S3 in Es1.
    destruct (lstrip_spec r3') as (s2 & Hs2 & Es2 & _).
    apply field_sound in H as (ty' & y0' & r4 & r4' & E4 & By' & S4 & H). apply take_char_spec in S4 as ->.
    apply field_sound in H as (tm' & mo' & r5 & r5' & -> & Bm' & S5 & H). apply take_char_spec in S5 as ->.
    unfold field, take_number in H. destruct (run_digits 2 r5') as [td' rest] eqn:E6. destruct (1 <=? String.length td')%nat eqn:E7; [|done]. apply Nat.leb_le in E7.
    assert (Hsix : [y0; mo; dd; y0'; mo'; number_from 0 td'] = [y; m; d; y'; m'; d']) by congruence. injection Hsix as -> -> -> -> -> <-.
    assert (Hrun := E6). apply run_digits_sound in E6 as (-> & D1 & D2).
    exists rest, s0, ty, tm, td, s1, s2, ty', tm', td'. repeat (split; [done|]). split; [|split].
    + split; [lia|]. split; [done|]. apply number_from_spec.
    + destruct (decide (String.length td' = 2%nat)) as [?|Hne]; [by left|]. right. intros c r -> Hc.
      destruct td' as [|c1 [|c2 td']]; [cbn in E7; lia| |cbn in Hne, D2; lia]. apply every_cons in D1 as [D1 _].
      rewrite !scons_app, snil_app in Hrun. cbn [run_digits] in Hrun. rewrite (proj2 (digit_spec c1) D1), (proj2 (digit_spec c) Hc) in Hrun. congruence.
    + rewrite Es, E1, Es1. rewrite scons_app, Es2, E4. reflexivity.
  - intros (rest & s0 & ty & tm & td & s1 & s2 & ty' & tm' & td' & H0 & H1 & H2 & By & Bm & Bd & By' & Bm' & Bd' & Hr & ->).
    assert (Hsep : forall c r, ~ digit_char c -> no_digit (String c r)) by (intros c r Hc c' r' [= <- <-]; done).
    assert (Hb : forall c, blank_char c -> ~ digit_char c) by (intros c Hc Hd; by apply digit_nonblank in Hd).
    rewrite lstrip_blanks by done.
    assert (Hst : forall t r lo hi n, between lo hi t n -> (1 <= lo)%nat -> lstrip (t +:+ r) = (t +:+ r)%string).
    { intros t r lo hi n Hbt Hlo. destruct t as [|c t]; [destruct Hbt as ([? _] & _); cbn in *; lia|]. rewrite scons_app. apply lstrip_start. apply (between_start lo hi (String c t) n r Hbt Hlo c (t +:+ r)). done. }
    rewrite (Hst ty _ 4%nat 4%nat y By) by lia.
    rewrite (field_complete 4 4 _ ty y _ (tm +:+ "-" +:+ td +:+ s1 +:+ "," +:+ s2 +:+ ty' +:+ "-" +:+ tm' +:+ "-" +:+ td' +:+ rest)%string _ By);
      [|apply Hsep; vm_compute; lia|by apply take_char_spec].
    rewrite (field_complete 1 2 _ tm m _ (td +:+ s1 +:+ "," +:+ s2 +:+ ty' +:+ "-" +:+ tm' +:+ "-" +:+ td' +:+ rest)%string _ Bm);
      [|apply Hsep; vm_compute; lia|by apply take_char_spec].
    rewrite (field_complete 1 2 _ td d _ (s2 +:+ ty' +:+ "-" +:+ tm' +:+ "-" +:+ td' +:+ rest)%string _ Bd).
    2: { destruct s1 as [|b s1]; [rewrite snil_app; apply Hsep; vm_compute; lia|]. rewrite scons_app. apply Hsep. apply Hb. by apply every_cons in H1 as [? _]. }
    2: { apply take_char_spec. rewrite lstrip_blanks by done. rewrite scons_app, lstrip_start; [done|]. unfold blank_char. vm_compute. lia. }
    rewrite lstrip_blanks by done. rewrite (Hst ty' _ 4%nat 4%nat y' By') by lia.
    rewrite (field_complete 4 4 _ ty' y' _ (tm' +:+ "-" +:+ td' +:+ rest)%string _ By'); [|apply Hsep; vm_compute; lia|by apply take_char_spec].
    rewrite (field_complete 1 2 _ tm' m' _ (td' +:+ rest)%string _ Bm'); [|apply Hsep; vm_compute; lia|by apply take_char_spec].
    destruct Bd' as ([L1 L2] & D & ->). unfold field, take_number.
    assert (Erun : run_digits 2 (td' +:+ rest) = (td', rest)).
    { destruct Hr as [Hl|Hr]; [|by apply run_digits_complete]. destruct td' as [|c1 [|c2 [|c3 td']]]; cbn in Hl; try lia.
      apply every_cons in D as [D1 D]. apply every_cons in D as [D2 _]. rewrite !scons_app, snil_app. cbn [run_digits]. by rewrite (proj2 (digit_spec c1) D1), (proj2 (digit_spec c2) D2). }
    rewrite Erun, (proj2 (Nat.leb_le _ _) L1). rewrite number_from_spec. reflexivity.
Qed.
Lemma dates_six s l : dates_of s = Some l -> exists y m d y' m' d', l = [y; m; d; y'; m'; d'].
Proof.
  unfold dates_of. intros H. do 6 (apply field_sound in H as (? & ? & ? & ? & _ & _ & _ & H)). injection H as <-. eauto 10.
Qed.
Lemma midnight_ok mk y m d v : midnight mk y m d = Ok v <-> real_date y m d 0 0 0 /\ v = mk [y; m; d; 0; 0; 0].
Proof.
  unfold midnight. rewrite <- date_exists_spec. destruct (date_exists _); split; [intros [= <-]; done|intros [_ ->]; done|done|intros [[=] _]].
Qed.
Lemma print_asked order porder mk text u p jobs T d1 d2 : asks_for mk text d1 d2 ->
  print_accounting order porder mk text u p jobs T =
    if bool_decide (u = ""%string) then Ok (ShownAll (line_of <$> summary order d1 d2 u p T))
    else match look u (summary order d1 d2 u p T) with
         | None => Ok (NoSuchUser u)
         | Some c => Ok (ShownUser (line_of (u, c)) (pline_of jobs u d2 <$> summary_byproject porder d1 d2 u T)) end.
Proof.
  intros (rest & y & m & d & y' & m' & d' & Ht & Hd1 & Hd2 & -> & ->). unfold print_accounting. rewrite (proj2 (dates_of_spec _ _ _ _ _ _ _) (ex_intro _ rest Ht)).
  rewrite (proj2 (midnight_ok mk y m d _)) by done. rewrite (proj2 (midnight_ok mk y' m' d' _)) by done. reflexivity.
Qed.

(** ** C226: the consumption shown is that of the windows of the period *)
(** All the users: one line for each user with a row in the period. *)
Theorem C226_all order porder mk text p jobs T d1 d2 : by_seconds order -> asks_for mk text d1 d2 ->
  exists ls, print_accounting order porder mk text "" p jobs T = Ok (ShownAll ls) /\
  NoDup (l_who <$> ls) /\ (forall u, u ∈ l_who <$> ls <-> exists r, row_of T d1 d2 p u r) /\
  forall l, l ∈ ls -> l_asked l = consumed T d1 d2 p (l_who l) "ASKED" /\ l_used l = consumed T d1 d2 p (l_who l) "USED".
Proof.
  intros Ho Ha. exists (line_of <$> summary order d1 d2 "" p T). split; [by rewrite (print_asked _ _ _ _ _ _ _ _ d1 d2 Ha)|].
  set (ls := line_of <$> _). destruct (grouped_keys s_user next_u (order (sums (period d1 d2 "" p T)))) as [Hn Hk]. rewrite <- summary_grouped in Hn, Hk.
  assert (E : l_who <$> ls = (summary order d1 d2 "" p T).*1) by (unfold ls; rewrite <- list_fmap_compose; done).
  rewrite E. split; [done|]. split.
  - intros u. rewrite Hk, user_keys by done. split.
    + intros (r & Hr & Eu). apply in_period in Hr as (H1 & H2 & H3 & _ & H5). by exists r.
    + intros (r & H1 & H2 & H3 & H4 & H5). exists r. split; [|done]. apply in_period. split_and!; try done. by left.
  - intros l Hl. unfold ls in Hl. apply elem_of_list_fmap in Hl as ([u c] & -> & Hi). apply look_in in Hi; [|done]. rewrite summary_grouped in Hi.
    cbn [line_of l_asked l_used l_who fst snd]. rewrite !(look_type _ _ _ _ _ Ho Hi). rewrite !period_consumed by (by left). done.
Qed.
(** The groups of one user. *)
Lemma user_found order d1 d2 p T u : by_seconds order -> u <> ""%string ->
  (exists r, row_of T d1 d2 p u r) <-> is_Some (look u (summary order d1 d2 u p T)).
Proof.
  intros Ho Hu. rewrite summary_grouped, look_grouped, gathered_some.
  assert (Hk : (exists r, row_of T d1 d2 p u r) <-> exists r, r ∈ period d1 d2 u p T /\ a_user r = u).
  { split; intros (r & H); exists r; revert H; unfold row_of; rewrite in_period; tauto. }
  rewrite Hk, <- (user_keys _ order) by done. split.
  - intros (x & Hx & E) Hn. assert (Hi : x ∈ filter (fun x => s_user x = u) (order (sums (period d1 d2 u p T)))) by (apply elem_of_list_filter; done).
    rewrite Hn in Hi. by apply elem_of_nil in Hi.
  - intros Hn. destruct (filter _ _) as [|x l] eqn:E; [done|]. assert (Hi : x ∈ x :: l) by left. rewrite <- E in Hi. apply elem_of_list_filter in Hi as [Hi1 Hi2]. by exists x.
Qed.
(** One user: a line, or a warning when the user has no row in the period; a success in both cases. *)
Theorem C226_user order porder mk text u p jobs T d1 d2 : by_seconds order -> u <> ""%string -> asks_for mk text d1 d2 ->
  ((exists r, row_of T d1 d2 p u r) -> exists l ps, print_accounting order porder mk text u p jobs T = Ok (ShownUser l ps) /\
     l_who l = u /\ l_asked l = consumed T d1 d2 p u "ASKED" /\ l_used l = consumed T d1 d2 p u "USED") /\
  ((~ exists r, row_of T d1 d2 p u r) -> print_accounting order porder mk text u p jobs T = Ok (NoSuchUser u)).
Proof.
  intros Ho Hu Ha. rewrite (print_asked _ _ _ _ _ _ _ _ d1 d2 Ha). rewrite bool_decide_false by done.
  pose proof (user_found order d1 d2 p T u Ho Hu) as Hf. split.
  - intros Hr. apply Hf in Hr as [c Hc]. rewrite Hc. eexists _, _. split; [done|]. rewrite summary_grouped in Hc.
    cbn [line_of l_asked l_used l_who fst snd]. rewrite !(look_type _ _ _ _ _ Ho Hc). rewrite !period_consumed by (by right). done.
  - intros Hn. destruct (look u _) as [c|]; [|done]. exfalso. apply Hn, Hf. by exists c.
Qed.

(** ** C227: the first and the last window *)
Lemma lowest_spec l : l <> [] -> lowest l ∈ l /\ forall x, x ∈ l -> lowest l <= x.
Proof.
  destruct l as [|x l]; [done|]. intros _. cbn [lowest]. induction l as [|y l [IH1 IH2]]; cbn [foldr].
  - split; [left|]. intros z ->%elem_of_list_singleton. lia.
  - split.
    + destruct (Z.min_spec y (foldr Z.min x l)) as [[_ ->]|[_ ->]]; [right; left|]. apply elem_of_cons in IH1 as [->|H]; [left|right; by right].
    + intros z Hz. apply elem_of_cons in Hz as [->|Hz]; [specialize (IH2 x ltac:(left)); lia|]. apply elem_of_cons in Hz as [->|Hz]; [lia|].
      specialize (IH2 z ltac:(by right)). lia.
Qed.
Lemma highest_spec l : l <> [] -> highest l ∈ l /\ forall x, x ∈ l -> x <= highest l.
Proof.
  destruct l as [|x l]; [done|]. intros _. cbn [highest]. induction l as [|y l [IH1 IH2]]; cbn [foldr].
  - split; [left|]. intros z ->%elem_of_list_singleton. lia.
  - split.
    + destruct (Z.max_spec y (foldr Z.max x l)) as [[_ ->]|[_ ->]]; [|right; left]. apply elem_of_cons in IH1 as [->|H]; [left|right; by right].
    + intros z Hz. apply elem_of_cons in Hz as [->|Hz]; [specialize (IH2 x ltac:(left)); lia|]. apply elem_of_cons in Hz as [->|Hz]; [lia|].
      specialize (IH2 z ltac:(by right)). lia.
Qed.
Lemma sorted_filter {X} (R : X -> X -> Prop) (P : X -> Prop) `{!forall x, Decision (P x)} (l : list X) : StronglySorted R l -> StronglySorted R (filter P l).
Proof.
  induction 1 as [|x l Hs IH Hf]; [constructor|]. destruct (decide (P x)) as [Hx|Hx]; [rewrite filter_cons_True by done|by rewrite filter_cons_False by done].
  constructor; [done|]. apply Forall_forall. intros y Hy. apply elem_of_list_filter in Hy as [_ Hy]. rewrite Forall_forall in Hf. by apply Hf.
Qed.
Lemma sorted_last {X} (R : X -> X -> Prop) (l : list X) x : StronglySorted R l -> last l = Some x -> forall y, y ∈ l -> R y x \/ y = x.
Proof.
  induction 1 as [|z l Hs IH Hf]; [done|]. intros Hl y Hy. destruct l as [|z' l].
  - cbn in Hl. injection Hl as ->. apply elem_of_list_singleton in Hy as ->. by right.
  - change (last (z' :: l) = Some x) in Hl. apply elem_of_cons in Hy as [->|Hy]; [|by apply IH]. left. rewrite Forall_forall in Hf. apply Hf. by apply last_Some_elem_of.
Qed.
Lemma user_window order d1 d2 v u p T c : by_seconds order -> (v = ""%string \/ v = u) -> look u (summary order d1 d2 v p T) = Some c ->
  exists ty, (exists r, row_of T d1 d2 p u r /\ a_type r = ty) /\
    earliest (fun r => row_of T d1 d2 p u r /\ a_type r = ty) (u_begin c) /\ latest_end (fun r => row_of T d1 d2 p u r /\ a_type r = ty) (u_end c) /\
    forall r, row_of T d1 d2 p u r -> consumed T d1 d2 p u (a_type r) <= consumed T d1 d2 p u ty.
Proof.
  intros Ho Hv. rewrite summary_grouped, look_grouped. intros Hc. apply gathered_u in Hc as [_ (x & Hl & -> & ->)]. set (P := period d1 d2 v p T) in *.
  assert (Hin : forall r, row_of T d1 d2 p u r <-> r ∈ P /\ a_user r = u).
  { intros r. unfold P, row_of. rewrite in_period. split; [intros (H1 & H2 & H3 & H4 & H5)|tauto]. split_and!; try done. destruct Hv as [->|Hv]; [by left|right; congruence]. }
  assert (Hx := Hl). apply last_Some_elem_of, elem_of_list_filter in Hx as [Hxu Hx]. rewrite (proj1 (Ho _)) in Hx. unfold sums in Hx. apply elem_of_list_fmap in Hx as ([u' ty] & Ex & Hk).
  assert (u' = u) as -> by (rewrite Ex in Hxu; exact Hxu). rewrite elem_of_remove_dups in Hk. apply elem_of_list_fmap in Hk as (r0 & E0 & Hr0). injection E0 as Eu Ety.
  exists ty. set (G := filter (fun r => (a_user r, a_type r) = (u, ty)) P).
  assert (HG : forall r, r ∈ G <-> row_of T d1 d2 p u r /\ a_type r = ty).
  { intros r. unfold G. rewrite elem_of_list_filter, Hin. split; [intros [[= H1 H2] H]; done|intros [[H1 H2] H]; split; [congruence|done]]. }
  assert (Hne : G <> []). { intros E. assert (Hi : r0 ∈ G) by (apply HG; rewrite Hin; split_and!; congruence). rewrite E in Hi. by apply elem_of_nil in Hi. }
  assert (Hsecs : forall u ty, s_secs (sum_of P (u, ty)) = zsum (a_cons <$> filter (fun r => (a_user r, a_type r) = (u, ty)) P)) by reflexivity.
  assert (Hcons : forall ty', s_secs (sum_of P (u, ty')) = consumed T d1 d2 p u ty').
  { intros ty'. rewrite Hsecs, <- (period_consumed d1 d2 u p T ty' v Hv). f_equal. f_equal. apply list_filter_iff. intros r. split; [by intros [= -> ->]|by intros [-> ->]]. }
  split; [exists r0; rewrite Hin; done|]. rewrite Ex. split; [|split].
  - destruct (lowest_spec (a_start <$> G)) as [H1 H2]; [by destruct G|]. split.
    + apply elem_of_list_fmap in H1 as (r & E & Hr). exists r. rewrite <- HG. done.
    + intros r Hr. apply HG in Hr. apply H2. apply elem_of_list_fmap. by exists r.
  - destruct (highest_spec (a_stop <$> G)) as [H1 H2]; [by destruct G|]. split.
    + apply elem_of_list_fmap in H1 as (r & E & Hr). exists r. rewrite <- HG. done.
    + intros r Hr. apply HG in Hr. apply H2. apply elem_of_list_fmap. by exists r.
  - intros r Hr. apply Hin in Hr as [Hr1 Hr2]. assert (Hy : sum_of P (u, a_type r) ∈ filter (fun x => s_user x = u) (order (sums P))).
    { apply elem_of_list_filter. split; [done|]. rewrite (proj1 (Ho _)). unfold sums. apply elem_of_list_fmap. eexists. split; [done|].
      rewrite elem_of_remove_dups. apply elem_of_list_fmap. exists r. by rewrite Hr2. }
    destruct (sorted_last _ _ x (sorted_filter _ _ _ (proj2 (Ho _))) Hl _ Hy) as [H|H]; rewrite ?Ex in H; rewrite <- !Hcons; [exact H|]. by rewrite H.
Qed.
(** The windows shown are those of the kind (ASKED or USED) with the most seconds. *)
Theorem C227_of_largest order porder mk text u p jobs T d1 d2 l : by_seconds order -> asks_for mk text d1 d2 ->
  ((exists ls, print_accounting order porder mk text "" p jobs T = Ok (ShownAll ls) /\ l ∈ ls /\ l_who l = u) \/
   (u <> ""%string /\ exists ps, print_accounting order porder mk text u p jobs T = Ok (ShownUser l ps))) ->
  exists ty, (exists r, row_of T d1 d2 p u r /\ a_type r = ty) /\
    earliest (fun r => row_of T d1 d2 p u r /\ a_type r = ty) (l_begin l) /\ latest_end (fun r => row_of T d1 d2 p u r /\ a_type r = ty) (l_end l) /\
    forall r, row_of T d1 d2 p u r -> consumed T d1 d2 p u (a_type r) <= consumed T d1 d2 p u ty.
Proof.
  intros Ho Ha [(ls & E & Hl & Hu)|(Hu & ps & E)]; rewrite (print_asked _ _ _ _ _ _ _ _ d1 d2 Ha) in E.
  - rewrite bool_decide_true in E by done. injection E as <-. apply elem_of_list_fmap in Hl as ([u' c] & -> & Hi). cbn [line_of l_who fst] in Hu. subst u'.
    apply look_in in Hi; [|rewrite summary_grouped; apply grouped_keys]. apply (user_window order d1 d2 "" u p T c Ho); [by left|done].
  - rewrite bool_decide_false in E by done. destruct (look u (summary order d1 d2 u p T)) as [c|] eqn:Ec; [|done]. injection E as <- _.
    apply (user_window order d1 d2 u u p T c Ho); [by right|done].
Qed.
(** They are the first and the last window of the user when every used window is an asked one and less was used than asked. *)
Theorem C227_partial order porder mk text u p jobs T d1 d2 l : by_seconds order -> asks_for mk text d1 d2 ->
  ((exists ls, print_accounting order porder mk text "" p jobs T = Ok (ShownAll ls) /\ l ∈ ls /\ l_who l = u) \/
   (u <> ""%string /\ exists ps, print_accounting order porder mk text u p jobs T = Ok (ShownUser l ps))) ->
  (forall r, r ∈ T -> a_type r = "ASKED"%string \/ a_type r = "USED"%string) ->
  (forall r, row_of T d1 d2 p u r -> a_type r = "USED"%string -> exists r', row_of T d1 d2 p u r' /\ a_type r' = "ASKED"%string /\ a_start r' = a_start r /\ a_stop r' = a_stop r) ->
  consumed T d1 d2 p u "USED" < consumed T d1 d2 p u "ASKED" ->
  earliest (row_of T d1 d2 p u) (l_begin l) /\ latest_end (row_of T d1 d2 p u) (l_end l).
Proof.
  intros Ho Ha Hl Hty Hw Hlt. destruct (C227_of_largest _ _ _ _ _ _ _ _ _ _ _ Ho Ha Hl) as (ty & (r0 & Hr0 & E0) & (H1 & H2) & (H3 & H4) & Hmax).
  assert (Hask : exists r, row_of T d1 d2 p u r /\ a_type r = "ASKED"%string).
  { destruct (Hty r0) as [E|E]; [by destruct Hr0|by exists r0|]. destruct (Hw r0 Hr0 E) as (r' & H & E' & _). by exists r'. }
  assert (Ety : ty = "ASKED"%string).
  { destruct Hask as (r & Hr & Er). specialize (Hmax r Hr). rewrite Er in Hmax. destruct (Hty r0) as [E|E]; [by destruct Hr0|congruence|]. rewrite E in E0. subst ty. lia. }
  subst ty. rewrite Ety in *. split; split.
  - destruct H1 as (r & [Hr _] & E). by exists r.
  - intros r Hr. destruct (Hty r) as [E|E]; [by destruct Hr|by apply H2|]. destruct (Hw r Hr E) as (r' & Hr' & E' & <- & _). by apply H2.
  - destruct H3 as (r & [Hr _] & E). by exists r.
  - intros r Hr. destruct (Hty r) as [E|E]; [by destruct Hr|by apply H4|]. destruct (Hw r Hr E) as (r' & Hr' & E' & _ & <-). by apply H4.
Qed.
(** Otherwise not: a job asked for much and used little, another went past its end into the next window; both were charged by an update. *)
Definition rep_adb : adb := mkAdb
  [mkAJob 1 "Terminated" "NO" 86410 86420 "u" "p" "default" 1; mkAJob 2 "Terminated" "NO" 258800 259300 "u" "p" "default" 2]
  [(1, 50000); (2, 200)] [(1, 7); (2, 7)] [(7, "default"%string)] [].
Definition rep_rows : list arow := match check_accounting_update id 86400 rep_adb with Ok db => t_acct db | Err _ => [] end.
(** A calendar where the day [d] of January 1970 begins [d - 1] times 86400 seconds after the origin, shifted by [z] seconds; a sort. *)
Definition mk_z (z : Z) (l : list Z) : Z := match l with [_; _; d; _; _; _] => (d - 1) * 86400 + z | _ => 0 end.
Definition secs_le (x y : sumrow) : Prop := s_secs x <= s_secs y.
Global Instance secs_le_dec x y : Decision (secs_le x y).
Proof. unfold secs_le. apply _. Defined.
Definition sorted_sums : list sumrow -> list sumrow := merge_sort secs_le.
Lemma sorted_sums_ok : by_seconds sorted_sums.
Proof.
  intros l. split; [apply merge_sort_Permutation|].
  assert (Transitive secs_le) by (intros x y z; unfold secs_le; lia).
  assert (Total secs_le) by (intros x y; unfold secs_le; lia).
  exact (StronglySorted_merge_sort secs_le l).
Qed.
Lemma jan_asks z text d d' : dates_of text = Some [1970; 1; d; 1970; 1; d'] -> 1 <= d <= 31 -> 1 <= d' <= 31 ->
  asks_for (mk_z z) text ((d - 1) * 86400 + z) ((d' - 1) * 86400 + z).
Proof.
  intros H Hd Hd'. apply dates_of_spec in H as [rest H]. exists rest, 1970, 1, d, 1970, 1, d'. split; [done|].
  assert (Hr : forall d, 1 <= d <= 31 -> real_date 1970 1 d 0 0 0).
  { intros e He. unfold real_date. split_and!; try lia. exists 31. split; [|lia]. left. by_dec. }
  split; [by apply Hr|]. split; [by apply Hr|]. done.
Qed.
Theorem C227_refuted : exists order porder mk text d1 d2 l, by_seconds order /\ asks_for mk text d1 d2 /\ tables_ok rep_adb /\
  print_accounting order porder mk text "" any_row [] rep_rows = Ok (ShownAll [l]) /\ l_who l = "u"%string /\
  ~ latest_end (row_of rep_rows d1 d2 any_row "u") (l_end l).
Proof.
  exists sorted_sums, id, (mk_z 0), "1970-01-01, 1970-01-20"%string, 0, (19 * 86400), (mkLine "u" 86400 259199 50200 510).
  split; [exact sorted_sums_ok|]. split; [apply (jan_asks 0 _ 1 20); [vm_compute; reflexivity|lia|lia]|]. split.
  { unfold tables_ok, rep_adb, unique. cbn. repeat split; repeat first [apply NoDup_cons; split; [by_dec|]|apply NoDup_nil; done]. }
  split; [vm_compute; reflexivity|]. split; [done|]. intros [_ H].
  assert (Hr : row_of rep_rows 0 (19 * 86400) any_row "u" (mkRow 259200 345599 "u" "p" "default" "USED" 100)).
  { split; [first [apply (elem_of_list_lookup_2 _ 3); vm_compute; reflexivity|apply (elem_of_list_lookup_2 _ 4); vm_compute; reflexivity|apply (elem_of_list_lookup_2 _ 2); vm_compute; reflexivity|apply (elem_of_list_lookup_2 _ 1); vm_compute; reflexivity]|]. cbn [a_stop a_start a_user]. split_and!; try lia; done. }
  apply H in Hr. cbn in Hr. lia.
Qed.

(** ** C228: the projects of a user *)
Lemma gathered_put {X B} (key : X -> string) (g : option B -> X -> B) (l : list X) m :
  gathered (fun o x => put (key x) (fun o' => g o' x) (match o with Some m => m | None => [] end)) l = Some m -> m = grouped key g l.
Proof.
  revert m. unfold gathered, grouped. induction l as [|x l IH] using rev_ind; intros m; [done|]. rewrite !foldl_app. cbn [foldl]. intros [= <-]. f_equal.
  destruct (foldl _ None l) as [m'|] eqn:E; [by apply IH|]. destruct l as [|y l _] using rev_ind; [done|]. rewrite foldl_app in E. done.
Qed.
Definition next_type (o : option (list (string * list (string * Z)))) (x : psum) : list (string * list (string * Z)) :=
  put (p_type x) (fun o => put (p_user x) (fun _ => p_secs x) (match o with Some m => m | None => [] end)) (match o with Some m => m | None => [] end).
Lemma byproject_grouped order d1 d2 u T : summary_byproject order d1 d2 u T = grouped p_project next_type (order (psums (period d1 d2 u (fun _ => true) T))).
Proof. reflexivity. Qed.
Lemma filter_triple (L : list psum) u pr ty : filter (fun x => p_user x = u) (filter (fun x => p_type x = ty) (filter (fun x => p_project x = pr) L)) =
  filter (fun x => (p_user x, p_project x, p_type x) = (u, pr, ty)) L.
Proof.
  rewrite (filter_both _ _ (fun x => p_user x = u /\ p_type x = ty)) by (intros; tauto).
  apply filter_both. intros x _. split; [intros [= ? ? ?]; done|intros [[? ?] ?]; congruence].
Qed.
Lemma of_user_sum le P order u pr ty m : by_project le order -> look pr (grouped p_project next_type (order (psums P))) = Some m ->
  of_user u ty m = zsum (a_cons <$> filter (fun r => a_user r = u /\ a_project r = pr /\ a_type r = ty) P).
Proof.
  intros Ho. rewrite look_grouped. intros H. apply (gathered_put p_type) in H as ->. unfold of_user. rewrite look_grouped.
  assert (Hone : filter (fun x => (p_user x, p_project x, p_type x) = (u, pr, ty)) (order (psums P)) =
    if decide ((u, pr, ty) ∈ (fun r => (a_user r, a_project r, a_type r)) <$> P) then [psum_of P (u, pr, ty)] else []).
  { apply perm_short; [|destruct (decide _); cbn; lia]. etrans; [apply filter_Permutation, (proj1 (Ho _))|]. unfold psums.
    rewrite (filter_keyed (psum_of P) (fun x => (p_user x, p_project x, p_type x))); [|by intros [[] ]|apply NoDup_remove_dups].
    destruct (decide ((u, pr, ty) ∈ remove_dups _)) as [H|H]; rewrite elem_of_remove_dups in H; [by rewrite decide_True|by rewrite decide_False]. }
  assert (E : zsum (a_cons <$> filter (fun r => (a_user r, a_project r, a_type r) = (u, pr, ty)) P) = zsum (a_cons <$> filter (fun r => a_user r = u /\ a_project r = pr /\ a_type r = ty) P)).
  { f_equal. f_equal. apply list_filter_iff. intros r. split; [by intros [= -> -> ->]|by intros (-> & -> & ->)]. }
  rewrite <- E. rewrite <- filter_triple in Hone. destruct (gathered _ (filter (fun x => p_type x = ty) _)) as [m2|] eqn:E2.
  - apply (gathered_put p_user (fun _ x => p_secs x)) in E2 as ->. rewrite look_grouped, gathered_last, Hone. destruct (decide _) as [H|H]; [done|]. cbn.
    rewrite filter_none; [done|]. intros r Hr Hc. apply H. apply elem_of_list_fmap. exists r. done.
  - assert (Hn : filter (fun x => p_type x = ty) (filter (fun x => p_project x = pr) (order (psums P))) = []).
    { destruct (decide (filter (fun x => p_type x = ty) (filter (fun x => p_project x = pr) (order (psums P))) = [])) as [?|Hne]; [done|].
      eapply gathered_some in Hne. destruct Hne as [b Hb]. rewrite E2 in Hb. done. }
    rewrite Hn in Hone. destruct (decide _) as [H|H]; [done|]. rewrite filter_none; [done|]. intros r Hr Hc. apply H. apply elem_of_list_fmap. exists r. done.
Qed.
Lemma zsum_plus {K} (f g : K -> Z) (l : list K) : zsum ((fun k => f k + g k) <$> l) = zsum (f <$> l) + zsum (g <$> l).
Proof. unfold zsum. induction l as [|k l IH]; [done|]. rewrite !fmap_cons. cbn [foldr]. rewrite IH. lia. Qed.
Lemma zsum_one {K} `{EqDecision K} (k0 : K) a (l : list K) : NoDup l -> zsum ((fun k => if decide (k0 = k) then a else 0) <$> l) = if decide (k0 ∈ l) then a else 0.
Proof.
  unfold zsum. induction l as [|k l IH]; intros Hn; [rewrite decide_False; [done|apply not_elem_of_nil]|]. apply NoDup_cons in Hn as [H1 H2].
  rewrite fmap_cons. cbn [foldr]. rewrite IH by done. destruct (decide (k0 = k)) as [->|Hne].
  - rewrite decide_False by done. rewrite decide_True by left. lia.
  - destruct (decide (k0 ∈ l)) as [H|H]; [rewrite decide_True by (by right); lia|]. rewrite decide_False; [lia|]. intros [?|?]%elem_of_cons; done.
Qed.
Lemma zsum_parts {X K} `{EqDecision K} (key : X -> K) (f : X -> Z) (ks : list K) (l : list X) : NoDup ks -> (forall x, x ∈ l -> key x ∈ ks) ->
  zsum ((fun k => zsum (f <$> filter (fun x => key x = k) l)) <$> ks) = zsum (f <$> l).
Proof.
  intros Hn. induction l as [|x l IH]; intros Hi.
  - clear. induction ks as [|k ks IH]; [done|]. rewrite fmap_cons. unfold zsum in *. cbn [foldr]. rewrite IH. done.
  - rewrite fmap_cons. assert (E : zsum (f x :: (f <$> l)) = f x + zsum (f <$> l)) by done. rewrite E, <- IH by (intros y Hy; apply Hi; by right).
    assert (E1 : f x = zsum ((fun k => if decide (key x = k) then f x else 0) <$> ks)) by (rewrite zsum_one by done; rewrite decide_True; [done|apply Hi; left]).
    rewrite E1 at 1. rewrite <- zsum_plus. f_equal. apply list_fmap_ext. intros _ k _. cbv beta.
    destruct (decide (key x = k)) as [H|H]; [rewrite filter_cons_True by done|rewrite filter_cons_False by done]; [rewrite fmap_cons; unfold zsum; cbn [foldr]; lia|lia].
Qed.
Lemma sorted_snoc {X} (R : X -> X -> Prop) (l : list X) x : StronglySorted R l -> (forall y, y ∈ l -> R y x) -> StronglySorted R (l ++ [x]).
Proof.
  induction 1 as [|y l Hs IH Hf]; intros Hx; cbn [app]; [constructor; constructor|]. constructor; [apply IH; intros z Hz; apply Hx; by right|].
  apply Forall_app. split; [done|]. constructor; [apply Hx; left|constructor].
Qed.
Lemma sorted_unsnoc {X} (R : X -> X -> Prop) (l : list X) x : StronglySorted R (l ++ [x]) -> StronglySorted R l /\ forall y, y ∈ l -> R y x.
Proof.
  induction l as [|y l IH]; intros Hs; [split; [constructor|intros z Hz; by apply elem_of_nil in Hz]|]. cbn [app] in Hs. inversion Hs as [|? ? Hs' Hf]; subst.
  destruct (IH Hs') as [H1 H2]. apply Forall_app in Hf as [Hf1 Hf2]. split; [by constructor|]. intros z Hz. apply elem_of_cons in Hz as [->|Hz]; [|by apply H2].
  inversion Hf2; subst. done.
Qed.
Lemma grouped_sorted {X B} (R : string -> string -> Prop) (key : X -> string) (g : option B -> X -> B) (l : list X) :
  StronglySorted (fun x y => R (key x) (key y)) l -> StronglySorted R (grouped key g l).*1.
Proof.
  induction l as [|x l IH] using rev_ind; intros Hs; [constructor|]. apply sorted_unsnoc in Hs as [Hs Hx]. unfold grouped. rewrite foldl_app. cbn [foldl]. rewrite put_keys.
  destruct (decide _); [by apply IH|]. apply sorted_snoc; [by apply IH|]. intros k Hk.
  apply (grouped_keys key g l) in Hk as (y & Hy & <-). by apply Hx.
Qed.
(** Each project with a row of the user in the period has a line, in the order of the names, with its consumption; added up, they are the consumption of the user. *)
Theorem C228_projects_partial le order porder mk text u p jobs T d1 d2 l ps : by_project le porder -> u <> ""%string -> asks_for mk text d1 d2 ->
  print_accounting order porder mk text u p jobs T = Ok (ShownUser l ps) ->
  NoDup (pl_project <$> ps) /\ StronglySorted le (pl_project <$> ps) /\
  (forall pr, pr ∈ pl_project <$> ps <-> exists r, row_of T d1 d2 any_row u r /\ a_project r = pr) /\
  (forall q, q ∈ ps -> pl_asked q = consumed_by T d1 d2 u (pl_project q) "ASKED" /\ pl_used q = consumed_by T d1 d2 u (pl_project q) "USED") /\
  zsum (pl_asked <$> ps) = consumed T d1 d2 any_row u "ASKED" /\ zsum (pl_used <$> ps) = consumed T d1 d2 any_row u "USED".
Proof.
  intros Ho Hu Ha E. rewrite (print_asked _ _ _ _ _ _ _ _ d1 d2 Ha) in E. rewrite bool_decide_false in E by done.
  destruct (look u (summary order d1 d2 u p T)) as [c|]; [|done]. injection E as _ <-. set (D := summary_byproject porder d1 d2 u T).
  set (P := period d1 d2 u (fun _ => true) T). destruct (grouped_keys p_project next_type (porder (psums P))) as [Hn Hk].
  change (grouped p_project next_type (porder (psums P))) with D in Hn, Hk.
  assert (EP : pl_project <$> (pline_of jobs u d2 <$> D) = D.*1) by (rewrite <- list_fmap_compose; done). rewrite EP. split; [done|].
  assert (Hkeys : forall pr, pr ∈ D.*1 <-> exists r, row_of T d1 d2 any_row u r /\ a_project r = pr).
  { intros pr. rewrite Hk. split.
    - intros (x & Hx & <-). rewrite (proj1 (Ho _)) in Hx. unfold psums in Hx. apply elem_of_list_fmap in Hx as (k & -> & Hx). rewrite elem_of_remove_dups in Hx.
      apply elem_of_list_fmap in Hx as (r & -> & Hr). unfold P in Hr. apply in_period in Hr as (R1 & R2 & R3 & R4 & _). exists r. split; [|done].
      split_and!; try done. destruct R4 as [->|R4]; done.
    - intros (r & (R1 & R2 & R3 & _ & R5) & <-). exists (psum_of P (a_user r, a_project r, a_type r)). split; [|done]. rewrite (proj1 (Ho _)). unfold psums.
      apply elem_of_list_fmap. eexists. split; [done|]. rewrite elem_of_remove_dups. apply elem_of_list_fmap. exists r. split; [done|].
      unfold P. apply in_period. split_and!; try done. by right. }
  assert (Hcons : forall pr m ty, look pr D = Some m -> of_user u ty m = consumed_by T d1 d2 u pr ty).
  { intros pr m ty Hl. unfold D in Hl. rewrite byproject_grouped in Hl. rewrite (of_user_sum _ _ _ _ _ _ _ Ho Hl). unfold consumed_by. f_equal. f_equal.
    unfold period. apply filter_both. intros r _. split; [intros (? & ? & ? & ? & ?); split_and!; try done; by right|tauto]. }
  assert (Hlines : forall q, q ∈ pline_of jobs u d2 <$> D -> pl_asked q = consumed_by T d1 d2 u (pl_project q) "ASKED" /\ pl_used q = consumed_by T d1 d2 u (pl_project q) "USED").
  { intros q Hq. apply elem_of_list_fmap in Hq as ([pr m] & -> & Hm). apply look_in in Hm; [|done]. cbn [pline_of pl_asked pl_used pl_project fst snd]. by rewrite !(Hcons _ _ _ Hm). }
  split; [unfold D; rewrite byproject_grouped; apply grouped_sorted, (proj2 (Ho _))|]. split; [done|]. split; [done|].
  assert (Hsum : forall ty (f : pline -> Z), (forall q, q ∈ pline_of jobs u d2 <$> D -> f q = consumed_by T d1 d2 u (pl_project q) ty) ->
    zsum (f <$> (pline_of jobs u d2 <$> D)) = consumed T d1 d2 any_row u ty).
  { intros ty f Hf. set (R := filter (fun r => d1 < a_stop r /\ a_start r < d2 /\ any_row r = true /\ a_user r = u /\ a_type r = ty) T).
    transitivity (zsum ((fun pr => zsum (a_cons <$> filter (fun r => a_project r = pr) R)) <$> (pl_project <$> (pline_of jobs u d2 <$> D)))).
    - rewrite <- (list_fmap_compose pl_project). f_equal. apply list_fmap_ext. intros i q Hq. cbv beta. rewrite Hf by (by eapply elem_of_list_lookup_2). unfold consumed_by, compose, R.
      f_equal. f_equal. symmetry. apply filter_both. intros r _. unfold any_row. tauto.
    - rewrite EP. apply zsum_parts; [done|]. intros r Hr. unfold R in Hr. apply elem_of_list_filter in Hr as [(R1 & R2 & R3 & R4 & R5) Hr]. apply Hkeys. exists r. done. }
  split; apply Hsum; intros q Hq; by apply Hlines.
Qed.
(** The condition given with -S restricts the consumption of the user, not those of the projects. *)
Definition text_le (x y : string) : Prop := String.leb x y = true.
Lemma text_trans x : forall y z, text_le x y -> text_le y z -> text_le x z.
Proof.
  unfold text_le, String.leb. induction x as [|a x IH]; intros [|b y] [|c z]; cbn [String.compare]; try done.
  intros H1 H2. unfold Ascii.compare in *. destruct (N.compare_spec (N_of_ascii a) (N_of_ascii b)) as [E1|E1|E1]; [| |done].
  - rewrite E1. destruct (N.compare_spec (N_of_ascii b) (N_of_ascii c)) as [E2|E2|E2]; [|done|done]. by apply (IH y z).
  - destruct (N.compare_spec (N_of_ascii b) (N_of_ascii c)) as [E2|E2|E2]; [| |done].
    + rewrite <- E2. by rewrite (proj2 (N.compare_lt_iff _ _) E1).
    + rewrite (proj2 (N.compare_lt_iff _ _)); [done|]. by etrans.
Qed.
Definition proj_le (x y : psum) : Prop := text_le (p_project x) (p_project y).
Global Instance proj_le_dec x y : Decision (proj_le x y).
Proof. unfold proj_le, text_le. apply _. Defined.
Definition sorted_psums : list psum -> list psum := merge_sort proj_le.
Lemma sorted_psums_ok : by_project text_le sorted_psums.
Proof.
  intros l. split; [apply merge_sort_Permutation|].
  assert (Transitive proj_le) by (intros x y z; unfold proj_le; apply text_trans).
  assert (Total proj_le) by (intros x y; unfold proj_le, text_le; destruct (String.leb_total (p_project x) (p_project y)); [by left|by right]).
  exact (StronglySorted_merge_sort proj_le l).
Qed.
Theorem C228_refuted : exists order porder mk text d1 d2 p l ps, by_seconds order /\ by_project text_le porder /\ asks_for mk text d1 d2 /\
  print_accounting order porder mk text "u" p [] rep_rows = Ok (ShownUser l ps) /\
  l_asked l = consumed rep_rows d1 d2 p "u" "ASKED" /\ zsum (pl_asked <$> ps) <> l_asked l.
Proof.
  exists sorted_sums, sorted_psums, (mk_z 0), "1970-01-01, 1970-01-20"%string, 0, (19 * 86400), (fun r => a_start r =? 86400).
  exists (mkLine "u" 86400 172799 50000 10), [mkPline "p" 50200 510 None]. split; [exact sorted_sums_ok|]. split; [exact sorted_psums_ok|].
  split; [apply (jan_asks 0 _ 1 20); [vm_compute; reflexivity|lia|lia]|].
  split; [vm_compute; reflexivity|]. split; [vm_compute; reflexivity|]. vm_compute. intros H. discriminate.
Qed.

(** ** C229: periods that follow each other *)
(** A window is counted in one of two consecutive periods when it does not straddle the date between them. *)
Theorem C229_partial T d1 d2 d3 p u ty : d1 <= d2 <= d3 ->
  (forall r, r ∈ T -> a_start r < a_stop r /\ (a_stop r <= d2 \/ d2 <= a_start r)) ->
  consumed T d1 d3 p u ty = consumed T d1 d2 p u ty + consumed T d2 d3 p u ty.
Proof.
  intros Hd. unfold consumed, zsum. induction T as [|r T IH]; intros HT; [done|]. destruct (HT r ltac:(left)) as [H1 H2].
  assert (IH' := IH ltac:(intros x Hx; apply HT; by right)). clear IH HT.
  destruct (decide (p r = true /\ a_user r = u /\ a_type r = ty)) as [Hs|Hs].
  - destruct (decide (d1 < a_stop r /\ a_start r < d3)) as [Hm|Hm].
    + rewrite filter_cons_True by tauto. rewrite fmap_cons. cbn [foldr]. rewrite IH'. destruct H2 as [H2|H2].
      * rewrite (filter_cons_True (fun r => d1 < a_stop r /\ a_start r < d2 /\ _)) by (split_and!; try tauto; lia).
        rewrite (filter_cons_False (fun r => d2 < a_stop r /\ a_start r < d3 /\ _)) by lia. rewrite fmap_cons. cbn [foldr]. lia.
      * rewrite (filter_cons_False (fun r => d1 < a_stop r /\ a_start r < d2 /\ _)) by lia.
        rewrite (filter_cons_True (fun r => d2 < a_stop r /\ a_start r < d3 /\ _)) by (split_and!; try tauto; lia). rewrite fmap_cons. cbn [foldr]. lia.
    + rewrite filter_cons_False by tauto. rewrite (filter_cons_False (fun r => d1 < a_stop r /\ a_start r < d2 /\ _)) by lia.
      rewrite (filter_cons_False (fun r => d2 < a_stop r /\ a_start r < d3 /\ _)) by lia. exact IH'.
  - rewrite !filter_cons_False by tauto. exact IH'.
Qed.
(** The windows of the table begin at multiples of their size since 1970 (C28), the periods at midnight: where midnight is not a multiple of a
    day, a window is counted in both periods. *)
Theorem C229_refuted : exists order porder mk text text' text'' d1 d2 d3 l l' l'', by_seconds order /\
  asks_for mk text d1 d2 /\ asks_for mk text' d2 d3 /\ asks_for mk text'' d1 d3 /\ d1 < d2 < d3 /\
  print_accounting order porder mk text "" any_row [] rep_rows = Ok (ShownAll [l]) /\
  print_accounting order porder mk text' "" any_row [] rep_rows = Ok (ShownAll [l']) /\
  print_accounting order porder mk text'' "" any_row [] rep_rows = Ok (ShownAll [l'']) /\ l_used l + l_used l' <> l_used l''.
Proof.
  exists sorted_sums, sorted_psums, (mk_z (-3600)), "1970-01-01, 1970-01-04"%string, "1970-01-04, 1970-01-20"%string, "1970-01-01, 1970-01-20"%string,
    (-3600), (3 * 86400 - 3600), (19 * 86400 - 3600). eexists _, _, _. split; [exact sorted_sums_ok|].
  split; [apply (jan_asks (-3600) _ 1 4); [vm_compute; reflexivity|lia|lia]|]. split; [apply (jan_asks (-3600) _ 4 20); [vm_compute; reflexivity|lia|lia]|].
  split; [apply (jan_asks (-3600) _ 1 20); [vm_compute; reflexivity|lia|lia]|]. split; [lia|].
  split; [vm_compute; reflexivity|]. split; [vm_compute; reflexivity|]. split; [vm_compute; reflexivity|]. vm_compute. intros H. discriminate.
Qed.

(** ** C230: from the jobs to the report *)
Lemma zsum_if {X} (P : X -> Prop) `{!forall x, Decision (P x)} (f : X -> Z) (l : list X) : zsum ((fun x => if decide (P x) then f x else 0) <$> l) = zsum (f <$> filter P l).
Proof.
  unfold zsum. induction l as [|x l IH]; [done|]. rewrite fmap_cons. cbn [foldr]. rewrite IH.
  destruct (decide (P x)) as [Hx|Hx]; [rewrite filter_cons_True by done; rewrite fmap_cons; done|rewrite filter_cons_False by done; lia].
Qed.
Lemma zsum_zero l : (forall x, x ∈ l -> x = 0) -> zsum l = 0.
Proof. unfold zsum. induction l as [|x l IH]; intros H; [done|]. cbn [foldr]. rewrite (H x) by left. rewrite IH; [done|]. intros y Hy. apply H. by right. Qed.
Lemma zsum_nonzero {X} (f : X -> Z) (l : list X) : zsum (f <$> l) <> 0 -> exists x, x ∈ l /\ f x <> 0.
Proof.
  unfold zsum. induction l as [|x l IH]; [done|]. rewrite fmap_cons. cbn [foldr]. intros H. destruct (decide (f x = 0)) as [E|E].
  - destruct IH as (y & Hy & Hf); [lia|]. exists y. split; [by right|done].
  - exists x. split; [left|done].
Qed.
Lemma zsum_ext {X} (f g : X -> Z) (l : list X) : (forall x, x ∈ l -> f x = g x) -> zsum (f <$> l) = zsum (g <$> l).
Proof. intros H. f_equal. apply list_fmap_ext. intros i x Hx. apply H. by eapply elem_of_list_lookup_2. Qed.
Lemma charged_row T r : unique T -> r ∈ T -> charged T (a_start r) (a_stop r) (group_of r) = a_cons r.
Proof.
  unfold unique, charged. induction T as [|x T IH]; intros Hn Hr; [by apply elem_of_nil in Hr|]. rewrite fmap_cons in Hn. apply NoDup_cons in Hn as [H1 H2].
  apply elem_of_cons in Hr as [->|Hr].
  - rewrite filter_cons_True by done. rewrite filter_none; [cbn; lia|]. intros y Hy E. apply H1. apply elem_of_list_fmap. exists y. done.
  - rewrite filter_cons_False; [by apply IH|]. intros E. apply H1. apply elem_of_list_fmap. exists r. done.
Qed.
(** What a selected job is charged, of a kind. *)
Definition charge_of (ty : string) (x : ajob * Z * Z) : Z := let '(j, wt, nb) := x in nb * (if bool_decide (ty = "USED"%string) then aj_stop j - aj_start j else wt).
Definition jgroup (ty : string) (x : ajob * Z * Z) : agroup := (aj_user x.1.1, aj_project x.1.1, aj_queue x.1.1, ty).
Lemma report_of_jobs order w db d1 d2 : 0 < w -> tables_ok db -> (forall l, order l ≡ₚ l) -> t_acct db = [] ->
  (forall j wt nb, chargeable db j wt nb -> d1 < aj_start j /\ aj_stop j <= d2 /\ aj_start j + wt <= d2 /\ 0 <= wt) ->
  exists db', check_accounting_update order w db = Ok db' /\ forall u ty, ty = "USED"%string \/ ty = "ASKED"%string ->
    consumed (t_acct db') d1 d2 any_row u ty = zsum (charge_of ty <$> filter (fun x => aj_user x.1.1 = u) (selected db)).
Proof.
  intros Hw Hok Hord Hnil Hin. unfold check_accounting_update.
  assert (Hsel : forall j wt nb, (j, wt, nb) ∈ order (selected db) -> chargeable db j wt nb).
  { intros j wt nb H. rewrite (Hord (selected db)) in H. by apply selected_iff. }
  destruct (treat_spec w (order (selected db)) Hw) with (js := t_jobs db) (T := t_acct db) as (T' & -> & HU & HC & HT).
  { intros j wt nb H. destruct (Hsel _ _ _ H) as (_ & _ & _ & ? & _). lia. }
  { by destruct Hok as (_ & _ & _ & _ & ?). }
  cbn [rbind]. eexists. split; [done|]. cbn [t_acct]. intros u ty Hty. rewrite Hnil in HC, HT.
  (* the rows left out hold nothing *)
  set (rows := filter (fun r => a_user r = u /\ a_type r = ty) T').
  assert (E1 : consumed T' d1 d2 any_row u ty = zsum (a_cons <$> rows)).
  { unfold consumed. transitivity (zsum (a_cons <$> filter (fun r => d1 < a_stop r /\ a_start r < d2) rows)).
    { f_equal. f_equal. symmetry. unfold rows. apply filter_both. intros r _. unfold any_row. tauto. }
    rewrite <- zsum_if. apply zsum_ext. intros r Hr. destruct (decide (d1 < a_stop r /\ a_start r < d2)) as [?|Hn]; [done|].
    apply elem_of_list_filter in Hr as [_ Hr]. destruct (decide (a_cons r = 0)) as [->|Hne]; [done|]. exfalso. apply Hn.
    rewrite <- (charged_row T' r HU Hr), HC in Hne. change (charged [] (a_start r) (a_stop r) (group_of r)) with 0 in Hne. rewrite Z.add_0_l in Hne.
    apply zsum_nonzero in Hne as ([[j wt] nb] & Hx & Hf). destruct (Hin j wt nb (Hsel _ _ _ Hx)) as (B1 & B2 & B3 & B4). unfold overlap in Hf.
    destruct (decide (_ /\ is_window w _ _)) as [[_ [W1 W2]]|_], (decide (_ /\ is_window w _ _)) as [[_ [W1' W2']]|_]; nia. }
  set (mine := filter (fun x => aj_user x.1.1 = u) (order (selected db))).
  set (G := remove_dups ((group_of <$> rows) ++ (jgroup ty <$> mine))).
  rewrite E1. rewrite <- (zsum_parts group_of a_cons G rows); [|apply NoDup_remove_dups|].
  2: { intros r Hr. unfold G. rewrite elem_of_remove_dups, elem_of_app. left. apply elem_of_list_fmap. by exists r. }
  transitivity (zsum (charge_of ty <$> mine)); [|apply zsum_perm, fmap_Permutation; unfold mine; apply filter_Permutation, Hord].
  rewrite <- (zsum_parts (jgroup ty) (charge_of ty) G mine); [|apply NoDup_remove_dups|].
  2: { intros x Hx. unfold G. rewrite elem_of_remove_dups, elem_of_app. right. apply elem_of_list_fmap. by exists x. }
  apply zsum_ext. intros g Hg. unfold G in Hg. rewrite elem_of_remove_dups, elem_of_app in Hg.
  assert (Eg : exists pr q, g = (u, pr, q, ty)).
  { destruct Hg as [Hg|Hg]; apply elem_of_list_fmap in Hg as (x & -> & Hx); apply elem_of_list_filter in Hx as [Hx _].
    - destruct Hx as [Hx1 Hx2]. subst u ty. unfold group_of. eauto.
    - subst u. unfold jgroup. eauto. }
  destruct Eg as (pr & q & ->). unfold rows.
  rewrite (filter_both (fun r => group_of r = (u, pr, q, ty)) _ (fun r => group_of r = (u, pr, q, ty))) by (intros r _; unfold group_of; split; [intros [= -> -> -> ->]; done|tauto]).
  change (total T' (u, pr, q, ty) = zsum (charge_of ty <$> filter (fun x => jgroup ty x = (u, pr, q, ty)) mine)). rewrite HT. change (total [] (u, pr, q, ty)) with 0. rewrite Z.add_0_l.
  unfold mine. rewrite (filter_both (fun x => jgroup ty x = (u, pr, q, ty)) _ (fun x => jgroup ty x = (u, pr, q, ty))) by (intros x _; unfold jgroup; split; [intros [= -> -> ->]; done|tauto]).
  rewrite <- zsum_if. apply zsum_ext. intros [[j wt] nb] Hx. destruct (Hsel _ _ _ Hx) as (_ & _ & _ & B0 & _). destruct (Hin _ _ _ (Hsel _ _ _ Hx)) as (_ & _ & _ & B4).
  unfold jgroup, charge_of. cbn [fst snd]. rewrite !Z.max_r by lia. destruct Hty as [-> | ->].
  - rewrite (decide_False (P := (u, pr, q, "USED"%string) = (_, _, _, "ASKED"%string))) by (intros [=]). rewrite bool_decide_true by done.
    destruct (decide ((u, pr, q, "USED"%string) = _)) as [E|E], (decide (_ = (u, pr, q, "USED"%string))) as [E'|E']; [lia|congruence|congruence|lia].
  - rewrite (decide_False (P := (u, pr, q, "ASKED"%string) = (_, _, _, "USED"%string))) by (intros [=]). rewrite bool_decide_false by done.
    destruct (decide ((u, pr, q, "ASKED"%string) = _)) as [E|E], (decide (_ = (u, pr, q, "ASKED"%string))) as [E'|E']; [lia|congruence|congruence|lia].
Qed.
(** The report of a period in which all the finished jobs lie, after the table is built: each user with the duration (used) and the walltime
    (asked) of each finished job, times its number of default resources. *)
Theorem C230_jobs_to_report order w db d1 d2 o po mk text jobs : 0 < w -> tables_ok db -> (forall l, order l ≡ₚ l) -> t_acct db = [] ->
  (forall j wt nb, chargeable db j wt nb -> d1 < aj_start j /\ aj_stop j <= d2 /\ aj_start j + wt <= d2 /\ 0 <= wt) ->
  by_seconds o -> asks_for mk text d1 d2 ->
  exists db' ls, check_accounting_update order w db = Ok db' /\ print_accounting o po mk text "" any_row jobs (t_acct db') = Ok (ShownAll ls) /\
    (forall j wt nb, (j, wt, nb) ∈ selected db <-> chargeable db j wt nb) /\ NoDup (l_who <$> ls) /\
    (forall l, l ∈ ls ->
      l_used l = zsum ((fun '(j, _, nb) => nb * (aj_stop j - aj_start j)) <$> filter (fun x => aj_user x.1.1 = l_who l) (selected db)) /\
      l_asked l = zsum ((fun '(j, wt, nb) => nb * wt) <$> filter (fun x => aj_user x.1.1 = l_who l) (selected db))) /\
    (forall u, u ∉ l_who <$> ls -> zsum ((fun '(j, wt, nb) => nb * wt) <$> filter (fun x => aj_user x.1.1 = u) (selected db)) = 0).
Proof.
  intros Hw Hok Hord Hnil Hin Ho Ha. destruct (report_of_jobs order w db d1 d2 Hw Hok Hord Hnil Hin) as (db' & E & Hc).
  destruct (C226_all o po mk text any_row jobs (t_acct db') d1 d2 Ho Ha) as (ls & El & Hn & Hu & Hl). exists db', ls. split; [done|]. split; [done|].
  split; [intros; by apply selected_iff|]. split; [done|].
  assert (Eu : forall u, zsum (charge_of "USED" <$> filter (fun x => aj_user x.1.1 = u) (selected db)) = zsum ((fun '(j, _, nb) => nb * (aj_stop j - aj_start j)) <$> filter (fun x => aj_user x.1.1 = u) (selected db))).
  { intros u. apply zsum_ext. intros [[j wt] nb] _. done. }
  assert (Ea : forall u, zsum (charge_of "ASKED" <$> filter (fun x => aj_user x.1.1 = u) (selected db)) = zsum ((fun '(j, wt, nb) => nb * wt) <$> filter (fun x => aj_user x.1.1 = u) (selected db))).
  { intros u. apply zsum_ext. intros [[j wt] nb] _. done. }
  split.
  - intros l Hi. destruct (Hl l Hi) as [-> ->]. rewrite !Hc by auto. by rewrite Eu, Ea.
  - intros u Hi. rewrite <- Ea, <- Hc by auto. unfold consumed. rewrite filter_none; [done|]. intros r Hr (R1 & R2 & R3 & R4 & R5). apply Hi, Hu. exists r. done.
Qed.

(** ** C231: the text of the period *)
Theorem C231_read s rest y m d y' m' d' order porder mk u p jobs T : period_text s rest y m d y' m' d' -> real_date y m d 0 0 0 -> real_date y' m' d' 0 0 0 ->
  exists x, print_accounting order porder mk s u p jobs T = Ok x /\ status_shown x = 0 /\
    (u = ""%string -> x = ShownAll (line_of <$> summary order (mk [y; m; d; 0; 0; 0]) (mk [y'; m'; d'; 0; 0; 0]) "" p T)).
Proof.
  intros H H1 H2. assert (Ha : asks_for mk s (mk [y; m; d; 0; 0; 0]) (mk [y'; m'; d'; 0; 0; 0])) by (exists rest, y, m, d, y', m', d'; done).
  rewrite (print_asked _ _ _ _ _ _ _ _ _ _ Ha). destruct (decide (u = ""%string)) as [->|Hu].
  - rewrite bool_decide_true by done. eexists. split; [done|]. done.
  - rewrite bool_decide_false by done. destruct (look u _); eexists; (split; [done|]); done.
Qed.
Theorem C231_bad s order porder mk u p jobs T : (forall rest y m d y' m' d', ~ period_text s rest y m d y' m' d') ->
  print_accounting order porder mk s u p jobs T = Ok BadPeriod /\ status_shown BadPeriod = 1.
Proof.
  intros Hn. unfold print_accounting. destruct (dates_of s) as [l|] eqn:E; [|done]. destruct (dates_six s l E) as (y & m & d & y' & m' & d' & ->).
  apply dates_of_spec in E as [rest E]. exfalso. by eapply Hn.
Qed.
(** What follows the second date is not read: hours, or the third digit of a day. *)
Theorem C231_rest_refuted : exists mk s, asks_for mk s 0 (19 * 86400) /\ s = "1970-01-01, 1970-01-20 23:59:59"%string /\
  asks_for mk "1970-01-01, 1970-01-200" 0 (19 * 86400).
Proof.
  exists (mk_z 0), "1970-01-01, 1970-01-20 23:59:59"%string. split; [apply (jan_asks 0 _ 1 20); [vm_compute; reflexivity|lia|lia]|].
  split; [done|]. apply (jan_asks 0 _ 1 20); [vm_compute; reflexivity|lia|lia].
Qed.
(** Dates that are not in the calendar: an exception instead of the message. *)
Theorem C231_impossible_refuted s rest y m d y' m' d' order porder mk u p jobs T : period_text s rest y m d y' m' d' ->
  ~ (real_date y m d 0 0 0 /\ real_date y' m' d' 0 0 0) -> print_accounting order porder mk s u p jobs T = Err EValue.
Proof.
  intros H Hn. unfold print_accounting. rewrite (proj2 (dates_of_spec _ _ _ _ _ _ _) (ex_intro _ rest H)).
  rewrite <- !date_exists_spec in Hn. unfold midnight. destruct (date_exists [y; m; d; 0; 0; 0]); [|done]. cbn [rbind].
  destruct (date_exists [y'; m'; d'; 0; 0; 0]); [|done]. exfalso. by apply Hn.
Qed.
Theorem C231_case : exists s y m d y' m' d', period_text s " 23:59" y m d y' m' d' /\ real_date y m d 0 0 0 /\ ~ real_date y' m' d' 0 0 0.
Proof.
  assert (E : dates_of " 2024-2-29 , 2023-2-29 23:59" = Some [2024; 2; 29; 2023; 2; 29]) by (vm_compute; reflexivity).
  exists " 2024-2-29 , 2023-2-29 23:59"%string, 2024, 2, 29, 2023, 2, 29. split.
  - exists " "%string, "2024"%string, "2"%string, "29"%string, " "%string, " "%string, "2023"%string, "2"%string, "29"%string.
    assert (Hd : forall s, forallb is_digit (list_ascii_of_string s) = true -> every digit_char s).
    { intros s H. unfold every. apply Forall_forall. intros c Hc. apply digit_spec. rewrite forallb_forall in H. apply H. by apply elem_of_list_In. }
    assert (Hb : every blank_char " "). { unfold every. cbn. constructor; [|constructor]. unfold blank_char. vm_compute. lia. }
    unfold between. split_and!; try done; try (vm_compute; lia); try (apply Hd; vm_compute; reflexivity); try (vm_compute; reflexivity).
  - split; [apply date_exists_spec; vm_compute; reflexivity|]. rewrite <- date_exists_spec. vm_compute. discriminate.
Qed.

(** ** C232: the last Karma *)
Lemma latest_spec l j : latest l = Some j -> j ∈ l /\ forall j', j' ∈ l -> k_start j' <= k_start j.
Proof.
  revert j. induction l as [|x l IH]; intros j; cbn [latest]; [done|]. destruct (latest l) as [j'|] eqn:E.
  - destruct (IH j' eq_refl) as [H1 H2]. destruct (k_start x <? k_start j') eqn:Ek; intros [= <-].
    + apply Z.ltb_lt in Ek. split; [by right|]. intros y [->|Hy]%elem_of_cons; [lia|by apply H2].
    + apply Z.ltb_ge in Ek. split; [left|]. intros y [->|Hy]%elem_of_cons; [lia|]. specialize (H2 y Hy). lia.
  - intros [= <-]. destruct l as [|y l]; [|cbn [latest] in E; destruct (latest l) as [?|]; [destruct (_ <? _)|]; done].
    split; [left|]. intros y ->%elem_of_list_singleton. lia.
Qed.
Lemma latest_none l : latest l = None -> l = [].
Proof. destruct l as [|y l]; [done|]. cbn [latest]. destruct (latest l) as [?|]; [destruct (_ <? _)|]; done. Qed.
Lemma lead_digits_app a r : every digit_char a -> no_digit r -> lead_digits (a +:+ r) = (a, r).
Proof.
  induction a as [|c a IH]; intros Ha Hr.
  - rewrite snil_app. destruct r as [|c r]; [done|]. cbn [lead_digits]. destruct (is_digit c) eqn:E; [|done]. apply digit_spec in E. by destruct (Hr c r).
  - apply every_cons in Ha as [H1 H2]. rewrite scons_app. cbn [lead_digits]. rewrite (proj2 (digit_spec c) H1). by rewrite IH.
Qed.
Lemma substring_all r : substring 0 (String.length r) r = r.
Proof. induction r as [|c r IH]; [done|]. cbn. by rewrite IH. Qed.
Lemma karma_here_spec k rest : decimal k -> no_digit rest -> karma_here ("Karma=" +:+ k +:+ rest) = Some k.
Proof.
  intros (a & b & Ha & Hb & Hna & Hnb & ->) Hr. unfold karma_here.
  replace ("Karma=" +:+ (a +:+ "." +:+ b) +:+ rest)%string with ("Karma" +:+ String "=" (a +:+ String "." (b +:+ rest)))%string.
  2: { assert (Ea : ((a +:+ "." +:+ b) +:+ rest = a +:+ String "." (b +:+ rest))%string).
       { clear. induction a as [|c a IH]; [reflexivity|]. exact (f_equal (String c) IH). }
       rewrite Ea. reflexivity. }
  assert (E1 : forall r, String.prefix "Karma" ("Karma" +:+ r)%string = true) by (intros r; destruct r; vm_compute; reflexivity).
  assert (E2 : forall r, substring 5 (String.length ("Karma" +:+ r)%string - 5) ("Karma" +:+ r)%string = r).
  { intros r. rewrite !scons_app, snil_app. cbn [String.length substring]. replace (S (S (S (S (S (String.length r))))) - 5)%nat with (String.length r) by lia. apply substring_all. }
  rewrite E1, E2. rewrite lstrip_start by (unfold blank_char; vm_compute; lia). cbn [take_char]. rewrite Ascii.eqb_refl.
  assert (E3 : lstrip (a +:+ String "." (b +:+ rest))%string = (a +:+ String "." (b +:+ rest))%string).
  { destruct a as [|c a]; [done|]. rewrite scons_app. apply lstrip_start. apply every_cons in Ha as [Ha _]. by apply digit_nonblank. }
  rewrite E3. rewrite lead_digits_app; [|done|]. 2: { intros c r [= <- <-]. unfold digit_char. vm_compute. lia. }
  cbn [take_char]. rewrite Ascii.eqb_refl. rewrite lead_digits_app by done. by rewrite bool_decide_true.
Qed.
Lemma karma_none s : (forall c, c ∈ list_ascii_of_string s -> c <> "K"%char) -> karma_text s = None.
Proof.
  induction s as [|c s IH]; intros H; [done|]. cbn [karma_text]. rewrite IH by (intros x Hx; apply H; cbn; by right).
  assert (Hc : c <> "K"%char) by (apply H; cbn; left).
  assert (E : karma_here (String c s) = None).
  { unfold karma_here. change (String.prefix "Karma" (String c s)) with (if ascii_dec "K" c then String.prefix "arma" s else false). destruct (ascii_dec "K" c) as [E|_]; [by subst c|done]. }
  rewrite E. by destruct (Ascii.eqb c "010").
Qed.
Lemma karma_prefix pre s k : (forall c, c ∈ list_ascii_of_string pre -> c <> "010"%char) -> karma_text s = Some k -> karma_text (pre +:+ s) = Some k.
Proof.
  intros H Hs. induction pre as [|c pre IH]; [by rewrite snil_app|]. rewrite scons_app. cbn [karma_text].
  rewrite (proj2 (Ascii.eqb_neq c "010")) by (apply H; cbn; left). rewrite IH; [done|]. intros x Hx. apply H. cbn. by right.
Qed.
Lemma list_app_s a b : list_ascii_of_string (a +:+ b) = list_ascii_of_string a ++ list_ascii_of_string b.
Proof. induction a as [|c a IH]; [by rewrite snil_app|]. rewrite scons_app. cbn [list_ascii_of_string]. by rewrite IH. Qed.
Lemma kt_cons c s : karma_text (String c s) = match (if Ascii.eqb c "010" then None else karma_text s) with Some k => Some k | None => karma_here (String c s) end.
Proof. reflexivity. Qed.
Lemma karma_written pre k : (forall c, c ∈ list_ascii_of_string pre -> c <> "010"%char) -> decimal k -> karma_text (pre +:+ " (Karma=" +:+ k +:+ ")") = Some k.
Proof.
  intros Hp Hk. apply karma_prefix; [done|]. change (" (Karma=" +:+ k +:+ ")")%string with (" (" +:+ ("Karma=" +:+ k +:+ ")"))%string.
  apply karma_prefix.
  { intros c Hc. cbn in Hc. apply elem_of_cons in Hc as [->|Hc]; [done|]. apply elem_of_list_singleton in Hc as ->. done. }
  assert (Hh : karma_here ("Karma=" +:+ k +:+ ")") = Some k) by (apply karma_here_spec; [done|]; intros c r [= <- <-]; unfold digit_char; vm_compute; lia).
  rewrite !scons_app, snil_app in *. rewrite kt_cons. change (Ascii.eqb "K" "010") with false. cbv iota.
  assert (En : karma_text (String "a" (String "r" (String "m" (String "a" (String "=" (k +:+ ")")))))) = None).
  { apply karma_none. intros c Hc. cbn [list_ascii_of_string] in Hc. rewrite list_app_s in Hc.
    repeat (apply elem_of_cons in Hc as [->|Hc]; [done|]). destruct Hk as (a & b & Ha & Hb & _ & _ & ->). rewrite list_app_s in Hc.
    rewrite !elem_of_app in Hc. assert (Hdig : forall t c, every digit_char t -> c ∈ list_ascii_of_string t -> c <> "K"%char).
    { intros t x Ht Hx ->. unfold every in Ht. rewrite Forall_forall in Ht. apply Ht in Hx. revert Hx. unfold digit_char. vm_compute. lia. }
    destruct Hc as [[Hc|Hc]|Hc]; [exact (Hdig a c Ha Hc)| |].
    - rewrite scons_app, snil_app in Hc. cbn [list_ascii_of_string] in Hc. apply elem_of_cons in Hc as [->|Hc]; [done|exact (Hdig b c Hb Hc)].
    - cbn in Hc. apply elem_of_list_singleton in Hc as ->. done. }
  rewrite En. exact Hh.
Qed.
(** The Karma shown for a project is that of the last job of the user in the project that has one. *)
Theorem C232_last_partial order porder mk text u p jobs T d1 d2 l ps q : by_seconds order -> u <> ""%string -> asks_for mk text d1 d2 ->
  print_accounting order porder mk text u p jobs T = Ok (ShownUser l ps) -> q ∈ ps ->
  forall k, pl_karma q = Some k -> exists j, j ∈ jobs /\ k_user j = u /\ k_project j = pl_project q /\ k_start j < d2 /\ karma_text (k_message j) = Some k /\
    forall j', j' ∈ jobs -> k_user j' = u -> k_project j' = pl_project q -> k_start j' < d2 -> contains "Karma" (k_message j') = true -> k_start j' <= k_start j.
Proof.
  intros Ho Hu Ha E Hq k Hk. rewrite (print_asked _ _ _ _ _ _ _ _ d1 d2 Ha) in E. rewrite bool_decide_false in E by done.
  destruct (look u (summary order d1 d2 u p T)) as [c|]; [|done]. injection E as _ <-. apply elem_of_list_fmap in Hq as ([pr m] & -> & _).
  cbn [pline_of pl_karma pl_project fst] in *. unfold last_karma in Hk. destruct (latest _) as [j|] eqn:El; [|done].
  apply latest_spec in El as [H1 H2]. apply elem_of_list_filter in H1 as [(F1 & F2 & F3 & F4) H1]. exists j. split_and!; try done.
  - destruct (bool_decide (k_message j = ""%string)); [done|]. exact Hk.
  - intros j' J1 J2 J3 J4 J5. apply H2. apply elem_of_list_filter. done.
Qed.
(** It is the number the scheduler wrote (job_handling.py:635), when it is written with a point and without an exponent. *)
Theorem C232_written_partial order porder mk text u p jobs T d1 d2 l ps q j pre k : by_seconds order -> u <> ""%string -> asks_for mk text d1 d2 ->
  print_accounting order porder mk text u p jobs T = Ok (ShownUser l ps) -> q ∈ ps ->
  j ∈ jobs -> k_user j = u -> k_project j = pl_project q -> k_start j < d2 -> k_message j = (pre +:+ " (Karma=" +:+ k +:+ ")")%string ->
  contains "Karma" (k_message j) = true -> (forall c, c ∈ list_ascii_of_string pre -> c <> "010"%char) -> decimal k ->
  (forall j', j' ∈ jobs -> k_user j' = u -> k_project j' = pl_project q -> k_start j' < d2 -> contains "Karma" (k_message j') = true -> j' = j \/ k_start j' < k_start j) ->
  pl_karma q = Some k.
Proof.
  intros Ho Hu Ha E Hq J1 J2 J3 J4 J5 J6 J7 Hk Hlast. rewrite (print_asked _ _ _ _ _ _ _ _ d1 d2 Ha) in E. rewrite bool_decide_false in E by done.
  destruct (look u (summary order d1 d2 u p T)) as [c|]; [|done]. injection E as _ <-. apply elem_of_list_fmap in Hq as ([pr m] & -> & _).
  cbn [pline_of pl_karma pl_project fst] in *. unfold last_karma.
  assert (Hj : j ∈ filter (fun j => k_user j = u /\ contains "Karma" (k_message j) = true /\ k_project j = pr /\ k_start j < d2) jobs) by (apply elem_of_list_filter; done).
  destruct (latest _) as [j'|] eqn:El; [|apply latest_none in El; rewrite El in Hj; by apply elem_of_nil in Hj].
  apply latest_spec in El as [H1 H2]. apply elem_of_list_filter in H1 as [(F1 & F2 & F3 & F4) H1].
  assert (j' = j) as ->. { destruct (Hlast j') as [?|Hlt]; [done..|]. specialize (H2 j Hj). lia. }
  assert (Ek : karma_text (k_message j) = Some k) by (rewrite J5; by apply karma_written).
  rewrite bool_decide_false; [exact Ek|]. intros Em. rewrite Em in Ek. done.
Qed.
(** A very small Karma is written 1e-05: nothing is shown. *)
Theorem C232_small_refuted : exists order porder mk text l q j, by_seconds order /\ asks_for mk text 0 (19 * 86400) /\ k_user j = "u"%string /\ k_project j = "p"%string /\ k_start j = 100 /\
  k_message j = "R=1,W=200,J=B,Q=default (Karma=1e-05)"%string /\ print_accounting order porder mk text "u" any_row [j] rep_rows = Ok (ShownUser l [q]) /\ pl_project q = "p"%string /\ pl_karma q = None.
Proof.
  exists sorted_sums, sorted_psums, (mk_z 0), "1970-01-01, 1970-01-20"%string, (mkLine "u" 86400 259199 50200 510), (mkPline "p" 50200 510 None),
    (mkKjob "u" "p" 100 "R=1,W=200,J=B,Q=default (Karma=1e-05)"). split; [exact sorted_sums_ok|].
  split; [apply (jan_asks 0 _ 1 20); [vm_compute; reflexivity|lia|lia]|]. do 4 (split; [done|]). split; [vm_compute; reflexivity|]. done.
Qed.
Theorem C232_case : exists l q, print_accounting sorted_sums sorted_psums (mk_z 0) "1970-01-01, 1970-01-20" "u" any_row
  [mkKjob "u" "p" 100 "R=1 (Karma=1.25)"; mkKjob "u" "p" 300 "R=1 (Karma=0.5)"; mkKjob "u" "p" 400 "R=1"; mkKjob "u" "p" (20 * 86400) "R=1 (Karma=2.0)"] rep_rows = Ok (ShownUser l [q]) /\
  pl_karma q = Some "0.5"%string.
Proof. exists (mkLine "u" 86400 259199 50200 510), (mkPline "p" 50200 510 (Some "0.5"%string)). split; vm_compute; reflexivity. Qed.

(** ** Cases *)
Lemma rep_ok : tables_ok rep_adb.
Proof. unfold tables_ok, rep_adb, unique. cbn. repeat split; repeat first [apply NoDup_cons; split; [by_dec|]|apply NoDup_nil; done]. Qed.
Theorem C230_case : tables_ok rep_adb /\ t_acct rep_adb = [] /\
  (forall j wt nb, chargeable rep_adb j wt nb -> 0 < aj_start j /\ aj_stop j <= 19 * 86400 /\ aj_start j + wt <= 19 * 86400 /\ 0 <= wt) /\
  asks_for (mk_z 0) "1970-01-01, 1970-01-20" 0 (19 * 86400) /\
  print_accounting sorted_sums sorted_psums (mk_z 0) "1970-01-01, 1970-01-20" "" any_row [] rep_rows = Ok (ShownAll [mkLine "u" 86400 259199 50200 510]).
Proof.
  split; [exact rep_ok|]. split; [done|]. split.
  - intros j wt nb H. apply (selected_iff _ _ _ _ rep_ok) in H.
    assert (E : selected rep_adb = [(mkAJob 1 "Terminated" "NO" 86410 86420 "u" "p" "default" 1, 50000, 1); (mkAJob 2 "Terminated" "NO" 258800 259300 "u" "p" "default" 2, 200, 1)]) by (vm_compute; reflexivity).
    rewrite E in H. apply elem_of_cons in H as [H|H]; [injection H as -> -> ->; cbn; lia|]. apply elem_of_list_singleton in H. injection H as -> -> ->. cbn. lia.
  - split; [apply (jan_asks 0 _ 1 20); [vm_compute; reflexivity|lia|lia]|]. vm_compute. reflexivity.
Qed.
Definition plain_rows : list arow := [mkRow 0 86399 "u" "p" "q" "ASKED" 50; mkRow 0 86399 "u" "p" "q" "USED" 20; mkRow 86400 172799 "u" "p2" "q" "ASKED" 30; mkRow 86400 172799 "v" "p" "q" "USED" 5].
Theorem C227_case : (forall r, r ∈ plain_rows -> a_type r = "ASKED"%string \/ a_type r = "USED"%string) /\
  (forall r, row_of plain_rows 0 (19 * 86400) any_row "u" r -> a_type r = "USED"%string ->
     exists r', row_of plain_rows 0 (19 * 86400) any_row "u" r' /\ a_type r' = "ASKED"%string /\ a_start r' = a_start r /\ a_stop r' = a_stop r) /\
  consumed plain_rows 0 (19 * 86400) any_row "u" "USED" < consumed plain_rows 0 (19 * 86400) any_row "u" "ASKED" /\
  (exists ps, print_accounting sorted_sums sorted_psums (mk_z 0) "1970-01-01, 1970-01-20" "u" any_row [] plain_rows = Ok (ShownUser (mkLine "u" 0 172799 80 20) ps) /\
     ps = [mkPline "p" 50 20 None; mkPline "p2" 30 0 None]) /\
  print_accounting sorted_sums sorted_psums (mk_z 0) "1970-01-01, 1970-01-20" "w" any_row [] plain_rows = Ok (NoSuchUser "w") /\
  (forall r, r ∈ plain_rows -> a_start r < a_stop r /\ (a_stop r <= 86400 \/ 86400 <= a_start r)).
Proof.
  split; [intros r Hr; repeat (apply elem_of_cons in Hr as [->|Hr]; [cbn; tauto|]); by apply elem_of_nil in Hr|]. split.
  - intros r (Hr & H1 & H2 & _ & H4) Ht. exists (mkRow 0 86399 "u" "p" "q" "ASKED" 50).
    assert (E : r = mkRow 0 86399 "u" "p" "q" "USED" 20).
    { repeat (apply elem_of_cons in Hr as [->|Hr]; [cbn in *; first [done|congruence]|]). by apply elem_of_nil in Hr. }
    subst r. split; [|done]. split; [left|]. cbn. split_and!; try lia; done.
  - split; [vm_compute; reflexivity|]. split; [eexists; split; [vm_compute; reflexivity|reflexivity]|]. split; [vm_compute; reflexivity|].
    intros r Hr. repeat (apply elem_of_cons in Hr as [->|Hr]; [cbn; lia|]). by apply elem_of_nil in Hr.
Qed.
Print Assumptions C226_all.
Print Assumptions C226_user.
Print Assumptions C227_of_largest.
Print Assumptions C227_partial.
Print Assumptions C227_refuted.
Print Assumptions C228_projects_partial.
Print Assumptions C228_refuted.
Print Assumptions C229_partial.
Print Assumptions C229_refuted.
Print Assumptions C230_jobs_to_report.
Print Assumptions C231_read.
Print Assumptions C231_bad.
Print Assumptions C231_rest_refuted.
Print Assumptions C231_impossible_refuted.
Print Assumptions C231_case.
Print Assumptions C232_last_partial.
Print Assumptions C232_written_partial.
Print Assumptions C232_small_refuted.
Print Assumptions C232_case.
Print Assumptions C230_case.
Print Assumptions C227_case.
