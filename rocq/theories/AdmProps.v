(** C152-C160: proofs. *)
From Verif Require Import Base CondProps AdmModel AdmSpec.
From Coq Require Import Ascii.

(** * Texts and trees *)
Lemma print_par l : print_item (Par l) = TOpen :: print l ++ [TClose].
Proof. done. Qed.
Lemma print_cons i c : print (i :: c) = print_item i ++ print c.
Proof. done. Qed.
Lemma print_app c c' : print (c ++ c') = print c ++ print c'.
Proof. apply bind_app. Qed.
Lemma print_nil c : print c = [] -> c = [].
Proof. destruct c as [|[s| | |l] c]; [done|discriminate|discriminate|discriminate|]. rewrite print_cons, print_par. discriminate. Qed.
Definition stop (t : list tok) : Prop := t = [] \/ exists t', t = TClose :: t'.
Lemma print_inj_gen n : forall c c' t t', (length (print c) <= n)%nat -> stop t -> stop t' -> print c ++ t = print c' ++ t' -> c = c' /\ t = t'.
Proof.
  induction n as [n IH] using lt_wf_ind. intros c c' t t' Hn Ht Ht' E.
  assert (Hs : forall i c0 t0 t1, stop t1 -> t1 = print (i :: c0) ++ t0 -> False).
  { intros i c0 t0 t1 [->|(x & ->)] H; destruct i as [s| | |l]; rewrite print_cons, ?print_par in H; discriminate. }
  destruct c as [|i c], c' as [|i' c'].
  - done.
  - exfalso. eapply (Hs i' c' t' t); done.
  - exfalso. eapply (Hs i c t t'); done.
  - rewrite !print_cons in E. rewrite print_cons, app_length in Hn.
    destruct i as [s| | |l], i' as [s'| | |l']; rewrite ?print_par in E; try discriminate.
    + cbn in E. injection E as <- E. cbn in Hn. destruct (IH (length (print c))) with (c := c) (c' := c') (t := t) (t' := t') as [-> ->]; [lia|lia|done|done|done|done].
    + cbn in E. injection E as E. cbn in Hn. destruct (IH (length (print c))) with (c := c) (c' := c') (t := t) (t' := t') as [-> ->]; [lia|lia|done|done|done|done].
    + cbn in E. injection E as E. cbn in Hn. destruct (IH (length (print c))) with (c := c) (c' := c') (t := t) (t' := t') as [-> ->]; [lia|lia|done|done|done|done].
    + rewrite print_par in Hn. cbn [length] in Hn. rewrite app_length in Hn. cbn [length] in Hn. cbn [app] in E. injection E as E. rewrite <- !app_assoc in E. cbn [app] in E.
      destruct (IH (length (print l))) with (c := l) (c' := l') (t := TClose :: print c ++ t) (t' := TClose :: print c' ++ t') as [-> E']; [lia|lia|right; eauto|right; eauto|done|].
      injection E' as E'. destruct (IH (length (print c))) with (c := c) (c' := c') (t := t) (t' := t') as [-> ->]; [lia|lia|done|done|done|done].
Qed.
Lemma print_inj c c' : print c = print c' -> c = c'.
Proof. intros E. destruct (print_inj_gen (length (print c)) c c' [] []) as [H _]; [lia|by left|by left|by rewrite !app_nil_r|done]. Qed.
Lemma print_wrap c d : print d <> [] -> wrap (print c) (print d) = print (match c with [] => d | _ => Par c :: And :: d end).
Proof.
  intros _. destruct c as [|i c]; [done|]. destruct (print (i :: c)) as [|k x] eqn:E; [by apply print_nil in E|].
  cbn [wrap]. rewrite <- E. rewrite (print_cons (Par (i :: c))), print_par, (print_cons And). change (print_item And) with [TAnd]. cbn [app]. rewrite <- app_assoc. reflexivity.
Qed.
(** A conjunction that holds: each factor holds. *)
Lemma run_factors v n : forall l a, (length l <= n)%nat -> Or ∉ l -> run v l false a = Some true -> a = true /\ forall i, i ∈ l -> i <> And -> item_means v i = Some true.
Proof.
  induction n as [|n IH]; intros l a Hl Ho H; destruct l as [|i l']; [done|cbn in Hl; lia|done|].
  cbn [run] in H. destruct (item_means v i) as [b|] eqn:E; [|done]. destruct l' as [|[s| | |p] l'']; try done.
  - injection H as H. cbn [orb] in H. apply andb_true_iff in H as [-> ->]. split; [done|]. intros j Hj _. apply elem_of_list_singleton in Hj. by subst.
  - apply IH in H; [|cbn in Hl; lia|]. 2: { intros ?. apply Ho. by do 2 right. } destruct H as [H1 H2]. apply andb_true_iff in H1 as [-> ->]. split; [done|].
    intros j [->|[->|Hj]%elem_of_cons]%elem_of_cons Hn; [done|done|by apply H2].
  - exfalso. apply Ho. right. left.
Qed.
Lemma means_factors v l : Or ∉ l -> means v l = Some true -> forall i, i ∈ l -> i <> And -> item_means v i = Some true.
Proof. intros Ho H. rewrite means_run in H. by apply (run_factors v (length l) l true) in H as [_ ?]. Qed.
Lemma item_par v l : item_means v (Par l) = means v l.
Proof. done. Qed.
(** * The rules *)
Lemma refuse_spec b p p' : refuse_if b p = Some p' <-> b = false /\ p' = p.
Proof. unfold refuse_if. destruct b; split; try done; intros H; [destruct H; done|by injection H as <-|by destruct H as [_ ->]]. Qed.
Definition be_type (p : params) (q : string) : Prop := "besteffort"%string ∈ p_types p \/ q = "besteffort"%string.
Global Instance be_type_dec p q : Decision (be_type p q).
Proof. unfold be_type. apply _. Defined.
Record admitted (e : env) (p p' : params) (q : string) : Prop := {
  ad_queue0 : q = default "default"%string (p_queue p);
  ad_user : p_user p' = p_user p /\ p_user p <> "root"%string /\ p_user p <> "oar"%string;
  ad_admin : q = "admin"%string -> exists l, admins e = Some l /\ p_user p ∈ l;
  ad_names : forall n, n ∈ asked_names p -> n ∉ bad_resources;
  ad_queue : p_queue p' = Some (if decide (be_type p q) then "besteffort"%string else q);
  ad_types : p_types p' = p_types p ++ (if decide (be_type p q /\ "besteffort"%string ∉ p_types p) then ["besteffort"%string] else []);
  ad_resa : p_resa p' = p_resa p /\ (be_type p q -> p_resa p = 0);
  ad_props : p_props p' = (let x := if decide (be_type p q) then wrap (p_props p) [TAtom "besteffort = 'YES'"%string] else p_props p in
    if decide ("deploy"%string ∈ p_types p') then wrap x [TAtom "deploy = 'YES'"%string] else x);
  ad_deploy : "deploy"%string ∈ p_types p' -> forall n, n ∈ asked_names p -> n ∉ parts_of_nodes;
  ad_limit : p_resa p <> 0 -> existsb (search (p_user p)) (unlimited e) = true \/ (length (filter (fun j => waiting_resa (p_user p) j = true) (job_rows e)) < 2)%nat;
  ad_job_type : p_job_type p' = p_job_type p;
  ad_req : p_req p' = (fun r => (r.1, Some (let w := match r.2 with None => 7200 | Some w => if w =? 0 then 7200 else w end in
    if decide (p_job_type p = "INTERACTIVE"%string /\ p_resa p = 0) then Z.min w 43200 else w))) <$> p_req p;
  ad_after : p_after p' = [TAtom "drain='NO'"%string];
  ad_ok : forall t, t ∈ p_types p' -> type_ok t = true }.
Lemma existsb_no {A} (f : A -> bool) l : existsb f l = false <-> forall x, x ∈ l -> f x = false.
Proof.
  induction l as [|a l IH]; cbn [existsb]; [split; [intros _ x H; by apply elem_of_nil in H|done]|]. rewrite orb_false_iff, IH. split.
  - intros [H1 H2] x [->|H]%elem_of_cons; [done|by apply H2].
  - intros H. split; [apply H; by left|]. intros x Hx. apply H. by right.
Qed.
Lemma admit_inv e p p' : admit e p = Some p' -> exists q, admitted e p p' q.
Proof.
  intros H. exists (default "default"%string (p_queue p)). set (q := default "default"%string (p_queue p)).
  unfold admit, the_rules in H. cbn [apply_rules] in H.
  destruct (r01 e p) as [p1|] eqn:H1; [|done]. destruct (r02 e p1) as [p2|] eqn:H2; [|done]. destruct (r03 e p2) as [p3|] eqn:H3; [|done].
  destruct (r04 e p3) as [p4|] eqn:H4; [|done]. destruct (r05 e p4) as [p5|] eqn:H5; [|done]. destruct (r06 e p5) as [p6|] eqn:H6; [|done].
  destruct (r07 e p6) as [p7|] eqn:H7; [|done]. destruct (r08 e p7) as [p8|] eqn:H8; [|done]. destruct (r09 e p8) as [p9|] eqn:H9; [|done].
  destruct (r11 e p9) as [p10|] eqn:H10; [|done]. destruct (r13 e p10) as [p11|] eqn:H11; [|done]. destruct (r14 e p11) as [p12|] eqn:H12; [|done].
  destruct (r15 e p12) as [p13|] eqn:H13; [|done]. injection H as <-.
  assert (E1 : p1 = set_queue p (Some q)).
  { unfold r01 in H1. injection H1 as <-. unfold q. destruct p as [u [qq|] t pr rs jt rq af]; done. }
  unfold r02 in H2. apply refuse_spec in H2 as [H2 E2]. apply orb_false_iff in H2 as [U1%bool_decide_eq_false U2%bool_decide_eq_false].
  unfold r03 in H3. injection H3 as E3.
  assert (E4 : p4 = p3 /\ (q = "admin"%string -> exists l, admins e = Some l /\ p_user p ∈ l)).
  { unfold r04 in H4. rewrite <- E3, E2, E1 in H4. cbn [p_queue set_after set_queue p_user] in H4. case_bool_decide as Q.
    - destruct (admins e) as [l|]; [|done]. apply refuse_spec in H4 as [H4%bool_decide_eq_false E4]. split; [by rewrite <- E3, E2, E1, E4|].
      intros _. exists l. split; [done|]. by apply dec_stable.
    - injection H4 as <-. split; [by rewrite <- E3, E2, E1|]. intros ->. done. }
  destruct E4 as [E4 A4]. unfold r05 in H5. apply refuse_spec in H5 as [H5 E5]. rewrite existsb_no in H5.
  assert (P5 : p5 = set_after (set_queue p (Some q)) [TAtom "drain='NO'"%string]) by (by rewrite E5, E4, <- E3, E2, E1). clear E2 E3 H4.
  assert (N5 : forall n, n ∈ asked_names p -> n ∉ bad_resources).
  { intros n Hn. apply (bool_decide_eq_false_1 _). apply H5. rewrite <- E5, P5. exact Hn. }
  assert (E6 : p6 = mkParams (p_user p) (Some (if decide (be_type p q) then "besteffort"%string else q))
      (p_types p ++ (if decide (be_type p q /\ "besteffort"%string ∉ p_types p) then ["besteffort"%string] else []))
      (if decide (be_type p q) then wrap (p_props p) [TAtom "besteffort = 'YES'"%string] else p_props p) (p_resa p) (p_job_type p) (p_req p) [TAtom "drain='NO'"%string]).
  { unfold r06 in H6. rewrite P5 in H6. unfold has_type in H6. cbn [p_types set_after set_queue p_queue] in H6.
    destruct (decide ("besteffort"%string ∈ p_types p)) as [B|B].
    - rewrite (bool_decide_eq_true_2 _ B) in H6. rewrite !(decide_True (P := be_type p q)) by (by left). rewrite (decide_False (P := _ /\ _)) by (by intros [_ ?]). rewrite app_nil_r.
      cbn [andb] in H6. destruct (decide (q = "besteffort"%string)) as [Q|Q].
      + rewrite Q in H6. rewrite (bool_decide_eq_false_2 (Some "besteffort"%string <> Some "besteffort"%string)) in H6 by (intros X; by apply X).
        cbn [p_queue p_types set_queue set_after] in H6. rewrite (bool_decide_eq_true_2 _ B) in H6. rewrite andb_false_r in H6. cbn [p_types set_queue set_after] in H6.
        rewrite (bool_decide_eq_true_2 _ B) in H6. by injection H6 as <-.
      + rewrite (bool_decide_eq_true_2 (Some q <> Some "besteffort"%string)) in H6 by (intros [= ?]; done).
        cbn [p_queue p_types set_queue set_after] in H6. rewrite (bool_decide_eq_true_2 _ B) in H6. rewrite andb_false_r in H6. cbn [p_types set_queue set_after] in H6.
        rewrite (bool_decide_eq_true_2 _ B) in H6. by injection H6 as <-.
    - rewrite (bool_decide_eq_false_2 _ B) in H6. cbn [andb] in H6. cbn [p_queue p_types set_queue set_after] in H6. rewrite (bool_decide_eq_false_2 _ B) in H6.
      destruct (decide (q = "besteffort"%string)) as [Q|Q].
      + rewrite !(decide_True (P := be_type p q)) by (by right). rewrite (decide_True (P := _ /\ _)) by (by split; [right|]). rewrite Q in H6.
        rewrite (bool_decide_eq_true_2 (Some "besteffort"%string = Some "besteffort"%string)) in H6 by done. cbn [andb negb p_types set_types set_queue set_after p_queue] in H6.
        rewrite bool_decide_eq_true_2 in H6 by (apply elem_of_app; right; apply elem_of_list_singleton; done). by injection H6 as <-.
      + rewrite !(decide_False (P := be_type p q)) by (by intros [?|?]). rewrite (decide_False (P := _ /\ _)) by (by intros [[?|?] _]). rewrite app_nil_r.
        rewrite (bool_decide_eq_false_2 (Some q = Some "besteffort"%string)) in H6 by (intros [= ?]; done). cbn [andb] in H6. cbn [p_types set_queue set_after] in H6.
        rewrite (bool_decide_eq_false_2 _ B) in H6. by injection H6 as <-. }
  clear H6 P5 H5 E5 E4. unfold r07 in H7. apply refuse_spec in H7 as [H7 E7]. unfold r08 in H8. injection H8 as E8. unfold r09 in H9. apply refuse_spec in H9 as [H9 E9].
  assert (E10 : p10 = p9 /\ (p_resa p <> 0 -> existsb (search (p_user p)) (unlimited e) = true \/ (length (filter (fun j => waiting_resa (p_user p) j = true) (job_rows e)) < 2)%nat)).
  { assert (P9 : p_resa p9 = p_resa p /\ p_user p9 = p_user p) by (rewrite E9, <- E8, E7; destruct (has_type "deploy" p6); rewrite E6; split; reflexivity).
    unfold r11 in H10. destruct P9 as [P9 P9']. rewrite P9, P9' in H10. destruct (p_resa p =? 0) eqn:Z0; [injection H10 as <-; split; [done|]; lia|].
    destruct (existsb (search (p_user p)) (unlimited e)) eqn:X; rewrite ?X in H10; [injection H10 as <-; split; [done|]; by left|]. apply refuse_spec in H10 as [H10 ->]. split; [done|]. intros _. right. lia. }
  destruct E10 as [E10 L10]. unfold r13 in H11. injection H11 as E11. unfold r14 in H12. injection H12 as E12. unfold r15 in H13. apply refuse_spec in H13 as [H13 E13].
  assert (BT : has_type "besteffort" p6 = true <-> be_type p q).
  { rewrite E6. unfold has_type. cbn [p_types]. rewrite bool_decide_eq_true, elem_of_app. split.
    - intros [?|H]; [by left|]. destruct (decide (be_type p q /\ _)) as [[? _]|]; [done|by apply elem_of_nil in H].
    - intros HB. destruct (decide ("besteffort"%string ∈ p_types p)) as [?|N]; [by left|right]. rewrite decide_True by done. by left. }
  assert (R : p_resa p6 = p_resa p /\ p_user p6 = p_user p /\ p_job_type p6 = p_job_type p /\ p_req p6 = p_req p /\ p_after p6 = [TAtom "drain='NO'"%string]) by (by rewrite E6).
  destruct R as (R1 & R2 & R3 & R4 & R5).
  assert (D8 : p_types p8 = p_types p6 /\ p_queue p8 = p_queue p6 /\ p_user p8 = p_user p6 /\ p_resa p8 = p_resa p6 /\ p_job_type p8 = p_job_type p6 /\ p_req p8 = p_req p6 /\ p_after p8 = p_after p6 /\
    p_props p8 = (if decide ("deploy"%string ∈ p_types p6) then wrap (p_props p6) [TAtom "deploy = 'YES'"%string] else p_props p6)).
  { rewrite <- E8, E7. unfold has_type. destruct (decide ("deploy"%string ∈ p_types p6)) as [D|D]; [rewrite (bool_decide_eq_true_2 _ D)|rewrite (bool_decide_eq_false_2 _ D)]; done. }
  destruct D8 as (D1 & D2 & D3 & D4 & D5 & D6 & D7 & D8).
  assert (Q13 : p_types p13 = p_types p8 /\ p_queue p13 = p_queue p8 /\ p_user p13 = p_user p8 /\ p_resa p13 = p_resa p8 /\ p_job_type p13 = p_job_type p8 /\ p_after p13 = p_after p8 /\ p_props p13 = p_props p8).
  { rewrite E13, <- E12. destruct (bool_decide (p_job_type p11 = "INTERACTIVE"%string) && (p_resa p11 =? 0)); rewrite <- E11, E10, E9; repeat split; reflexivity. }
  destruct Q13 as (Q1 & Q2 & Q3 & Q4 & Q5 & Q6 & Q7).
  constructor.
  - done.
  - rewrite Q3, D3, R2. rewrite E1 in U1, U2. done.
  - done.
  - done.
  - rewrite Q2, D2, E6. done.
  - rewrite Q1, D1, E6. done.
  - rewrite Q4, D4, R1. split; [done|]. intros HB. apply andb_false_iff in H7 as [H7|H7]; [exfalso; apply BT in HB; congruence|]. rewrite R1 in H7. lia.
  - rewrite Q7, D8, Q1, D1. assert (p_props p6 = if decide (be_type p q) then wrap (p_props p) [TAtom "besteffort = 'YES'"%string] else p_props p) as -> by (by rewrite E6). done.
  - rewrite Q1. intros HD n Hn. apply andb_false_iff in H9 as [H9|H9]; [exfalso; unfold has_type in H9; apply bool_decide_eq_false in H9; done|].
    rewrite existsb_no in H9. apply (bool_decide_eq_false_1 _). apply H9. unfold asked_names. by rewrite D6, R4.
  - done.
  - by rewrite Q5, D5.
  - rewrite E13, <- E12. assert (X : p_job_type p11 = p_job_type p /\ p_resa p11 = p_resa p) by (rewrite <- E11, E10, E9; cbn [set_req p_job_type p_resa]; by rewrite D5, D4, R3, R1).
    destruct X as [X1 X2]. rewrite X1, X2.
    assert (Y : p_req p11 = (fun r => (r.1, match r.2 with None => Some 7200 | Some w => if w =? 0 then Some 7200 else Some w end)) <$> p_req p) by (rewrite <- E11, E10, E9; cbn [set_req p_req]; by rewrite D6, R4).
    destruct (decide (p_job_type p = "INTERACTIVE"%string /\ p_resa p = 0)) as [[I1 I2]|I].
    + rewrite (bool_decide_eq_true_2 _ I1). rewrite (proj2 (Z.eqb_eq _ _) I2). cbn [andb set_req p_req]. rewrite Y, <- list_fmap_compose. apply list_fmap_ext. intros i r _. cbn.
      f_equal. destruct r.2 as [w|]; [destruct (w =? 0)|]; cbn; try done. destruct (43200 <? w) eqn:?; f_equal; lia.
    + assert (bool_decide (p_job_type p = "INTERACTIVE"%string) && (p_resa p =? 0) = false) as ->.
      { apply andb_false_iff. destruct (decide (p_job_type p = "INTERACTIVE"%string)) as [J|J]; [right|left; by apply bool_decide_eq_false_2]. apply Z.eqb_neq. intros K. by apply I. }
      rewrite Y. apply list_fmap_ext. intros i r _. cbn. f_equal. destruct r.2 as [w|]; [destruct (w =? 0)|]; done.
  - by rewrite Q6, D7.
  - intros t Ht. rewrite existsb_no in H13. rewrite E13 in Ht. apply H13 in Ht. by apply negb_false_iff.
Qed.
(** * Around the rules *)
Record submitted (quotas : bool) (queues : list string) (e : env) (p p' : params) (q : string) : Prop := {
  su_queue0 : q = default "default"%string (p_queue p);
  su_user : p_user p' = p_user p /\ p_user p <> "root"%string /\ p_user p <> "oar"%string;
  su_admin : q = "admin"%string -> exists l, admins e = Some l /\ p_user p ∈ l;
  su_names : forall n, n ∈ asked_names p -> n ∉ bad_resources;
  su_queue : p_queue p' = Some (if decide (be_type p q) then "besteffort"%string else q);
  su_exists : exists q', p_queue p' = Some q' /\ q' ∈ queues;
  su_be : "besteffort"%string ∈ p_types p' <-> be_type p q;
  su_types : forall t, t ∈ p_types p' -> type_ok t = true \/ (t = "no_quotas"%string /\ quotas = true /\ p_queue p' = Some "admin"%string);
  su_kept : forall t, t <> "no_quotas"%string -> t <> "besteffort"%string -> t ∈ p_types p' <-> t ∈ p_types p;
  su_resa : p_resa p' = p_resa p /\ (be_type p q -> p_resa p = 0);
  su_props : p_props p' = wrap (let x := if decide (be_type p q) then wrap (p_props p) [TAtom "besteffort = 'YES'"%string] else p_props p in
    if decide ("deploy"%string ∈ p_types p') then wrap x [TAtom "deploy = 'YES'"%string] else x) [TAtom "drain='NO'"%string];
  su_deploy : "deploy"%string ∈ p_types p' -> forall n, n ∈ asked_names p -> n ∉ parts_of_nodes;
  su_limit : p_resa p <> 0 -> existsb (search (p_user p)) (unlimited e) = true \/ (length (filter (fun j => waiting_resa (p_user p) j = true) (job_rows e)) < 2)%nat;
  su_job_type : p_job_type p' = p_job_type p;
  su_req : p_req p' = (fun r => (r.1, Some (let w := match r.2 with None => 7200 | Some w => if w =? 0 then 7200 else w end in
    if decide (p_job_type p = "INTERACTIVE"%string /\ p_resa p = 0) then Z.min w 43200 else w))) <$> p_req p }.
Lemma remove_first_in t l x : x <> t -> x ∈ remove_first t l <-> x ∈ l.
Proof.
  intros Hn. induction l as [|y l IH]; [done|]. cbn [remove_first]. case_bool_decide as E; [subst; rewrite elem_of_cons; tauto|]. by rewrite !elem_of_cons, IH.
Qed.
Lemma submit_inv quotas queues e p p' : submit quotas queues e p = Some p' -> exists q, submitted quotas queues e p p' q.
Proof.
  unfold submit. set (p0 := if quotas then _ else p). intros H. destruct (admit e p0) as [p1|] eqn:HA; [|done]. apply admit_inv in HA as (q & A).
  assert (S0 : p_user p0 = p_user p /\ p_queue p0 = p_queue p /\ p_props p0 = p_props p /\ p_resa p0 = p_resa p /\ p_job_type p0 = p_job_type p /\ p_req p0 = p_req p) by (unfold p0; by destruct quotas).
  destruct S0 as (S1 & S2 & S3 & S4 & S5 & S6).
  assert (ST : forall t, t <> "no_quotas"%string -> t ∈ p_types p0 <-> t ∈ p_types p).
  { intros t Ht. unfold p0. destruct quotas; [|done]. cbn [set_types p_types]. by apply remove_first_in. }
  assert (SB : be_type p0 q <-> be_type p q) by (unfold be_type; by rewrite ST).
  clearbody p0. destruct A as [A0 A1 A2 A3 A4 A5 A6 A7 A8 A9 A10 A11 A12 A13].
  set (p2 := if quotas && bool_decide (p_queue p1 = Some "admin"%string) then _ else p1) in H.
  assert (T2 : p_user p2 = p_user p1 /\ p_queue p2 = p_queue p1 /\ p_props p2 = p_props p1 /\ p_resa p2 = p_resa p1 /\ p_job_type p2 = p_job_type p1 /\ p_req p2 = p_req p1 /\ p_after p2 = p_after p1)
    by (unfold p2; by destruct (quotas && _)).
  destruct T2 as (T1 & T2 & T3 & T4 & T5 & T6 & T7). rewrite T7, A12 in H.
  assert (TT : forall t, t ∈ p_types p2 <-> t ∈ p_types p1 \/ (t = "no_quotas"%string /\ quotas = true /\ p_queue p1 = Some "admin"%string)).
  { intros t. unfold p2. destruct quotas; cbn [andb]; [|clear; split; [by left|intros [?|(_ & ? & _)]; done]]. case_bool_decide as Q; [|clear -Q; split; [by left|intros [?|(_ & _ & ?)]; done]]. cbn [set_types p_types]. rewrite elem_of_app, elem_of_list_singleton. clear -Q. split; [intros [?|?]; [by left|by right]|intros [?|[? _]]; [by left|by right]]. }
  clearbody p2. destruct (p_queue p1) as [q1|] eqn:Q1; [|done]. case_bool_decide as X; [|done]. injection H as <-. exists q.
  injection A4 as A4. destruct A1 as (U1 & U2 & U3). destruct A6 as [R1 R2].
  assert (BT : "besteffort"%string ∈ p_types p1 <-> be_type p0 q).
  { rewrite A5, elem_of_app. split.
    - intros [?|H]; [by left|]. destruct (decide (be_type p0 q /\ _)) as [[? _]|]; [done|by apply elem_of_nil in H].
    - intros HB. destruct (decide ("besteffort"%string ∈ p_types p0)) as [?|N]; [by left|right]. rewrite decide_True by done. by left. }
  assert (DD : "deploy"%string ∈ p_types p2 <-> "deploy"%string ∈ p_types p1) by (rewrite TT; naive_solver).
  assert (BE : forall A (x y : A), (if decide (be_type p0 q) then x else y) = (if decide (be_type p q) then x else y)).
  { intros A x y. destruct (decide (be_type p0 q)), (decide (be_type p q)); tauto. }
  constructor; cbn [set_props p_user p_queue p_types p_props p_resa p_job_type p_req p_after].
  - by rewrite A0, S2.
  - rewrite T1, U1, S1. by rewrite S1 in U2, U3.
  - by rewrite S1 in A2.
  - intros n Hn. apply A3. unfold asked_names. by rewrite S6.
  - rewrite T2, <- BE. by rewrite <- A4.
  - rewrite T2. by exists q1.
  - rewrite TT, <- SB, <- BT. naive_solver.
  - intros t Ht. apply TT in Ht as [Ht|Ht]; [left; by apply A13|right; by rewrite T2].
  - intros t N1 N2. rewrite TT, A5, elem_of_app, ST by done. split; [|by left; left]. intros [[?|H]|[? _]]; [done| |done]. destruct (decide (_ /\ _)); [apply elem_of_list_singleton in H; done|by apply elem_of_nil in H].
  - rewrite T4, R1, <- S4. split; [done|]. intros HB. apply R2. by apply SB.
  - rewrite T3, A7, S3, BE. do 1 f_equal. destruct (decide ("deploy"%string ∈ p_types p1)), (decide ("deploy"%string ∈ p_types p2)); tauto.
  - rewrite DD. intros HD n Hn. apply (A8 HD n). unfold asked_names. by rewrite S6.
  - by rewrite S4, S1 in A9.
  - by rewrite T5, A10, S5.
  - rewrite T6, A11, S6, S5, S4. done.
Qed.
Lemma asked_in p n : n ∈ asked_names p <-> asks_for p n.
Proof.
  unfold asked_names, asks_for. rewrite elem_of_list_bind. split.
  - intros (r & H & Hr). apply elem_of_list_bind in H as (g & H & Hg). apply elem_of_list_fmap in H as ([m k] & -> & H). by exists r, g, k.
  - intros (r & g & k & Hr & Hg & H). exists r. split; [|done]. apply elem_of_list_bind. exists g. split; [|done]. apply elem_of_list_fmap. by exists (n, k).
Qed.
(** * Conditions *)
Lemma balanced_wrap x a : balanced x -> balanced (wrap x [TAtom a]).
Proof. intros [c <-]. change [TAtom a] with (print [Atom a]). rewrite print_wrap by done. by eexists. Qed.
Lemma sel_wrap v x a g : balanced x -> no_or g -> selects v (join (wrap x [TAtom a]) g) -> v a = true /\ (x = [] \/ selects v x).
Proof.
  intros [c <-] (d & <- & Hd) (c0 & E & HM). change [TAtom a] with (print [Atom a]) in E. rewrite print_wrap in E by done.
  set (w := match c with [] => [Atom a] | _ => [Par c; And; Atom a] end).
  assert (E1 : print c0 = join (print w) (print d)) by exact E. clear E. rename E1 into E.
  assert (HW : w <> [] /\ Or ∉ w /\ Atom a ∈ w /\ (c = [] \/ Par c ∈ w)).
  { unfold w. destruct c as [|i c].
    - split; [done|]. split; [intros H; apply elem_of_list_singleton in H; done|]. split; [by left|by left].
    - split; [done|]. split; [intros H; repeat (apply elem_of_cons in H as [H|H]; [done|]); by apply elem_of_nil in H|]. split; [do 2 right; by left|right; by left]. }
  destruct HW as (W1 & W2 & W3 & W4).
  assert (E' : c0 = match d with [] => w | _ => w ++ And :: d end).
  { apply print_inj. rewrite E. destruct (print w) as [|k x] eqn:K; [by apply print_nil in K|]. destruct d as [|i d]; [by rewrite K|]. 
    destruct (print (i :: d)) as [|k' x'] eqn:K'; [by apply print_nil in K'|]. cbn [join]. rewrite print_app, K, (print_cons And), K'. done. }
  assert (HF : forall i, i ∈ w -> i <> And -> item_means v i = Some true).
  { intros i Hi. apply (means_factors v c0); [|done|].
    - rewrite E'. destruct d as [|i0 d]; [done|]. intros [?|[?|H]%elem_of_cons]%elem_of_app; [done|done|]. revert H. exact Hd.
    - rewrite E'. destruct d; [done|]. apply elem_of_app. by left. }
  split.
  - specialize (HF (Atom a) W3). assert (H : Some (v a) = Some true) by (by apply HF). by injection H.
  - destruct W4 as [->|W4]; [by left|right]. exists c. split; [done|]. rewrite <- item_par. by apply HF.
Qed.
Lemma sel_wrap' v x a : balanced x -> selects v (wrap x [TAtom a]) -> v a = true /\ (x = [] \/ selects v x).
Proof.
  intros HB HS. apply (sel_wrap v x a []); [done| |].
  - exists []. split; [done|]. intros H. by apply elem_of_nil in H.
  - assert (join (wrap x [TAtom a]) [] = wrap x [TAtom a]) as -> by (by destruct (wrap x [TAtom a])). done.
Qed.
Lemma wrap_some x a : wrap x [TAtom a] <> [].
Proof. by destruct x. Qed.

(** * The theorems *)
(** ** Best effort *)
Theorem C152_besteffort quotas queues e p p' : submit quotas queues e p = Some p' ->
  ("besteffort"%string ∈ p_types p' <-> p_queue p' = Some "besteffort"%string) /\ ("besteffort"%string ∈ p_types p' -> p_resa p' = 0) /\
  ("besteffort"%string ∈ p_types p -> "besteffort"%string ∈ p_types p') /\ (p_queue p = Some "besteffort"%string -> "besteffort"%string ∈ p_types p') /\
  ("besteffort"%string ∉ p_types p -> forall q, p_queue p = Some q -> p_queue p' = Some q).
Proof.
  intros H. apply submit_inv in H as (q & S). rewrite (su_be _ _ _ _ _ _ S), (su_queue _ _ _ _ _ _ S). destruct (su_resa _ _ _ _ _ _ S) as [-> HR].
  split; [|split; [done|]]; [|split; [by left|split]].
  - destruct (decide (be_type p q)) as [B|B]; [done|]. split; [done|]. intros [= ->]. exfalso. apply B. by right.
  - intros E. right. by rewrite (su_queue0 _ _ _ _ _ _ S), E.
  - intros HB q' E. rewrite (su_queue0 _ _ _ _ _ _ S), E in *. cbn [default from_option id] in *. case_decide as B; [|done]. destruct B as [?| ->]; done.
Qed.
Theorem C152_resources quotas queues e p p' g v : submit quotas queues e p = Some p' -> balanced (p_props p) -> no_or (g_prop g) ->
  "besteffort"%string ∈ p_types p' -> selects v (group_filter p' g) -> v "besteffort = 'YES'"%string = true.
Proof.
  intros H HB HG HT HS. apply submit_inv in H as (q & S). rewrite (su_be _ _ _ _ _ _ S) in HT. unfold group_filter in HS. rewrite (su_props _ _ _ _ _ _ S) in HS.
  rewrite (decide_True (P := be_type p q)) in HS by done. cbv zeta in HS.
  assert (B1 : balanced (wrap (p_props p) [TAtom "besteffort = 'YES'"%string])) by (by apply balanced_wrap).
  apply sel_wrap in HS as [_ HS]; [|clear HS; case_decide; [by apply balanced_wrap|done]|done].
  case_decide.
  - destruct HS as [HS|HS]; [by apply wrap_some in HS|]. apply sel_wrap' in HS as [_ [HS|HS]]; [by apply wrap_some in HS| |done]. by apply sel_wrap' in HS as [? _].
  - destruct HS as [HS|HS]; [by apply wrap_some in HS|]. by apply sel_wrap' in HS as [? _].
Qed.
(** ** Drained resources: every job *)
Theorem C160_drain quotas queues e p p' g v : submit quotas queues e p = Some p' -> balanced (p_props p) -> no_or (g_prop g) ->
  selects v (group_filter p' g) -> v "drain='NO'"%string = true /\ (p_props p = [] \/ selects v (p_props p)).
Proof.
  intros H HB HG HS. apply submit_inv in H as (q & S). unfold group_filter in HS. rewrite (su_props _ _ _ _ _ _ S) in HS. cbv zeta in HS.
  assert (B1 : balanced (if decide (be_type p q) then wrap (p_props p) [TAtom "besteffort = 'YES'"%string] else p_props p)) by (clear -HB; destruct (decide (be_type p q)); [by apply balanced_wrap|done]).
  assert (B2 : forall P : Prop, (if decide (be_type p q) then wrap (p_props p) [TAtom "besteffort = 'YES'"%string] else p_props p) = [] \/
     selects v (if decide (be_type p q) then wrap (p_props p) [TAtom "besteffort = 'YES'"%string] else p_props p) -> p_props p = [] \/ selects v (p_props p)).
  { intros _ HH. destruct (decide (be_type p q)); [|done]. destruct HH as [HH|HH]; [by apply wrap_some in HH|]. by apply sel_wrap' in HH as [_ ?]. }
  apply sel_wrap in HS as [Hv HS]; [|clear HS; destruct (decide ("deploy"%string ∈ p_types p')); [by apply balanced_wrap|done]|done]. split; [done|].
  apply (B2 True). destruct (decide ("deploy"%string ∈ p_types p')).
  - destruct HS as [HS|HS]; [by apply wrap_some in HS|]. by apply sel_wrap' in HS as [_ ?].
  - done.
Qed.
(** ** Deployment *)
Theorem C156_deploy quotas queues e p p' : submit quotas queues e p = Some p' -> "deploy"%string ∈ p_types p ->
  (forall n, asks_for p n -> n ∉ inside_nodes) /\
  forall g v, balanced (p_props p) -> no_or (g_prop g) -> selects v (group_filter p' g) -> v "deploy = 'YES'"%string = true.
Proof.
  intros H HT. apply submit_inv in H as (q & S). apply (su_kept _ _ _ _ _ _ S) in HT; [|done|done]. split.
  - intros n Hn. apply asked_in in Hn. by apply (su_deploy _ _ _ _ _ _ S HT).
  - intros g v HB HG HS. unfold group_filter in HS. rewrite (su_props _ _ _ _ _ _ S) in HS. cbv zeta in HS. rewrite (decide_True (P := "deploy"%string ∈ p_types p')) in HS by done.
    assert (B1 : balanced (if decide (be_type p q) then wrap (p_props p) [TAtom "besteffort = 'YES'"%string] else p_props p)) by (clear -HB; destruct (decide (be_type p q)); [by apply balanced_wrap|done]).
    apply sel_wrap in HS as [_ HS]; [|by apply balanced_wrap|done]. destruct HS as [HS|HS]; [by apply wrap_some in HS|]. by apply sel_wrap' in HS as [? _].
Qed.
(** ** Queues and users *)
Theorem C153_admin quotas queues e p p' : submit quotas queues e p = Some p' ->
  (p_queue p' = Some "admin"%string -> exists l, admins e = Some l /\ p_user p ∈ l) /\
  p_user p' = p_user p /\ p_user p <> "root"%string /\ p_user p <> "oar"%string /\ (exists q, p_queue p' = Some q /\ q ∈ queues) /\
  ("no_quotas"%string ∈ p_types p' -> quotas = true /\ p_queue p' = Some "admin"%string).
Proof.
  intros H. apply submit_inv in H as (q & S). destruct (su_user _ _ _ _ _ _ S) as (U1 & U2 & U3). split; [|split; [done|split; [done|split; [done|split; [by apply S|]]]]].
  - rewrite (su_queue _ _ _ _ _ _ S). case_decide; [done|]. intros [= ->]. by apply (su_admin _ _ _ _ _ _ S).
  - intros HT. apply (su_types _ _ _ _ _ _ S) in HT as [HT|(_ & ? & ?)]; [vm_compute in HT; discriminate|done].
Qed.
(** ** Walltimes *)
Theorem C155_walltime quotas queues e p p' : submit quotas queues e p = Some p' -> p_job_type p' = p_job_type p /\
  Forall2 (fun r r' => r'.1 = r.1 /\ exists w, r'.2 = Some w /\ w <> 0 /\
    (p_job_type p = "INTERACTIVE"%string -> p_resa p = 0 -> w <= 12 * 3600) /\
    (r.2 = None \/ r.2 = Some 0 -> w = 2 * 3600) /\
    (forall w0, r.2 = Some w0 -> w0 <> 0 -> w <> w0 -> p_job_type p = "INTERACTIVE"%string /\ p_resa p = 0 /\ 12 * 3600 < w0 /\ w = 12 * 3600)) (p_req p) (p_req p').
Proof.
  intros H. apply submit_inv in H as (q & S). split; [apply S|]. rewrite (su_req _ _ _ _ _ _ S). apply Forall2_fmap_r. apply Forall2_same_length_lookup_2; [done|]. intros i r r' H1 H2. rewrite H1 in H2. injection H2 as <-.
  cbn [fst snd]. split; [done|]. eexists. split; [reflexivity|]. cbv zeta. destruct r.2 as [w|] eqn:E.
  - destruct (w =? 0) eqn:W; case_decide as D; (split; [lia|]); (split; [first [intros; exfalso; by apply D|lia]|]); (split; [intros [?|[= ->]]; [done|lia]|]); intros w0 [= <-] ? ?; try lia.
    destruct D as [D1 D2]. repeat split; try done; lia.
  - case_decide as D; (split; [lia|]); (split; [first [intros; exfalso; by apply D|lia]|]); (split; [lia|done]).
Qed.
(** ** System properties *)
Theorem C157_system quotas queues e p p' : submit quotas queues e p = Some p' -> forall n, asks_for p' n -> asks_for p n /\ n ∉ system_names.
Proof.
  intros H n Hn. apply submit_inv in H as (q & S). assert (Hn' : asks_for p n).
  { destruct Hn as (r & g & k & Hr & Hg & Hk). rewrite (su_req _ _ _ _ _ _ S) in Hr. apply elem_of_list_fmap in Hr as (r0 & -> & Hr). by exists r0, g, k. }
  split; [done|]. apply asked_in in Hn'. by apply (su_names _ _ _ _ _ _ S).
Qed.
(** ** Reservations *)
Lemma waiting_spec u j : waiting_resa u j = true <-> j.1.1 = u /\ j.1.2 ∈ ["toSchedule"; "Schedule"]%string /\ j.2 ∈ ["Waiting"; "Hold"]%string.
Proof. unfold waiting_resa. rewrite !andb_true_iff, !bool_decide_eq_true. tauto. Qed.
Lemma filter_length_ext {A} (P Q : A -> Prop) `{forall x, Decision (P x)} `{forall x, Decision (Q x)} l : (forall x, P x <-> Q x) -> length (filter P l) = length (filter Q l).
Proof. intros E. f_equal. apply list_filter_iff. done. Qed.
Lemma filter_insert_le {A} (P : A -> Prop) {Pd : forall x, Decision (P x)} (l : list A) i x y : l !! i = Some x -> (P y -> P x) -> (length (filter P (<[i := y]> l)) <= length (filter P l))%nat.
Proof.
  revert i. induction l as [|a l IH]; intros [|i] H HP; try done.
  - injection H as ->. cbn [insert list_insert]. rewrite !filter_cons. destruct (decide (P y)), (decide (P x)); cbn; try lia. tauto.
  - change (<[S i := y]> (a :: l)) with (a :: <[i := y]> l). rewrite !filter_cons. specialize (IH i H HP). destruct (decide (P a)); cbn [length]; lia.
Qed.
(** Among the reservations not yet examined by the scheduler, never more than two per user. *)
Theorem C154_pending quotas queues grp un rows rows' u : existsb (search u) un = false -> reaches quotas queues grp un rows rows' ->
  (reservations u ["toSchedule"; "Schedule"]%string rows <= 2)%nat -> (reservations u ["toSchedule"; "Schedule"]%string rows' <= 2)%nat.
Proof.
  intros HU HR. induction HR as [|a b c HS HR IH]; [done|]. intros H. apply IH. clear IH HR c. unfold reservations in *. destruct HS as [rows p p' s Hs HS|rows i v r s Hi|rows i v r s s' Hi Hs].
  - rewrite filter_app, app_length. destruct (decide (p_resa p = 0)) as [Z0|Z0].
    + rewrite (proj2 (Z.eqb_eq _ _) Z0). rewrite filter_cons_False; [rewrite filter_nil, Nat.add_0_r; exact H|].
      intros (_ & X & _). cbn in X. apply (bool_decide_eq_true_2 _) in X. vm_compute in X. discriminate.
    + destruct (decide (p_user p = u)) as [E|E].
      * apply submit_inv in HS as (q & S). destruct (su_limit _ _ _ _ _ _ S Z0) as [X|X]; [cbn [unlimited] in X; rewrite E in X; congruence|]. cbn [job_rows] in X. rewrite E in X.
        rewrite (filter_length_ext _ (fun j : row => waiting_resa u j = true)) by (intros j; by rewrite waiting_spec).
        pose proof (filter_length (fun j : row => j.1.1 = u /\ j.1.2 ∈ ["toSchedule"; "Schedule"]%string /\ j.2 ∈ ["Waiting"; "Hold"]%string) [(p_user p, if (p_resa p =? 0)%Z then "None"%string else "toSchedule"%string, s)]) as L. cbn [length] in L. unfold row in *. lia.
      * rewrite filter_cons_False by (intros (X & _); done). rewrite filter_nil, Nat.add_0_r. exact H.
  - etrans; [|exact H]. eapply filter_insert_le; [exact Hi|]. intros (_ & X & _). cbn in X. apply (bool_decide_eq_true_2 _) in X. vm_compute in X. discriminate.
  - etrans; [|exact H]. eapply filter_insert_le; [exact Hi|]. cbn. intros (X1 & X2 & X3). split; [done|]. split; [done|]. by apply Hs.
Qed.
(** Once examined they are not counted any more (their state is Scheduled, the rule looks for Schedule): any number. *)
Definition resa_params : params := mkParams "bob" (Some "default"%string) [] [] 5000 "PASSIVE" [([mkGroup [] [("network_address"%string, 1)]], Some 3600)] [].
Definition resa_params' : params := mkParams "bob" (Some "default"%string) [] [TAtom "drain='NO'"%string] 5000 "PASSIVE" [([mkGroup [] [("network_address"%string, 1)]], Some 3600)] [TAtom "drain='NO'"%string].
Theorem C154_accepted_refuted n : exists rows, reaches false ["default"%string] None [] [] rows /\ reservations "bob" ["toSchedule"; "Scheduled"]%string rows = n.
Proof.
  assert (H : reaches false ["default"%string] None [] [] (replicate n ("bob", "Scheduled", "Waiting")%string)).
  { induction n as [|n IH]; [apply rtc_refl|]. eapply rtc_transitive; [exact IH|]. clear IH. set (l := replicate n _).
    assert (F : filter (fun j => waiting_resa "bob" j = true) l = []).
    { unfold l. clear l. induction n as [|n IH]; [done|]. cbn [replicate]. rewrite filter_cons_False by (vm_compute; discriminate). exact IH. }
    eapply rtc_l.
    - apply (h_submit _ _ _ _ l resa_params resa_params' "Waiting"); [by left|]. unfold submit, admit, the_rules. cbn [apply_rules]. cbv zeta. cbv iota.
      set (e := mkEnv None [] l). set (p3 := set_after resa_params [TAtom "drain='NO'"%string]).
      assert (R11 : r11 e p3 = Some p3).
      { unfold r11. change (p_resa p3 =? 0) with false. cbn [unlimited existsb job_rows e]. change (p_user p3) with "bob"%string. change (job_rows e) with l. rewrite F. reflexivity. }
      change (r01 e resa_params) with (Some resa_params). cbv iota. change (r02 e resa_params) with (Some resa_params). cbv iota.
      change (r03 e resa_params) with (Some p3). cbv iota.
      change (r04 e p3) with (Some p3). cbv iota. change (r05 e p3) with (Some p3). cbv iota. change (r06 e p3) with (Some p3). cbv iota.
      change (r07 e p3) with (Some p3). cbv iota. change (r08 e p3) with (Some p3). cbv iota. change (r09 e p3) with (Some p3). cbv iota.
      rewrite R11. change (r13 e p3) with (Some p3). cbv iota. change (r14 e p3) with (Some p3). cbv iota. change (r15 e p3) with (Some p3). cbv iota. reflexivity.
    - eapply rtc_l; [|apply rtc_refl].
      assert (E : replicate (S n) ("bob", "Scheduled", "Waiting")%string = <[n := ("bob", "Scheduled", "Waiting")%string]> (l ++ [("bob", "toSchedule", "Waiting")%string])).
      { unfold l. rewrite replicate_S_end. rewrite insert_app_r_alt by (by rewrite replicate_length). rewrite replicate_length, Nat.sub_diag. done. }
      rewrite E. apply (h_accept _ _ _ _ _ n "bob" "toSchedule" "Waiting"). unfold l. rewrite lookup_app_r by (by rewrite replicate_length). by rewrite replicate_length, Nat.sub_diag. }
  eexists. split; [exact H|]. unfold reservations. clear H. induction n as [|n IH]; [done|]. cbn [replicate]. rewrite filter_cons_True.
  - cbn [length]. f_equal. exact IH.
  - split; [done|]. split; by_dec.
Qed.
(** The list of privileged users is searched for the name as a part of a line: "bo" profits from "bob". *)
Theorem C154_part_of_name_refuted : existsb (search "bo") ["alice"; "bob"]%string = true /\ "bo"%string ∉ ["alice"; "bob"]%string.
Proof. split; [reflexivity|]. by_dec. Qed.
(** ** Types *)
Lemma word_char_spec c : word_char c = true <-> c ∈ name_chars.
Proof.
  assert (H : word_char c = bool_decide (c ∈ name_chars)) by (destruct c as [[] [] [] [] [] [] [] []]; vm_compute; reflexivity). rewrite H. apply bool_decide_eq_true.
Qed.
Lemma word_spec s : word s = true <-> forall c, c ∈ list_ascii_of_string s -> c ∈ name_chars.
Proof.
  induction s as [|c s IH]; cbn [word list_ascii_of_string]; [split; [intros _ c H; by apply elem_of_nil in H|done]|]. rewrite andb_true_iff, IH, word_char_spec. split.
  - intros [H1 H2] d [->|H]%elem_of_cons; [done|by apply H2].
  - intros H. split; [apply H; by left|]. intros d Hd. apply H. by right.
Qed.
Lemma after_prefix_spec x : forall s r, after_prefix x s = Some r <-> s = (x ++ r)%string.
Proof.
  induction x as [|c x IH]; intros s r; cbn [after_prefix].
  - split; [by intros [= ->]|by intros ->].
  - destruct s as [|d s]; [done|]. destruct (Ascii.eqb c d) eqn:E.
    + apply Ascii.eqb_eq in E as ->. rewrite IH. split; [by intros ->|]. intros H. change (String d x ++ r)%string with (String d (x ++ r)) in H. by injection H as ->.
    + split; [done|]. intros H. change (String c x ++ r)%string with (String c (x ++ r)) in H. injection H as -> _. by rewrite Ascii.eqb_refl in E.
Qed.
Lemma named_spec x t : named x t = true <-> exists s, t = (x ++ s)%string /\ name_only s.
Proof.
  unfold named, name_only. split.
  - destruct (after_prefix x t) as [s|] eqn:E; [|done]. apply after_prefix_spec in E as ->. rewrite andb_true_iff, negb_true_iff, bool_decide_eq_false, word_spec. intros [? ?]. by exists s.
  - intros (s & -> & H1 & H2). rewrite (proj2 (after_prefix_spec x (x ++ s) s)) by done. rewrite andb_true_iff, negb_true_iff, bool_decide_eq_false, word_spec. done.
Qed.
Lemma type_form_spec t : type_form t = true <-> known_type t.
Proof.
  unfold type_form. rewrite !orb_true_iff, bool_decide_eq_true, !named_spec. split.
  - intros H. destruct H as [[[[H|H]|H]|H]|H].
    + unfold plain_types in H. do 8 (apply elem_of_cons in H as [->|H]; [apply k_plain; by_dec|]).
      repeat (apply elem_of_cons in H as [->|H]; [match goal with |- known_type ?t => let a := eval vm_compute in t in change (known_type a) end;
        first [apply (k_sharing "*" "*"); by_dec|apply (k_sharing "*" "name"); by_dec|apply (k_sharing "user" "*"); by_dec|apply (k_sharing "user" "name"); by_dec
              |apply (k_sharing "*" "user"); by_dec|apply (k_sharing "name" "*"); by_dec|apply (k_sharing "name" "user"); by_dec]|]). by apply elem_of_nil in H.
    + destruct H as (s & -> & H). apply (k_named "container" s); [by_dec|done].
    + destruct H as (s & -> & H). apply (k_named "placeholder" s); [by_dec|done].
    + destruct H as (s & -> & H). apply (k_named "allowed" s); [by_dec|done].
    + destruct H as (s & -> & H). apply (k_named "inner" s); [by_dec|done].
  - intros [t' H|a b H|k s H Hs].
    + left; left; left; left. repeat (apply elem_of_cons in H as [->|H]; [by_dec|]). by apply elem_of_nil in H.
    + left; left; left; left. repeat (apply elem_of_cons in H as [H|H]; [injection H as -> ->; by_dec|]). by apply elem_of_nil in H.
    + repeat (apply elem_of_cons in H as [->|H]; [first [left; left; left; right; by exists s|left; left; right; by exists s|left; right; by exists s|right; by exists s]|]). by apply elem_of_nil in H.
Qed.
Lemma chop_spec t : chop t = t \/ t = (chop t ++ String newline "")%string.
Proof.
  induction t as [|c t IH]; [by left|]. cbn [chop]. destruct t as [|d t].
  - destruct (Ascii.eqb c newline) eqn:E; [|by left]. apply Ascii.eqb_eq in E as ->. by right.
  - destruct IH as [IH|IH]; [left; by rewrite IH|right]. change (String c (chop (String d t)) ++ String newline "")%string with (String c (chop (String d t) ++ String newline "")). by rewrite <- IH.
Qed.
Theorem C158_types quotas queues e p p' t : submit quotas queues e p = Some p' -> t ∈ p_types p' ->
  known_type t \/ (exists t', known_type t' /\ t = (t' ++ String newline "")%string) \/ (t = "no_quotas"%string /\ quotas = true /\ p_queue p' = Some "admin"%string).
Proof.
  intros H Ht. apply submit_inv in H as (q & S). apply (su_types _ _ _ _ _ _ S) in Ht as [Ht|Ht]; [|by right; right]. unfold type_ok in Ht. apply orb_true_iff in Ht as [Ht|Ht].
  - left. by apply type_form_spec.
  - apply type_form_spec in Ht. destruct (chop_spec t) as [E|E]; [left; by rewrite <- E|right; left]. by exists (chop t).
Qed.
(** ** Order of the files *)
Lemma ascii_compare_spec c d : Ascii.compare c d = N.compare (N_of_ascii c) (N_of_ascii d).
Proof. done. Qed.
Lemma leb_cons c a d b : String.leb (String c a) (String d b) = true <-> (N_of_ascii c < N_of_ascii d)%N \/ (c = d /\ String.leb a b = true).
Proof.
  unfold String.leb. cbn [String.compare]. rewrite ascii_compare_spec. destruct (N.compare_spec (N_of_ascii c) (N_of_ascii d)) as [E|E|E].
  - assert (c = d) as -> by (rewrite <- (ascii_N_embedding c), <- (ascii_N_embedding d); by f_equal). split; [intros H; by right|]. intros [?|[_ ?]]; [lia|done].
  - split; [by left|done].
  - split; [done|]. intros [?|[-> _]]; lia.
Qed.
Global Instance name_le_trans : Transitive name_le.
Proof.
  intros [a ?] [b ?] [c ?]. unfold name_le. cbn [fst]. revert b c. induction a as [|x a IH]; intros b c H1 H2; [by destruct c|].
  destruct b as [|y b]; [done|]. destruct c as [|z c]; [done|]. apply leb_cons in H1. apply leb_cons in H2. apply leb_cons. destruct H1 as [H1|[-> H1]], H2 as [H2|[-> H2]]; try (left; lia).
  right. split; [done|]. by eapply IH.
Qed.
Global Instance name_le_total : Total name_le.
Proof. intros a b. unfold name_le. destruct (String.leb_total a.1 b.1) as [?|?]; [by left|by right]. Qed.
Lemma digit_bounds c : is_digit c = true -> 0 <= digit_value c <= 9.
Proof. unfold is_digit, digit_value. rewrite andb_true_iff, !N.leb_le. lia. Qed.
Lemma value_mono s : forall a b, a <= b -> value_from a s <= value_from b s.
Proof. induction s as [|c s IH]; intros a b H; cbn [value_from]; [done|]. apply IH. lia. Qed.
Lemma digits_of_digits s : digits_of (digits_of s) = digits_of s.
Proof. induction s as [|c s IH]; [done|]. cbn [digits_of]. destruct (is_digit c) eqn:E; [|done]. cbn [digits_of]. by rewrite E, IH. Qed.
Lemma value_lt n : forall s t a b, String.length (digits_of s) = n -> String.length (digits_of t) = n -> a < b -> value_from a (digits_of s) < value_from b (digits_of t).
Proof.
  induction n as [|n IH]; intros s t a b Hs Ht H.
  - destruct (digits_of s); [|done]. destruct (digits_of t); done.
  - destruct s as [|c s]; [done|]. destruct t as [|d t]; [done|]. cbn [digits_of] in *. destruct (is_digit c) eqn:Ec; [|done]. destruct (is_digit d) eqn:Ed; [|done].
    cbn [String.length value_from] in *. apply digit_bounds in Ec, Ed. apply IH; [congruence|congruence|lia].
Qed.
Lemma leb_number n : forall s t a, String.length (digits_of s) = n -> String.length (digits_of t) = n -> String.leb s t = true -> value_from a (digits_of s) <= value_from a (digits_of t).
Proof.
  induction n as [|n IH]; intros s t a Hs Ht H.
  - destruct (digits_of s); [|done]. destruct (digits_of t); done.
  - destruct s as [|c s]; [done|]. destruct t as [|d t]; [done|]. apply leb_cons in H. cbn [digits_of] in *. destruct (is_digit c) eqn:Ec; [|done]. destruct (is_digit d) eqn:Ed; [|done].
    cbn [String.length value_from] in *. destruct H as [H|[-> H]].
    + apply Z.lt_le_incl. apply (value_lt n); [congruence|congruence|]. unfold digit_value. lia.
    + apply IH; [congruence|congruence|done].
Qed.
Lemma sorted_filter {A} (R : A -> A -> Prop) (P : A -> Prop) {Pd : forall x, Decision (P x)} l : StronglySorted R l -> StronglySorted R (filter P l).
Proof.
  induction 1 as [|a l HS IH HF]; [constructor|]. rewrite filter_cons. destruct (decide (P a)); [|done]. constructor; [done|]. rewrite Forall_forall in *. intros x Hx. apply HF. by apply elem_of_list_filter in Hx as [_ ?].
Qed.
Lemma is_digit_spec c : is_digit c = true <-> c ∈ decimal.
Proof.
  assert (H : is_digit c = bool_decide (c ∈ decimal)) by (destruct c as [[] [] [] [] [] [] [] []]; vm_compute; reflexivity). rewrite H. apply bool_decide_eq_true.
Qed.
Lemma numbered_digits name ds : numbered name ds -> digits_of name = ds /\ exists rest, skip_digits name = String "_" rest.
Proof.
  intros (_ & HD & rest & ->). induction ds as [|c ds IH].
  - split; [done|]. by exists rest.
  - change (String c ds ++ String "_" rest)%string with (String c (ds ++ String "_" rest)). cbn [digits_of skip_digits]. rewrite (proj2 (is_digit_spec c)) by (apply HD; by left).
    destruct IH as (I1 & I2); [intros d Hd; apply HD; by right|]. by rewrite I1.
Qed.
Lemma digits_split s : s = (digits_of s ++ skip_digits s)%string.
Proof. induction s as [|c s IH]; [done|]. cbn [digits_of skip_digits]. destruct (is_digit c); [|done]. change (String c (digits_of s) ++ skip_digits s)%string with (String c (digits_of s ++ skip_digits s)). by rewrite <- IH. Qed.
Lemma digits_are s : forall c, c ∈ list_ascii_of_string (digits_of s) -> c ∈ decimal.
Proof.
  induction s as [|d s IH]; intros c Hc; cbn [digits_of] in Hc; [by apply elem_of_nil in Hc|]. destruct (is_digit d) eqn:E; [|by apply elem_of_nil in Hc].
  cbn [list_ascii_of_string] in Hc. apply elem_of_cons in Hc as [->|Hc]; [by apply is_digit_spec|by apply IH].
Qed.
Lemma is_rule_spec name : is_rule name = true <-> exists ds, numbered name ds.
Proof.
  unfold is_rule. rewrite andb_true_iff, negb_true_iff, bool_decide_eq_false. split.
  - intros [H1 H2]. exists (digits_of name). split; [done|]. split; [apply digits_are|]. destruct (skip_digits name) as [|c rest] eqn:E; [done|]. apply Ascii.eqb_eq in H2 as ->.
    exists rest. rewrite <- E. apply digits_split.
  - intros (ds & H). destruct (numbered_digits _ _ H) as (E1 & rest & E2). rewrite E1, E2. split; [apply H|done].
Qed.
Theorem C159_order files n : (forall f ds, f ∈ files -> numbered f.1 ds -> String.length ds = n) ->
  (forall i j f g ds es, (i < j)%nat -> chosen files !! i = Some f -> chosen files !! j = Some g -> numbered f.1 ds -> numbered g.1 es -> value ds <= value es) /\
  (forall f, f ∈ chosen files <-> f ∈ files /\ exists ds, numbered f.1 ds) /\ rules_text files = String.concat "" (snd <$> chosen files).
Proof.
  intros Hn. assert (HI : forall f, f ∈ chosen files <-> f ∈ files /\ exists ds, numbered f.1 ds).
  { intros f. unfold chosen. rewrite elem_of_list_filter, merge_sort_Permutation, is_rule_spec. tauto. }
  split; [|split; [exact HI|done]]. assert (HS : StronglySorted name_le (chosen files)) by (apply sorted_filter; apply (StronglySorted_merge_sort name_le)).
  intros i j f g ds es Hij Hf Hg Nf Ng. assert (L1 := Hn f ds (proj1 (proj1 (HI f) (elem_of_list_lookup_2 _ _ _ Hf))) Nf). assert (L2 := Hn g es (proj1 (proj1 (HI g) (elem_of_list_lookup_2 _ _ _ Hg))) Ng).
  assert (HL : name_le f g).
  { clear -HS Hij Hf Hg. revert i j Hij Hf Hg. induction HS as [|a l HS IH HL]; intros [|i] [|j] Hij Hf Hg; try done; try lia.
    - injection Hf as ->. rewrite Forall_forall in HL. apply HL. apply (elem_of_list_lookup_2 l j). exact Hg.
    - apply (IH i j); [lia|done|done]. }
  destruct (numbered_digits _ _ Nf) as [E1 _]. destruct (numbered_digits _ _ Ng) as [E2 _]. unfold value. rewrite <- E1, <- E2. apply (leb_number n); [by rewrite E1|by rewrite E2|done].
Qed.
Theorem C159_number_refuted : (chosen [("2_limit.py", "b"); ("10_default.py", "a")]%string).*1 = ["10_default.py"; "2_limit.py"]%string.
Proof. vm_compute. reflexivity. Qed.
(** A file whose last line is not ended swallows the first line of the next. *)
Theorem C159_glued_refuted a b : rules_text [("01_a.py", "# a comment"); ("02_b.py", a); ("03_c.py", b)]%string = ("# a comment" ++ a ++ b)%string.
Proof.
  unfold rules_text. assert (chosen [("01_a.py", "# a comment"); ("02_b.py", a); ("03_c.py", b)]%string = [("01_a.py", "# a comment"); ("02_b.py", a); ("03_c.py", b)]%string) as ->; [|done].
  unfold chosen. assert (merge_sort name_le [("01_a.py", "# a comment"); ("02_b.py", a); ("03_c.py", b)]%string = [("01_a.py", "# a comment"); ("02_b.py", a); ("03_c.py", b)]%string) as -> by reflexivity. reflexivity.
Qed.

(** ** Examples and ways round *)
Definition env0 : env := mkEnv (Some ["alice"%string]) [] [].
Definition user_job (q : option string) (types : list string) (props : list tok) (g : list tok) (name : string) (w : option Z) : params :=
  mkParams "bob" q types props 0 "INTERACTIVE" [([mkGroup g [(name, 2)]], w)] [].
Definition outcome (o : option params) : option (option string * list string * list tok * list (option Z)) :=
  match o with Some p => Some (p_queue p, p_types p, p_props p, snd <$> p_req p) | None => None end.
Theorem C152_example :
  outcome (submit false ["default"; "besteffort"]%string env0 (user_job None ["besteffort"%string] [TAtom "gpu='YES'"%string] [] "network_address" None)) =
    Some (Some "besteffort"%string, ["besteffort"%string],
      [TOpen; TOpen; TAtom "gpu='YES'"%string; TClose; TAnd; TAtom "besteffort = 'YES'"%string; TClose; TAnd; TAtom "drain='NO'"%string], [Some 7200]) /\
  outcome (submit false ["default"; "besteffort"]%string env0 (user_job (Some "besteffort"%string) [] [] [] "network_address" (Some 90000))) =
    Some (Some "besteffort"%string, ["besteffort"%string], [TOpen; TAtom "besteffort = 'YES'"%string; TClose; TAnd; TAtom "drain='NO'"%string], [Some 43200]) /\
  submit false ["default"; "admin"]%string env0 (user_job (Some "admin"%string) [] [] [] "network_address" None) = None.
Proof. repeat split; vm_compute; reflexivity. Qed.
(** An OR in the condition of a group takes the job out of every condition added by the rules. *)
Definition cluster_a (s : string) : bool := bool_decide (s = "cluster='a'"%string).
Lemma selects_intro v c : means v c = Some true -> selects v (print c).
Proof. intros H. by exists c. Qed.
Theorem C152_or_refuted : exists p p' g, submit false ["besteffort"%string] env0 p = Some p' /\ "besteffort"%string ∈ p_types p' /\ (exists r, r ∈ p_req p' /\ g ∈ r.1) /\
  balanced (p_props p) /\ balanced (g_prop g) /\ selects cluster_a (group_filter p' g) /\ cluster_a "besteffort = 'YES'" = false /\ cluster_a "drain='NO'" = false.
Proof.
  set (g := mkGroup [TAtom "gpu='YES'"%string; TOr; TAtom "cluster='a'"%string] [("network_address"%string, 2)]).
  set (p' := mkParams "bob" (Some "besteffort"%string) ["besteffort"%string] [TOpen; TAtom "besteffort = 'YES'"%string; TClose; TAnd; TAtom "drain='NO'"%string] 0 "INTERACTIVE" [([g], Some 7200)] [TAtom "drain='NO'"%string]).
  exists (user_job None ["besteffort"%string] [] (g_prop g) "network_address" None), p', g.
  split; [vm_compute; reflexivity|]. split; [by left|]. split; [exists ([g], Some 7200); split; by left|]. split; [by exists []|]. split; [by exists [Atom "gpu='YES'"; Or; Atom "cluster='a'"]%string|].
  split; [|split; reflexivity]. change (group_filter p' g) with (print [Par [Atom "besteffort = 'YES'"]; And; Atom "drain='NO'"; And; Atom "gpu='YES'"; Or; Atom "cluster='a'"]%string). apply selects_intro. reflexivity.
Qed.
(** So do parentheses that close those of the rules, in the condition of the job. *)
Theorem C152_parentheses_refuted : exists p p' g, submit false ["besteffort"%string] env0 p = Some p' /\ "besteffort"%string ∈ p_types p' /\ g_prop g = [] /\
  p_props p = [TAtom "cluster='a'"%string; TClose; TClose; TOr; TOpen; TOpen; TAtom "cluster='b'"%string] /\
  selects cluster_a (group_filter p' g) /\ cluster_a "besteffort = 'YES'" = false /\ cluster_a "drain='NO'" = false.
Proof.
  set (x := [TAtom "cluster='a'"%string; TClose; TClose; TOr; TOpen; TOpen; TAtom "cluster='b'"%string]). set (g := mkGroup [] [("network_address"%string, 2)]).
  set (c := [Par [Par [Atom "cluster='a'"%string]]; Or; Par [Par [Atom "cluster='b'"%string]; And; Atom "besteffort = 'YES'"%string]; And; Atom "drain='NO'"%string]).
  exists (user_job None ["besteffort"%string] x [] "network_address" None),
    (mkParams "bob" (Some "besteffort"%string) ["besteffort"%string] (print c) 0 "INTERACTIVE" [([g], Some 7200)] [TAtom "drain='NO'"%string]), g.
  split; [vm_compute; reflexivity|]. split; [by left|]. split; [done|]. split; [done|]. split; [|split; reflexivity]. apply selects_intro. reflexivity.
Qed.
(** deploy=standby is accepted but is no deploy for the rules. *)
Theorem C156_standby_refuted : exists p p', submit false ["default"%string] env0 p = Some p' /\ p_types p' = ["deploy=standby"%string] /\ asks_for p' "resource_id" /\
  p_props p' = [TAtom "drain='NO'"%string].
Proof.
  exists (user_job (Some "default"%string) ["deploy=standby"%string] [] [] "resource_id" None).
  eexists. split; [vm_compute; reflexivity|]. split; [done|]. split; [|done].
  exists ([mkGroup [] [("resource_id"%string, 2)]], Some 7200), (mkGroup [] [("resource_id"%string, 2)]), 2. split; [by left|]. split; by left.
Qed.
(** A final newline passes the check of types, and the job is not best effort. *)
Theorem C158_newline_refuted : exists p p', submit false ["default"%string] env0 p = Some p' /\ p_types p' = [("besteffort" ++ String newline "")%string] /\ p_queue p' = Some "default"%string.
Proof. exists (user_job None [("besteffort" ++ String newline "")%string] [] [] "network_address" None). eexists. split; [vm_compute; reflexivity|]. done. Qed.
(** The type noop, which the server knows, is refused. *)
Theorem C158_noop_refuted quotas queues e p : "noop"%string ∈ p_types p -> submit quotas queues e p = None.
Proof.
  intros H. destruct (submit quotas queues e p) as [p'|] eqn:E; [|done]. exfalso. apply submit_inv in E as (q & S). apply (su_kept _ _ _ _ _ _ S) in H; [|done|done].
  apply (su_types _ _ _ _ _ _ S) in H as [H|(H & _)]; [vm_compute in H; discriminate|done].
Qed.
Print Assumptions C152_besteffort.
Print Assumptions C152_resources.
Print Assumptions C160_drain.
Print Assumptions C156_deploy.
Print Assumptions C153_admin.
Print Assumptions C155_walltime.
Print Assumptions C157_system.
Print Assumptions C154_pending.
Print Assumptions C154_accepted_refuted.
Print Assumptions C154_part_of_name_refuted.
Print Assumptions C158_types.
Print Assumptions C159_order.
Print Assumptions C159_number_refuted.
Print Assumptions C159_glued_refuted.
Print Assumptions C152_example.
Print Assumptions C152_or_refuted.
Print Assumptions C152_parentheses_refuted.
Print Assumptions C156_standby_refuted.
Print Assumptions C158_newline_refuted.
Print Assumptions C158_noop_refuted.
