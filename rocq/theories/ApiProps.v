(** The REST API: C42, C70, C71, C72. *)
From Coq Require Import Ascii.
From Verif Require Import Base ApiSpec ApiModel.

(** * C42. Revoked tokens.
    The dates of the tokens and of the revocation file are both in UTC; both are read by the server
    as local dates. *)
(** The revocation date (UTC) that applies to a user. *)
Definition applies (rv : revoked) (u : string) (z : Z) : Prop :=
  r_global rv = Some (Face z) \/ exists l, r_users rv = Some l /\ lookup_user u l = Some (Face z).
(** Every date of the file is a date, and no name is given twice. *)
Definition dates_ok (rv : revoked) : Prop :=
  (forall x, r_global rv = Some x -> exists z, x = Face z) /\
  (forall l u x, r_users rv = Some l -> lookup_user u l = Some x -> exists z, x = Face z).
Definition increasing (mktime : Z -> Z) : Prop := forall a b, a < b -> mktime a < mktime b.
Lemma increasing_iff mk a b : increasing mk -> mk a < mk b <-> a < b.
Proof. intros H. split; [|apply H]. intros Hl. destruct (Z_lt_le_dec a b) as [|Hle]; [done|]. assert (a = b \/ b < a) as [->|Hba] by lia; [lia|]. apply H in Hba. lia. Qed.
Lemma auth_face mk rv now key t u z : increasing mk -> dates_ok rv -> get_token_data key now t = Some t -> t_user t = Some u -> u <> ""%string -> t_date t = Face z ->
  (authenticate mk key rv now t = Ok Refused /\ (exists r, applies rv u r /\ z < r)) \/
  (authenticate mk key rv now t = Ok (User u) /\ (forall r, applies rv u r -> r <= z)).
Proof.
  intros Hm [Hg Hu] Hd Eu Hne Ez. unfold authenticate, need_authentication, applies. rewrite Hd, Ez, Eu. cbn [check_reservation rbind].
  destruct (r_global rv) as [g|] eqn:Eg.
  - destruct (Hg _ eq_refl) as [rg ->]. cbn [check_reservation rbind later]. destruct (mk z <? mk rg) eqn:El.
    + left. split; [done|]. exists rg. split; [by left|]. apply (increasing_iff mk); [done|lia].
    + assert (rg <= z) by (destruct (Z_lt_le_dec z rg) as [Hlt|]; [apply Hm in Hlt; lia|done]).
      destruct (r_users rv) as [l|] eqn:El2; cbn [rbind].
      * destruct (lookup_user u l) as [x|] eqn:Ex.
        -- destruct (Hu _ _ _ eq_refl Ex) as [ru ->]. cbn [check_reservation rbind later]. destruct (mk z <? mk ru) eqn:El3.
           ++ left. split; [done|]. exists ru. split; [right; by exists l|]. apply (increasing_iff mk); [done|lia].
           ++ right. rewrite bool_decide_eq_false_2 by done. split; [done|]. intros r [[= <-]|(l' & [= <-] & E)]; [done|]. rewrite Ex in E. injection E as <-. destruct (Z_lt_le_dec z ru) as [Hlt|]; [apply Hm in Hlt; lia|done].
        -- right. cbn [rbind]. rewrite bool_decide_eq_false_2 by done. split; [done|]. intros r [[= <-]|(l' & [= <-] & E)]; [done|congruence].
      * right. rewrite bool_decide_eq_false_2 by done. split; [done|]. intros r [[= <-]|(l' & [=] & E)]; done.
  - cbn [rbind]. destruct (r_users rv) as [l|] eqn:El2; cbn [rbind].
    + destruct (lookup_user u l) as [x|] eqn:Ex.
      * destruct (Hu _ _ _ eq_refl Ex) as [ru ->]. cbn [check_reservation rbind later]. destruct (mk z <? mk ru) eqn:El3.
        -- left. split; [done|]. exists ru. split; [right; by exists l|]. apply (increasing_iff mk); [done|lia].
        -- right. rewrite bool_decide_eq_false_2 by done. split; [done|]. intros r [[=]|(l' & [= <-] & E)]. rewrite Ex in E. injection E as <-. destruct (Z_lt_le_dec z ru) as [Hlt|]; [apply Hm in Hlt; lia|done].
      * right. cbn [rbind]. rewrite bool_decide_eq_false_2 by done. split; [done|]. intros r [[=]|(l' & [= <-] & E)]. congruence.
    + right. rewrite bool_decide_eq_false_2 by done. split; [done|]. intros r [[=]|(l' & [=] & E)].
Qed.
(** In a time zone whose clock only goes forward at its own pace: exactly the tokens issued before a
    revocation date that applies are refused. *)
Theorem C42_tokens_partial mk key minutes rv issued now u : increasing mk -> dates_ok rv -> u <> ""%string -> now <= issued + 60 * minutes ->
  let t := create_access_token key minutes issued u in
  ((exists r, applies rv u r /\ issued < r) -> authenticate mk key rv now t = Ok Refused) /\
  ((forall r, applies rv u r -> r <= issued) -> authenticate mk key rv now t = Ok (User u)).
Proof.
  intros Hm Hr Hne Hnow t. destruct (auth_face mk rv now key t u issued) as [[E H]|[E H]]; try done.
  - unfold get_token_data, t, create_access_token. cbn [t_key t_exp]. rewrite Z.eqb_refl. replace (now <=? _) with true by lia. done.
  - split; [done|]. intros Hall. destruct H as (r & Ha & Hlt). specialize (Hall _ Ha). lia.
  - split; [|done]. intros (r & Ha & Hlt). specialize (H _ Ha). lia.
Qed.
(** Whoever shows a token signed with another key, or out of date, is refused, whatever the revocations. *)
Theorem C42_bad_token mk key rv now t : t_key t <> key \/ t_exp t < now -> authenticate mk key rv now t = Ok Refused.
Proof.
  intros H. unfold authenticate, get_token_data. replace ((t_key t =? key) && (now <=? t_exp t)) with false; [done|]. symmetry. apply andb_false_iff. lia.
Qed.
(** A user is never taken for another. *)
Theorem C42_identity mk key rv now t u : authenticate mk key rv now t = Ok (User u) -> t_user t = Some u /\ t_key t = key.
Proof.
  unfold authenticate, get_token_data. destruct ((t_key t =? key) && (now <=? t_exp t)) eqn:E; [|done]. apply andb_true_iff in E as [E _]. intros H. split; [|lia]. revert H. cbn [need_authentication].
  destruct (check_reservation mk (t_date t)) as [i|]; cbn [rbind]; [|done]. destruct (match r_global rv with None => _ | Some _ => _ end) as [rg|]; cbn [rbind]; [|done].
  destruct (if rg : bool then _ else _) as [r|]; cbn [rbind]; [|done]. destruct r; [done|]. destruct (t_user t) as [u'|]; [|done]. case_bool_decide; congruence.
Qed.
(** Once all the tokens of a user are from before the revocation date, no sequence of requests, of
    that user and of others, brings a token of his back. *)
Lemma ask_user mk key minutes rv ts q t' : t' ∈ ask mk key minutes rv ts q -> t' ∈ ts \/ exists t u, t ∈ ts /\ t_user t = Some u /\ authenticate mk key rv (fst q) t = Ok (User u) /\ t_user t' = Some u.
Proof.
  unfold ask. destruct (nth_error ts q.2) as [t|] eqn:E; [|by left]. apply nth_error_In, elem_of_list_In in E. unfold get_new_token. destruct (authenticate mk key rv q.1 t) as [[|u]|] eqn:Ea; try (by left).
  destruct (C42_identity _ _ _ _ _ _ Ea) as [Eu _]. rewrite Eu. intros [?|Hin]%elem_of_app; [by left|]. apply elem_of_list_singleton in Hin as ->. right. exists t, u. done.
Qed.
Theorem C42_no_return mk key minutes rv ts qs u r : increasing mk -> dates_ok rv -> applies rv u r ->
  (forall t, t ∈ ts -> t_user t = Some u -> exists z, t_date t = Face z /\ z < r) ->
  (forall t, t ∈ ask_all mk key minutes rv ts qs -> t_user t = Some u -> t ∈ ts) /\
  (forall t now u', t ∈ ask_all mk key minutes rv ts qs -> authenticate mk key rv now t = Ok (User u') -> u' <> u).
Proof.
  intros Hm Hr Ha Hts.
  assert (Hauth : forall t now u', t ∈ ts -> authenticate mk key rv now t = Ok (User u') -> u' <> u).
  { intros t now u' Hin E ->. destruct (C42_identity _ _ _ _ _ _ E) as [Eu _]. destruct (Hts _ Hin Eu) as (z & Ez & Hlt).
    destruct (get_token_data key now t) as [t0|] eqn:Ed; [|unfold authenticate in E; by rewrite Ed in E].
    assert (t0 = t) as -> by (unfold get_token_data in Ed; destruct (_ && _); congruence).
    assert (u <> ""%string) as Hne. { intros ->. unfold authenticate in E. rewrite Ed in E. cbn [need_authentication] in E. rewrite Eu in E.
      destruct (check_reservation mk (t_date t)) as [i|]; cbn [rbind] in E; [|done]. destruct (match r_global rv with None => _ | Some _ => _ end) as [rg|]; cbn [rbind] in E; [|done].
      destruct (if rg : bool then _ else _) as [rr|]; cbn [rbind] in E; [|done]. by destruct rr. }
    destruct (auth_face mk rv now key t u z Hm Hr Ed Eu Hne Ez) as [[E' _]|[_ H]]; [congruence|]. specialize (H _ Ha). lia. }
  revert ts Hts Hauth. unfold ask_all. induction qs as [|q qs IH]; intros ts Hts Hauth; cbn [fold_left]; [split; [done|exact Hauth]|].
  assert (Hnew : forall t, t ∈ ask mk key minutes rv ts q -> t_user t = Some u -> t ∈ ts).
  { intros t Hin Eu. destruct (ask_user _ _ _ _ _ _ _ Hin) as [?|(t0 & u0 & Ht0 & Eu0 & Ea & Eu')]; [done|]. exfalso. by apply (Hauth _ _ _ Ht0 Ea); congruence. }
  destruct (IH (ask mk key minutes rv ts q)) as [H1 H2].
  - intros t Hin Eu. apply Hts; [by apply Hnew|done].
  - intros t now u' Hin E ->. destruct (C42_identity _ _ _ _ _ _ E) as [Eu _]. by apply (Hauth t now u (Hnew _ Hin Eu) E).
  - split; [|exact H2]. intros t Hin Eu. by apply Hnew, Eu; apply H1.
Qed.
(** Refuted: a time zone whose clock jumps from 2:00 to 3:00 (the dates in between are read with the
    winter offset, as mktime does).  The token is from 2:30, revoked at 3:00, and accepted. *)
Definition spring (z : Z) : Z := if z <? 10800 then z - 3600 else z - 7200.
Theorem C42_dst_refuted : exists issued r, let rv := mkRevoked (Some (Face r)) None in
  issued < r /\ authenticate spring 1 rv (r + 60) (create_access_token 1 60 issued "bob") = Ok (User "bob").
Proof. exists 9000, 10800. vm_compute. done. Qed.
(** Refuted: a broken revocation file lets every token in again. *)
Theorem C42_broken_file_refuted mk key minutes rv issued now u : u <> ""%string -> now <= issued + 60 * minutes -> r_global rv = Some (Face (issued + 1)) -> increasing mk -> dates_ok rv ->
  authenticate mk key (load_revoked (Some rv)) now (create_access_token key minutes issued u) = Ok Refused /\
  authenticate mk key (load_revoked None) now (create_access_token key minutes issued u) = Ok (User u).
Proof.
  intros Hne Hnow Hg Hm Hd. split.
  - apply C42_tokens_partial; try done. exists (issued + 1). split; [by left|lia].
  - apply C42_tokens_partial; try done. intros r [[=]|(l & [=] & _)].
Qed.
(** Not vacuous. *)
Example C42_case : let rv := mkRevoked (Some (Face 1000)) (Some [("bob"%string, Face 2000)]) in
  let a now t u := authenticate (fun z => z - 3600) 7 rv now (create_access_token 7 60 t u) in
  (a 2100 999 "alice" = Ok Refused /\ a 2100 1000 "alice" = Ok (User "alice") /\ a 2100 1999 "bob" = Ok Refused /\ a 2100 2000 "bob" = Ok (User "bob") /\ a 5601 2000 "bob" = Ok Refused)%string.
Proof. vm_compute. done. Qed.

(** * C70. File requests act on the named file *)
(** Refuted: the text after ";" in the name of an uploaded file is a command, and is run. *)
Fixpoint no_special (s : string) : bool := match s with EmptyString => true | String c s => negb (escaped c) && no_special s end.
Lemma escape_none s : no_special s = true -> escape s = s.
Proof. induction s as [|c s IH]; [done|]. cbn [no_special escape]. intros [H1 H2]%andb_true_iff. rewrite (IH H2). by destruct (escaped c). Qed.
Theorem C70_upload_refuted c : no_special c = true ->
  exists s, cmd_upload ("x;" +:+ c) = Bash s /\ commands s = "cat > /x"%string :: commands c.
Proof.
  intros H. exists (String "c" (String "a" (String "t" (String " " (String ">" (String " " (String "/" (String "x" (String ";" c))))))))). split.
  - unfold cmd_upload, setup. change ("x;" +:+ c) with (String "x" (String ";" c)). cbn [escape]. rewrite (escape_none _ H). reflexivity.
  - reflexivity.
Qed.
(** A tabulation is not escaped: any command with arguments can be given. *)
Definition tab : Ascii.ascii := Ascii.ascii_of_nat 9.
Example C70_upload_case : let c := ("rm" +:+ String tab ("-rf" +:+ String tab "/data")) in no_special c = true /\ length (commands ("cat > " +:+ setup ("x;" +:+ c))) = 2%nat.
Proof. vm_compute. done. Qed.
(** Refuted: a file whose name has a space is never found, read or removed; another one is. *)
Lemma append_cons a s t : String a s +:+ t = String a (s +:+ t).
Proof. reflexivity. Qed.
Lemma string_length_append s t : String.length (s +:+ t) = (String.length s + String.length t)%nat.
Proof. induction s as [|c s IH]; [done|]. rewrite append_cons. cbn [String.length]. lia. Qed.
Lemma escape_length s : (String.length s <= String.length (escape s))%nat.
Proof. induction s as [|c s IH]; [done|]. cbn [escape]. destruct (escaped c); cbn [String.length]; lia. Qed.
Lemma escape_eq s : escape s = s <-> no_special s = true.
Proof.
  split; [|apply escape_none]. induction s as [|c s IH]; [done|]. cbn [escape no_special]. destruct (escaped c) eqn:E; [|intros [= H]; by apply IH].
  intros H. exfalso. pose proof (escape_length s). assert (String.length (String "\" (String c (escape s))) = String.length (String c s)) as Hl by (by rewrite H). cbn [String.length] in Hl. lia.
Qed.
Theorem C70_space_refuted p : no_special p = false ->
  cmd_get p <> [Argv ["test"; "-f"; "/" +:+ p]; Argv ["test"; "-r"; "/" +:+ p]; Argv ["cat"; "/" +:+ p]]%string /\
  cmd_delete p <> [Argv ["test"; "-e"; "/" +:+ p]; Argv ["test"; "-w"; "/" +:+ p]; Argv ["rm"; "-rf"; "/" +:+ p]]%string.
Proof.
  intros H. assert (setup p <> "/" +:+ p) as Hn. { unfold setup. change ("/" +:+ p) with (String "/" p). intros [= E]. apply escape_eq in E. congruence. }
  unfold cmd_get, cmd_delete. split; intros E; injection E; intros; apply Hn; congruence.
Qed.
(** Refuted: the files listed do not depend on the directory asked for. *)
Theorem C70_ls_refuted p q : last (cmd_ls p) = last (cmd_ls q).
Proof. done. Qed.
(** Names of plain characters: the very file is tested, read, removed and written. *)
Fixpoint all_plain (s : string) : bool := match s with EmptyString => true | String c s => plain c && all_plain s end.
Lemma plain_not_escaped c : plain c = true -> escaped c = false.
Proof.
  intros H. destruct (escaped c) eqn:E; [|done]. unfold escaped in E. apply bool_decide_eq_true in E. repeat (apply elem_of_cons in E as [->|E]; [by vm_compute in H|]). by apply elem_of_nil in E.
Qed.
Lemma all_plain_no_special s : all_plain s = true -> no_special s = true.
Proof. induction s as [|c s IH]; [done|]. cbn [all_plain no_special]. intros [H1 H2]%andb_true_iff. rewrite (plain_not_escaped _ H1), (IH H2). done. Qed.
Theorem C70_read_remove_partial p mode : all_plain p = true ->
  cmd_get p = [Argv ["test"; "-f"; "/" +:+ p]; Argv ["test"; "-r"; "/" +:+ p]; Argv ["cat"; "/" +:+ p]]%string /\
  cmd_delete p = [Argv ["test"; "-e"; "/" +:+ p]; Argv ["test"; "-w"; "/" +:+ p]; Argv ["rm"; "-rf"; "/" +:+ p]]%string /\
  cmd_chmod mode p = [Argv ["test"; "-e"; "/" +:+ p]; Argv ["chmod"; mode; "/" +:+ p]]%string.
Proof.
  intros H. assert (setup p = "/" +:+ p) as Hs by (unfold setup; by rewrite (escape_none _ (all_plain_no_special _ H))). unfold cmd_get, cmd_delete, cmd_chmod. by rewrite Hs.
Qed.
(** Uploads also take spaces, commas, dollars and backquotes. *)
Fixpoint plain_or_escaped (s : string) : bool := match s with EmptyString => true | String c s => (plain c || escaped c) && plain_or_escaped s end.
Theorem C70_upload_partial p : plain_or_escaped p = true -> exists s, cmd_upload p = Bash ("cat > " +:+ s) /\ reads_as s ("/" +:+ p).
Proof.
  intros H. exists (setup p). split; [done|]. unfold setup. change ("/" +:+ p) with (String "/" p). constructor; [done|].
  induction p as [|c p IH]; [constructor|]. cbn [plain_or_escaped] in H. apply andb_true_iff in H as [H1 H2]. cbn [escape]. destruct (escaped c) eqn:E; constructor; try auto. by rewrite orb_false_r in H1.
Qed.
Example C70_case : (all_plain "home/bob/result-1.txt" = true /\ plain_or_escaped "home/bob/my $result, 1" = true)%string.
Proof. done. Qed.

(** * C71. Proxy rules *)
Definition pinit (l : list (nat * string * string)) (r : rules) : pst := mkP ((fun x => mkReq (fst (fst x)) (snd (fst x)) (snd x) PWant) <$> l) None r.
(** Refuted: two requests served by two threads of one process; the first rule is lost although
    its user was sent to it. *)
Theorem C71_threads_refuted :
  let s := prun [0; 0; 1; 1; 0; 1; 0; 1]%nat (pinit [(1%nat, "/proxy/10", "http://a"); (1%nat, "/proxy/20", "http://b")]%string []) in
  (q_pc <$> reqs s) = [PDone; PDone] /\ file s = [("/proxy/20", "http://b")]%string.
Proof. vm_compute. done. Qed.
(** One request at a time per process: whatever the interleaving, no rule is lost. *)
Definition in_section (r : req) : Prop := match q_pc r with PLocked | PLoaded _ | PSaved => True | _ => False end.
Record pinv (r0 : rules) (s : pst) : Prop := mkPinv {
  p_procs : NoDup (q_proc <$> reqs s);
  p_paths : NoDup (q_path <$> reqs s);
  p_excl : forall r, r ∈ reqs s -> in_section r -> lock s = Some (q_proc r);
  p_fresh : forall r l, r ∈ reqs s -> q_pc r = PLoaded l -> l = file s;
  p_done : forall r, r ∈ reqs s -> q_pc r = PSaved \/ q_pc r = PDone -> (q_path r, q_target r) ∈ file s;
  p_old : forall x, x ∈ r0 -> x.1 ∉ (q_path <$> reqs s) -> x ∈ file s;
  p_only : forall x, x ∈ file s -> x ∈ r0 \/ exists r, r ∈ reqs s /\ x = (q_path r, q_target r) }.
Lemma insert_elem {A} (l : list A) i x y z : l !! i = Some x -> z ∈ <[i := y]> l -> z = y \/ exists j, j <> i /\ l !! j = Some z.
Proof.
  intros Hi Hz. apply elem_of_list_lookup in Hz as [j Hj]. destruct (decide (i = j)) as [<-|Hne].
  - rewrite list_lookup_insert in Hj by (by eapply lookup_lt_Some). left. congruence.
  - rewrite list_lookup_insert_ne in Hj by done. right. exists j. done.
Qed.
Lemma same_req (f : req -> nat) (l : list req) i j r r' : NoDup (f <$> l) -> l !! i = Some r -> l !! j = Some r' -> f r = f r' -> i = j.
Proof. intros HN Hi Hj E. apply (NoDup_lookup _ i j (f r) HN); rewrite list_lookup_fmap, ?Hi, ?Hj; cbn; congruence. Qed.
Lemma set_pc_map {B} (f : req -> B) (l : list req) i r p : (forall q p, f (set_pc q p) = f q) -> l !! i = Some r -> f <$> <[i := set_pc r p]> l = f <$> l.
Proof. intros Hf Hi. rewrite list_fmap_insert, Hf. apply list_insert_id. by rewrite list_lookup_fmap, Hi. Qed.
Lemma add_rule_in r path target x : x ∈ add_rule r path target <-> (x ∈ r /\ x.1 <> path) \/ x = (path, target).
Proof. unfold add_rule. rewrite elem_of_app, elem_of_list_filter, elem_of_list_singleton. tauto. Qed.
Lemma pstep_inv r0 i s : pinv r0 s -> pinv r0 (pstep i s).
Proof.
  intros HI. unfold pstep. destruct (reqs s !! i) as [r|] eqn:Er; [|done].
  assert (Hin : r ∈ reqs s) by (by eapply elem_of_list_lookup_2).
  assert (Hex : forall j r', j <> i -> reqs s !! j = Some r' -> lock s = Some (q_proc r) -> ~ in_section r').
  { intros j r' Hne Hj Hl Hs. apply Hne. eapply (same_req q_proc); [apply HI|exact Hj|exact Er|]. apply (p_excl _ _ HI) in Hs; [congruence|]. by eapply elem_of_list_lookup_2. }
  assert (Hmem : forall j r', reqs s !! j = Some r' -> r' ∈ reqs s) by (intros j r' Hj; by eapply elem_of_list_lookup_2).
  destruct (q_pc r) as [| |l| |] eqn:Epc; [| | | |done].
  - destruct (match lock s with Some p => Nat.eqb p (q_proc r) | None => true end) eqn:El; [|done].
    assert (Hall : forall j r', j <> i -> reqs s !! j = Some r' -> ~ in_section r').
    { intros j r' Hne Hj Hs. pose proof (p_excl _ _ HI _ (Hmem _ _ Hj) Hs) as Hl. rewrite Hl in El. apply Nat.eqb_eq in El. apply (Hex j r' Hne Hj); [congruence|done]. }
    constructor; cbn [reqs lock file]; rewrite ?(set_pc_map q_proc _ _ _ _ (fun _ _ => eq_refl) Er), ?(set_pc_map q_path _ _ _ _ (fun _ _ => eq_refl) Er); try apply HI.
    + intros r' [->|(j & Hne & Hj)]%(insert_elem _ _ _ _ _ Er) Hs; [done|]. by apply (Hall _ _ Hne Hj) in Hs.
    + intros r' l [->|(j & Hne & Hj)]%(insert_elem _ _ _ _ _ Er) Hs; [done|]. by apply (p_fresh _ _ HI r' l (Hmem _ _ Hj)).
    + intros r' [->|(j & Hne & Hj)]%(insert_elem _ _ _ _ _ Er) Hs; [by destruct Hs|]. by apply (p_done _ _ HI r' (Hmem _ _ Hj)).
    + intros x [Hx|(r' & Hr' & ->)]%(p_only _ _ HI); [by left|right]. apply elem_of_list_lookup in Hr' as [j Hj]. destruct (decide (i = j)) as [<-|Hne].
      * exists (set_pc r PLocked). split; [|rewrite Er in Hj; injection Hj as <-; done]. eapply elem_of_list_lookup_2, list_lookup_insert. by eapply lookup_lt_Some.
      * exists r'. split; [|done]. eapply elem_of_list_lookup_2. rewrite list_lookup_insert_ne; done.
  - assert (Hl : lock s = Some (q_proc r)) by (apply (p_excl _ _ HI); [done|unfold in_section; by rewrite Epc]).
    constructor; cbn [reqs lock file]; rewrite ?(set_pc_map q_proc _ _ _ _ (fun _ _ => eq_refl) Er), ?(set_pc_map q_path _ _ _ _ (fun _ _ => eq_refl) Er); try apply HI.
    + intros r' [->|(j & Hne & Hj)]%(insert_elem _ _ _ _ _ Er) Hs; [done|]. by apply (p_excl _ _ HI r' (Hmem _ _ Hj)).
    + intros r' l [->|(j & Hne & Hj)]%(insert_elem _ _ _ _ _ Er) Hs; [cbn in Hs; congruence|]. by apply (p_fresh _ _ HI r' l (Hmem _ _ Hj)).
    + intros r' [->|(j & Hne & Hj)]%(insert_elem _ _ _ _ _ Er) Hs; [by destruct Hs|]. by apply (p_done _ _ HI r' (Hmem _ _ Hj)).
    + intros x [Hx|(r' & Hr' & ->)]%(p_only _ _ HI); [by left|right]. apply elem_of_list_lookup in Hr' as [j Hj]. destruct (decide (i = j)) as [<-|Hne].
      * exists (set_pc r (PLoaded (file s))). split; [|rewrite Er in Hj; injection Hj as <-; done]. eapply elem_of_list_lookup_2, list_lookup_insert. by eapply lookup_lt_Some.
      * exists r'. split; [|done]. eapply elem_of_list_lookup_2. rewrite list_lookup_insert_ne; done.
  - assert (Hl : lock s = Some (q_proc r)) by (apply (p_excl _ _ HI); [done|unfold in_section; by rewrite Epc]).
    assert (l = file s) as -> by (by apply (p_fresh _ _ HI r)).
    constructor; cbn [reqs lock file]; rewrite ?(set_pc_map q_proc _ _ _ _ (fun _ _ => eq_refl) Er), ?(set_pc_map q_path _ _ _ _ (fun _ _ => eq_refl) Er); try apply HI.
    + intros r' [->|(j & Hne & Hj)]%(insert_elem _ _ _ _ _ Er) Hs; [done|]. by apply (p_excl _ _ HI r' (Hmem _ _ Hj)).
    + intros r' l [->|(j & Hne & Hj)]%(insert_elem _ _ _ _ _ Er) Hs; [done|]. exfalso. apply (Hex _ _ Hne Hj Hl). unfold in_section. by rewrite Hs.
    + intros r' [->|(j & Hne & Hj)]%(insert_elem _ _ _ _ _ Er) Hs; [apply add_rule_in; by right|]. apply add_rule_in. left. split; [by apply (p_done _ _ HI r' (Hmem _ _ Hj))|]. cbn [fst].
      intros E. apply Hne. apply (NoDup_lookup _ j i (q_path r) (p_paths _ _ HI)); rewrite list_lookup_fmap, ?Hj, ?Er; cbn; congruence.
    + intros x Hx Hp. apply add_rule_in. left. split; [by apply (p_old _ _ HI)|]. intros E. apply Hp. rewrite E. apply elem_of_list_fmap. by exists r.
    + intros x [[Hx _]|Heq]%add_rule_in; [|subst x].
      * apply (p_only _ _ HI) in Hx as [Hx|(r' & Hr' & ->)]; [by left|right]. apply elem_of_list_lookup in Hr' as [j Hj]. destruct (decide (i = j)) as [<-|Hne].
        -- exists (set_pc r PSaved). split; [|rewrite Er in Hj; injection Hj as <-; done]. eapply elem_of_list_lookup_2, list_lookup_insert. by eapply lookup_lt_Some.
        -- exists r'. split; [|done]. eapply elem_of_list_lookup_2. rewrite list_lookup_insert_ne; done.
      * right. exists (set_pc r PSaved). split; [|done]. eapply elem_of_list_lookup_2, list_lookup_insert. by eapply lookup_lt_Some.
  - assert (Hl : lock s = Some (q_proc r)) by (apply (p_excl _ _ HI); [done|unfold in_section; by rewrite Epc]). rewrite Hl, Nat.eqb_refl.
    constructor; cbn [reqs lock file]; rewrite ?(set_pc_map q_proc _ _ _ _ (fun _ _ => eq_refl) Er), ?(set_pc_map q_path _ _ _ _ (fun _ _ => eq_refl) Er); try apply HI.
    + intros r' [->|(j & Hne & Hj)]%(insert_elem _ _ _ _ _ Er) Hs; [done|]. by apply (Hex _ _ Hne Hj Hl) in Hs.
    + intros r' l [->|(j & Hne & Hj)]%(insert_elem _ _ _ _ _ Er) Hs; [done|]. by apply (p_fresh _ _ HI r' l (Hmem _ _ Hj)).
    + intros r' [->|(j & Hne & Hj)]%(insert_elem _ _ _ _ _ Er) Hs; [by apply (p_done _ _ HI r); [done|left]|]. by apply (p_done _ _ HI r' (Hmem _ _ Hj)).
    + intros x [Hx|(r' & Hr' & ->)]%(p_only _ _ HI); [by left|right]. apply elem_of_list_lookup in Hr' as [j Hj]. destruct (decide (i = j)) as [<-|Hne].
      * exists (set_pc r PDone). split; [|rewrite Er in Hj; injection Hj as <-; done]. eapply elem_of_list_lookup_2, list_lookup_insert. by eapply lookup_lt_Some.
      * exists r'. split; [|done]. eapply elem_of_list_lookup_2. rewrite list_lookup_insert_ne; done.
Qed.
Lemma prun_inv r0 l s : pinv r0 s -> pinv r0 (prun l s).
Proof. unfold prun. revert s. induction l as [|i l IH]; intros s HI; [done|]. cbn [fold_left]. by apply IH, pstep_inv. Qed.
Lemma pstep_reqs i s : (fun r => (q_proc r, q_path r, q_target r)) <$> reqs (pstep i s) = (fun r => (q_proc r, q_path r, q_target r)) <$> reqs s.
Proof.
  unfold pstep. destruct (reqs s !! i) as [r|] eqn:Er; [|done]. destruct (q_pc r); cbn [reqs]; [|by apply set_pc_map..|done].
  destruct (match lock s with Some _ => _ | None => _ end); [|done]. by apply set_pc_map.
Qed.
Lemma prun_reqs l s : (fun r => (q_proc r, q_path r, q_target r)) <$> reqs (prun l s) = (fun r => (q_proc r, q_path r, q_target r)) <$> reqs s.
Proof. unfold prun. revert s. induction l as [|i l IH]; intros s; [done|]. cbn [fold_left]. by rewrite IH, pstep_reqs. Qed.
Theorem C71_processes_partial rq r0 l : NoDup (rq.*1.*1) -> NoDup (rq.*1.*2) ->
  let s := prun l (pinit rq r0) in
  (forall r, r ∈ reqs s -> q_pc r = PDone -> (q_path r, q_target r) ∈ file s) /\
  (forall x, x ∈ r0 -> x.1 ∉ rq.*1.*2 -> x ∈ file s) /\
  (forall x, x ∈ file s -> x ∈ r0 \/ exists n, (n, x.1, x.2) ∈ rq).
Proof.
  intros H1 H2 s. assert (pinv r0 s) as HI.
  { apply prun_inv. unfold pinit. constructor; cbn [reqs lock file].
    - rewrite <- !list_fmap_compose in *. done.
    - rewrite <- !list_fmap_compose in *. done.
    - intros r (x & -> & _)%elem_of_list_fmap Hs. done.
    - intros r l' (x & -> & _)%elem_of_list_fmap Hs. done.
    - intros r (x & -> & _)%elem_of_list_fmap [|]; done.
    - done.
    - by left. }
  pose proof (prun_reqs l (pinit rq r0)) as Hr. fold s in Hr. unfold pinit in Hr. cbn [reqs] in Hr. rewrite <- list_fmap_compose in Hr. unfold compose in Hr. cbn [q_proc q_path q_target] in Hr.
  assert (Hrq : (fun r => (q_proc r, q_path r, q_target r)) <$> reqs s = rq). { rewrite Hr. rewrite <- (list_fmap_id rq) at 2. apply list_fmap_ext. by intros ? [[? ?] ?] ?. }
  split; [|split].
  - intros r Hin E. apply (p_done _ _ HI); [done|by right].
  - intros x Hx Hn. apply (p_old _ _ HI); [done|]. intros (r & E & Hin)%elem_of_list_fmap. apply Hn. rewrite <- Hrq, <- !list_fmap_compose. apply elem_of_list_fmap. by exists r.
  - intros x [Hx|(r & Hin & ->)]%(p_only _ _ HI); [by left|right]. exists (q_proc r). rewrite <- Hrq. apply elem_of_list_fmap. by exists r.
Qed.
Example C71_case : let s := prun [0; 0; 1; 1; 0; 1; 0; 1; 1; 1; 1]%nat (pinit [(1%nat, "/proxy/10", "http://a"); (2%nat, "/proxy/20", "http://b")]%string []) in
  (q_pc <$> reqs s) = [PDone; PDone] /\ file s = [("/proxy/10", "http://a"); ("/proxy/20", "http://b")]%string.
Proof. vm_compute. done. Qed.

(** * C72. Pages *)
(** Going through the pages gives every row once, in order. *)
Fixpoint pages {A} (rows : list A) (offset limit fuel : nat) : list A :=
  match fuel with
  | O => []
  | S fuel => match paginate rows offset limit with Some (x :: items, _) => (x :: items) ++ pages rows (offset + limit) limit fuel | _ => [] end
  end.
Theorem C72_pages {A} (rows : list A) limit : (0 < limit)%nat -> pages rows 0 limit (S (length rows)) = rows.
Proof.
  intros Hl. assert (forall fuel offset, (length rows < offset + fuel)%nat -> pages rows offset limit fuel = drop offset rows) as H; [|apply (H (S (length rows)) 0%nat); lia].
  induction fuel as [|fuel IH]; intros offset Hf; [rewrite drop_ge by lia; done|]. cbn [pages]. unfold paginate.
  destruct (take limit (drop offset rows)) as [|x items] eqn:E.
  - assert (drop offset rows = []) as Hd. { destruct (drop offset rows); [done|]. destruct limit; [lia|done]. } rewrite Hd. by destruct (Nat.eqb offset 0).
  - rewrite <- E, IH by lia. replace (drop (offset + limit) rows) with (drop limit (drop offset rows)) by (by rewrite drop_drop). apply take_drop.
Qed.
Theorem C72_total {A} (rows : list A) offset limit items total : paginate rows offset limit = Some (items, total) ->
  total = length rows /\ items = take limit (drop offset rows).
Proof.
  unfold paginate. destruct (Nat.eqb offset 0) eqn:E0; [apply Nat.eqb_eq in E0 as ->|].
  - rewrite drop_0. destruct (Nat.ltb (length (take limit rows)) limit) eqn:El; cbn [andb].
    + apply Nat.ltb_lt in El. rewrite take_length in El. rewrite take_ge in * by lia. destruct rows; intros [= <- <-]; done.
    + destruct (take limit rows); intros [= <- <-]; done.
  - cbn [andb]. destruct (take limit (drop offset rows)); intros [= <- <-]; done.
Qed.
Theorem C72_not_found {A} (rows : list A) offset limit : (0 < limit)%nat -> paginate rows offset limit = None <-> (0 < offset /\ length rows <= offset)%nat.
Proof.
  intros Hl. unfold paginate. destruct (take limit (drop offset rows)) as [|x items] eqn:E.
  - assert (drop offset rows = []) as Hd by (destruct (drop offset rows); [done|]; destruct limit; [lia|done]). pose proof (drop_length rows offset) as Hdl. rewrite Hd in Hdl. cbn in Hdl.
    destruct (Nat.eqb offset 0) eqn:E0; [apply Nat.eqb_eq in E0|apply Nat.eqb_neq in E0]; split; intros; try done; lia.
  - assert (drop offset rows <> []) as Hd by (intros Hd; rewrite Hd in E; by destruct limit). split; [done|]. intros [_ H]. exfalso. apply Hd. by apply drop_ge.
Qed.
(** The listing of a directory gives the size of the page as the total: refuted. *)
Theorem C72_ls_total_refuted {A} (rows : list A) limit : (0 < limit < length rows)%nat -> exists items, ls_page rows 0 limit = Some (items, limit) /\ limit <> length rows.
Proof.
  intros H. unfold ls_page. cbn [Nat.ltb Nat.leb]. rewrite drop_0, Nat.sub_0_r, Nat.add_0_l, Nat.min_r by lia. replace (Nat.ltb (length rows) 0) with false by (symmetry; apply Nat.ltb_ge; lia).
  eexists. rewrite take_length, Nat.min_l by lia. split; [done|lia].
Qed.
Theorem C72_ls_page {A} (rows : list A) offset limit items n : ls_page rows offset limit = Some (items, n) -> items = take limit (drop offset rows).
Proof.
  unfold ls_page. destruct (Nat.ltb (length rows) offset) eqn:E; [done|]. apply Nat.ltb_ge in E. intros [= <- _]. destruct (Nat.le_gt_cases (offset + limit) (length rows)).
  - rewrite Nat.min_r by lia. f_equal. lia.
  - rewrite Nat.min_l by lia. rewrite !take_ge by (rewrite drop_length; lia). done.
Qed.
Example C72_case : pages [1; 2; 3; 4; 5] 0 2 6 = [1; 2; 3; 4; 5] /\ paginate [1; 2; 3; 4; 5] 4 2 = Some ([5], 5%nat) /\ paginate [1; 2] 2 2 = None.
Proof. vm_compute. done. Qed.
Print Assumptions C42_tokens_partial.
Print Assumptions C42_bad_token.
Print Assumptions C42_identity.
Print Assumptions C42_no_return.
Print Assumptions C42_dst_refuted.
Print Assumptions C42_broken_file_refuted.
Print Assumptions C70_upload_refuted.
Print Assumptions C70_space_refuted.
Print Assumptions C70_ls_refuted.
Print Assumptions C70_read_remove_partial.
Print Assumptions C70_upload_partial.
Print Assumptions C71_threads_refuted.
Print Assumptions C71_processes_partial.
Print Assumptions C72_pages.
Print Assumptions C72_total.
Print Assumptions C72_not_found.
Print Assumptions C72_ls_total_refuted.
Print Assumptions C72_ls_page.
