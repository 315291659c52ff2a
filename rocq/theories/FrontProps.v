(** oarsub and POST /jobs: properties C174-C183. *)
From Verif Require Import Base ReqModel ReqSpec ReqProps AdmModel AdmProps FrontModel FrontSpec FrontProofs.
From Coq Require Import Ascii.

Lemma given_spec v : given v = false <-> absent v.
Proof.
  split.
  - destruct v as [|[]|s|n|l|l]; cbn [given]; try (intros; constructor || discriminate).
    + rewrite negb_false_iff, bool_decide_eq_true. intros ->. constructor.
    + rewrite negb_false_iff, Z.eqb_eq. intros ->. constructor.
    + rewrite negb_false_iff, bool_decide_eq_true. intros ->. constructor.
    + rewrite negb_false_iff, bool_decide_eq_true. intros ->. constructor.
  - by intros [].
Qed.
Lemma given_yes v : given v = true <-> ~ absent v.
Proof. rewrite <- given_spec. destruct (given v); split; congruence. Qed.
Lemma build_inv w scan cmd kw al p : build w scan cmd kw al = Ok (inr p) ->
  exists m, used p = merged scan kw m /\ (scan = true -> exists c, cmd = Some c /\ scan_text (cat w (first_word (lstrip c))) = (false, m)) /\
    (nb p, lines p) = match used p KArray with
                  | VNum n => if n =? 0 then (if given (used p KParams) then let ls := param_lines (cat w (text_of (used p KParams))) in (Z.of_nat (length ls), ls) else (1, al)) else (n, al)
                  | _ => if given (used p KParams) then let ls := param_lines (cat w (text_of (used p KParams))) in (Z.of_nat (length ls), ls) else (1, al)
                  end.
Proof.
  unfold build. intros H.
  assert (Hgo : forall m, (let '(n, ls) := match merged scan kw m KArray with
                  | VNum n => if n =? 0 then (if given (merged scan kw m KParams) then let ls := param_lines (cat w (text_of (merged scan kw m KParams))) in (Z.of_nat (length ls), ls) else (1, al)) else (n, al)
                  | _ => if given (merged scan kw m KParams) then let ls := param_lines (cat w (text_of (merged scan kw m KParams))) in (Z.of_nat (length ls), ls) else (1, al)
                  end in if bad_request w (merged scan kw m KResource) then Ok (inl 3) else Ok (inr (mkParams (merged scan kw m) n ls))) = Ok (inr p) ->
      used p = merged scan kw m /\ (nb p, lines p) = match used p KArray with
                  | VNum n => if n =? 0 then (if given (used p KParams) then let ls := param_lines (cat w (text_of (used p KParams))) in (Z.of_nat (length ls), ls) else (1, al)) else (n, al)
                  | _ => if given (used p KParams) then let ls := param_lines (cat w (text_of (used p KParams))) in (Z.of_nat (length ls), ls) else (1, al)
                  end).
  { intros m Hm. match type of Hm with (let '(n, ls) := ?x in _) = _ => destruct x as [n ls] eqn:E end.
    destruct (bad_request w (merged scan kw m KResource)); [discriminate|]. injection Hm as <-. cbn [used nb lines]. split; [done|]. exact (eq_sym E). }
  destruct scan.
  - destruct cmd as [c|]; [|discriminate]. destruct (bool_decide (lstrip c = ""%string)); [discriminate|].
    cbn [rbind] in H. destruct (scan_text (cat w (first_word (lstrip c)))) as [bad m] eqn:Es. destruct bad; [discriminate|].
    exists m. apply Hgo in H as [H1 H2]. split; [done|]. split; [|done]. intros _. by exists c.
  - cbn [rbind] in H. exists (fun _ => None). apply Hgo in H as [H1 H2]. split; [done|]. by split.
Qed.
Lemma oarsub_inv w rn cn l : l_conn l = 0 ->
  (o_sub (oarsub w rn cn l) = None /\ o_params (oarsub w rn cn l) = None /\ o_end (oarsub w rn cn l) <> Ok 0 /\ o_printed (oarsub w rn cn l) = []) \/
  exists d p0 p kd, reservation_of w l = Ok (inr d) /\ build w (l_scan l) (l_cmd l) (l_kw l) [] = Ok (inr p0)
    /\ check w p0 (l_cmd l) (l_inter l) (negb (d =? 0)) false = 0 /\ used p = used p0
    /\ (given (l_kw l KParams) = true /\ lines p = param_lines (cat w (text_of (l_kw l KParams))) /\ nb p = Z.of_nat (length (lines p)) /\ lines p <> [] \/
        given (l_kw l KParams) = false /\ p = p0)
    /\ oarsub w rn cn l = report p kd d (add_jobs w rn (l_user l) (default ""%string (l_cmd l)) p (become w || l_scan l)).
Proof.
  intros Hc. unfold oarsub. destruct (reservation_of w l) as [[e|d]|e] eqn:Er; [left; cbn; repeat split; discriminate| |left; cbn; repeat split; discriminate].
  destruct (build w (l_scan l) (l_cmd l) (l_kw l) []) as [[e|p0]|e] eqn:Eb; [left; cbn; repeat split; discriminate| |left; cbn; repeat split; discriminate].
  rewrite Hc. change (negb (0 =? 0)) with false. cbv iota.
  destruct (check w p0 (l_cmd l) (l_inter l) (negb (d =? 0)) false =? 0) eqn:Ek; cbn [negb]; [|left; cbn; repeat split; discriminate]. apply Z.eqb_eq in Ek.
  destruct (negb (l_inter l) && has_command (l_cmd l)).
  - destruct (given (l_kw l KParams)) eqn:Eg.
    + cbv zeta. cbn [lines andb]. destruct (bool_decide (param_lines (cat w (text_of (l_kw l KParams))) = [])) eqn:El.
      * left. cbn. repeat split; discriminate.
      * right. eexists d, p0, _, "PASSIVE"%string. split; [done|]. split; [done|]. split; [done|]. split; [|split; [|reflexivity]]; [done|].
        left. cbn [lines nb]. apply bool_decide_eq_false in El. done.
    + right. exists d, p0, p0, "PASSIVE"%string. repeat (split; [done|]). split; [by right|done].
  - destruct (given (l_kw l KParams)) eqn:Eg; [left; cbn; repeat split; discriminate|].
    destruct (nb p0 =? 1) eqn:En; cbn [negb]; [|left; cbn; repeat split; discriminate].
    right. exists d, p0, p0, "INTERACTIVE"%string. repeat (split; [done|]). split; [by right|done].
Qed.
Lemma report_params p kd d s : o_params (report p kd d s) = Some p /\ o_sub (report p kd d s) = Some s /\ o_resv (report p kd d s) = d.
Proof. unfold report. destruct (s_answer s) as [[c ids]|e]; [|done]. destruct (negb (c =? 0)); [done|]. by destruct ids. Qed.
Lemma oarsub_used w rn cn l p : l_conn l = 0 -> o_params (oarsub w rn cn l) = Some p ->
  exists m, used p = merged (l_scan l) (l_kw l) m /\ (l_scan l = true -> exists c, l_cmd l = Some c /\ scan_text (cat w (first_word (lstrip c))) = (false, m)).
Proof.
  intros Hc Hp. destruct (oarsub_inv w rn cn l Hc) as [(_ & Hn & _)|(d & p0 & p' & kd & _ & Hb & _ & Hu & _ & Ho)]; [congruence|].
  rewrite Ho in Hp. rewrite (proj1 (report_params p' kd d _)) in Hp. injection Hp as <-. rewrite Hu.
  apply build_inv in Hb as (m & H1 & H2 & _). by exists m.
Qed.

(** ** C174: the command line wins over the directives of the script, but for -p. *)
Theorem C174_option_wins w rn cn l p k : l_conn l = 0 -> o_params (oarsub w rn cn l) = Some p -> ~ absent (l_kw l k) ->
  k ∉ [KProperties; KStagein; KStageinMd5] -> used p k = l_kw l k.
Proof.
  intros Hc Hp Hg Hk. destruct (oarsub_used w rn cn l p Hc Hp) as (m & -> & _). unfold merged. apply given_yes in Hg. rewrite Hg, andb_false_r.
  rewrite !bool_decide_false by set_solver. by rewrite andb_false_r.
Qed.
(** ** C175: a directive counts when the option is not on the command line. *)
Theorem C175_directives w rn cn l p ls x vs : l_conn l = 0 -> l_scan l = true -> script_of w l ls -> o_params (oarsub w rn cn l) = Some p ->
  x ∉ [KProperties; KStagein; KStageinMd5] -> absent (l_kw l x) -> collected x ls vs ->
  used p x = default (l_kw l x) (value_of x vs).
Proof.
  intros Hc Hs Hls Hp Hx Hg Hv. destruct (oarsub_used w rn cn l p Hc Hp) as (m & -> & Hm). unfold merged. apply given_spec in Hg. rewrite Hg, Hs.
  rewrite !bool_decide_false by set_solver. cbn [andb orb negb].
  destruct (Hm Hs) as (c & Hcmd & Hscan). destruct (script_scan w l ls Hls) as (c' & Hcmd' & _ & Hscan'). assert (c' = c) as -> by congruence.
  rewrite Hscan in Hscan'. pose proof (scan_values x ls vs Hv ltac:(set_solver) false (fun _ => None) []) as Hval.
  rewrite <- Hscan' in Hval. cbn [snd] in Hval. rewrite Hval; [done|]. unfold value_of. by destruct (argument x).
Qed.
Theorem C175_properties w rn cn l p ls vs : l_conn l = 0 -> l_scan l = true -> script_of w l ls -> o_params (oarsub w rn cn l) = Some p ->
  collected KProperties ls vs -> used p KProperties = if decide (vs = []) then l_kw l KProperties else VText (String.concat " AND " vs).
Proof.
  intros Hc Hs Hls Hp Hv. destruct (oarsub_used w rn cn l p Hc Hp) as (m & -> & Hm). unfold merged. rewrite Hs. cbn [andb].
  rewrite (bool_decide_true (KProperties = KProperties)) by done. rewrite !bool_decide_false by done. cbn [orb].
  destruct (Hm Hs) as (c & Hcmd & Hscan). destruct (script_scan w l ls Hls) as (c' & Hcmd' & _ & Hscan'). assert (c' = c) as -> by congruence.
  rewrite Hscan in Hscan'. pose proof (scan_values KProperties ls vs Hv ltac:(done) false (fun _ => None) []) as Hval.
  rewrite <- Hscan' in Hval. cbn [snd] in Hval. rewrite Hval by done. unfold value_of. cbn [argument app].
  destruct (decide (vs = [])); [|done]. by destruct (given (l_kw l KProperties)).
Qed.
(** The directives of a script are read without ambiguity. *)
Theorem C175_unambiguous x v x' v' s : directive x v s -> directive x' v' s -> x <> KStageinMd5 -> x' <> KStageinMd5 -> x = x' /\ v = v'.
Proof. apply directive_fun. Qed.

(** ** C176: a line that is not understood stops the submission. *)
Theorem C176_not_understood w rn cn l ls s : l_scan l = true -> script_of w l ls -> s ∈ ls -> addressed s -> (forall x v, ~ directive x v s) ->
  made_by (oarsub w rn cn l) = [] /\ o_end (oarsub w rn cn l) <> Ok 0.
Proof.
  intros Hs Hls Hin Ha Hn. unfold made_by, oarsub. destruct (reservation_of w l) as [[e|d]|e]; [done| |done].
  destruct (script_scan w l ls Hls) as (c & Hcmd & Hw & Hscan).
  assert (Hb : build w (l_scan l) (l_cmd l) (l_kw l) [] = Ok (inl (-72))).
  { unfold build. rewrite Hs, Hcmd. rewrite bool_decide_false by done. cbn [rbind]. rewrite Hscan.
    pose proof (proj2 (scan_bad ls false (fun _ => None))) as Hbad. destruct (scan_lines ls false (fun _ => None)) as [bad m] eqn:E. cbn [fst] in Hbad.
    rewrite Hbad; [done|]. right. by exists s. }
  rewrite Hb. done.
Qed.
(** Without directive the script changes nothing, whatever it holds. *)
Theorem C176_no_directive w rn cn l p ls x : l_conn l = 0 -> l_scan l = true -> script_of w l ls -> Forall (fun s => ~ addressed s) ls ->
  o_params (oarsub w rn cn l) = Some p -> x ∉ [KStagein; KStageinMd5] -> used p x = l_kw l x.
Proof.
  intros Hc Hs Hls Hf Hp Hx. assert (Hcol : forall x, collected x ls []).
  { intros y. clear -Hf. induction ls as [|s ls IH]; [constructor|]. apply Forall_cons in Hf as [H1 H2]. apply c_skip; [|by apply IH].
    intros v Hd. apply H1. by eapply directive_addressed. }
  destruct (decide (x = KProperties)) as [->|].
  - rewrite (C175_properties w rn cn l p ls [] Hc Hs Hls Hp (Hcol _)). done.
  - destruct (given (l_kw l x)) eqn:E.
    + apply (C174_option_wins w rn cn l p x Hc Hp); [by apply given_yes|set_solver].
    + rewrite (C175_directives w rn cn l p ls x [] Hc Hs Hls Hp); [|set_solver|by apply given_spec|apply Hcol]. unfold value_of. by destruct (argument x).
Qed.

(** ** The jobs made *)
Lemma counted_params ls t ls' : lines_of ls t -> counted ls ls' -> param_lines t = ls'.
Proof.
  intros Hl Hc. unfold param_lines. rewrite (split_on_lines ls t Hl). clear Hl.
  assert (Hi : forall l, is_comment_or_blank l = false <-> counts l).
  { intros l. unfold is_comment_or_blank, counts. rewrite orb_false_iff, bool_decide_eq_false, lstrip_all. destruct l as [|c s].
    - split; [|intros [_ H]; by split]. intros [_ H]. by split.
    - rewrite Ascii.eqb_neq. split; intros [H1 H2]; (split; [|done]); [intros s' [= -> ->]; by apply H1|intros ->; by apply (H1 s)]. }
  induction Hc as [|l ls ls' H _ IH|l ls ls' H _ IH]; [done| |].
  - rewrite filter_cons_True by (by apply Hi). by rewrite IH.
  - rewrite filter_cons_False by (by rewrite Hi). done.
Qed.
Section made.
  Variables (w : world) (use : bool) (inline file export : option string) (rn : string -> Z -> string).
  Notation loop := (jobs_one_by_one w use inline file export rn).
  Lemma loop_ok cmds : (forall i, one_job w i <> inl 0) -> forall i b dn fs ids, s_answer (loop i cmds b dn fs) = Ok (0, ids) ->
    m_cmd <$> s_made (loop i cmds b dn fs) = (m_cmd <$> dn) ++ cmds /\ ids = m_id <$> s_made (loop i cmds b dn fs).
  Proof.
    intros Hs. induction cmds as [|c cmds IH]; intros i b dn fs ids; cbn [jobs_one_by_one].
    - cbn [s_answer s_made]. intros [= <-]. by rewrite app_nil_r.
    - destruct (key_of w i use inline file export) as [e| |priv pub b'] eqn:Ek.
      + cbn [s_answer]. intros [= -> _]. exfalso. unfold key_of, finish_key in Ek. revert Ek. repeat (case_match; try discriminate).
      + cbv zeta. destruct (one_job w i) as [e|j] eqn:Ej; [cbn [s_answer]; intros [= -> _]; by destruct (Hs i)|].
        destruct use; [destruct export as [f|]|]; [destruct (b || false)|..]; cbn [s_answer]; try discriminate; intros H; apply IH in H as [H1 H2]; rewrite H1; (split; [|done]);
          rewrite fmap_app, <- app_assoc; done.
      + cbv zeta. destruct (one_job w i) as [e|j] eqn:Ej; [cbn [s_answer]; intros [= -> _]; by destruct (Hs i)|].
        destruct use; [destruct export as [f|]|]; [destruct (b || b')|..]; cbn [s_answer]; try discriminate; intros H; apply IH in H as [H1 H2]; rewrite H1; (split; [|done]);
          rewrite fmap_app, <- app_assoc; done.
  Qed.
  Definition keyed_as (n : nat) (j : made) : Prop :=
    match key_of w n use inline file export with Key priv _ _ => m_key j = Some priv | NoKey => m_key j = None | KeyError _ => False end.
  Lemma loop_keys cmds : forall b dn fs, (forall n j, dn !! n = Some j -> keyed_as n j) ->
    forall n j, s_made (loop (length dn) cmds b dn fs) !! n = Some j -> keyed_as n j.
  Proof.
    assert (Hadd : forall dn c k j, (forall n j, dn !! n = Some j -> keyed_as n j) -> (forall e, key_of w (length dn) use inline file export <> KeyError e) ->
       k = match key_of w (length dn) use inline file export with Key priv _ _ => Some priv | _ => None end ->
       forall n j', (dn ++ [mkMade c j k]) !! n = Some j' -> keyed_as n j').
    { intros dn c k j Hd He -> n j' [H|[H1 H2]]%lookup_app_Some; [by apply Hd|]. apply list_lookup_singleton_Some in H2 as [H2 <-].
      assert (n = length dn) as -> by lia. unfold keyed_as. cbn [m_key]. destruct (key_of w (length dn) use inline file export) as [e| |]; [by destruct (He e)|done|done]. }
    induction cmds as [|c cmds IH]; intros b dn fs Hd; cbn [jobs_one_by_one]; [done|].
    assert (IH' : forall b x fs, (forall n j, (dn ++ [x]) !! n = Some j -> keyed_as n j) -> forall n j, s_made (loop (S (length dn)) cmds b (dn ++ [x]) fs) !! n = Some j -> keyed_as n j).
    { intros b' x fs' Hx. replace (S (length dn)) with (length (dn ++ [x])) by (rewrite app_length; cbn; lia). by apply IH. }
    destruct (key_of w (length dn) use inline file export) as [e| |priv pub b'] eqn:Ek; [done|..].
    - destruct (one_job w (length dn)) as [e|j]; [done|]. cbv zeta.
      assert (Hx : forall n j', (dn ++ [mkMade c j None]) !! n = Some j' -> keyed_as n j') by (apply Hadd; [done|by rewrite Ek|by rewrite Ek]).
      destruct use; [destruct export as [f|]|]; [destruct (b || false)|..]; try (apply IH'; exact Hx). exact Hx.
    - destruct (one_job w (length dn)) as [e|j]; [done|]. cbv zeta.
      assert (Hx : forall n j', (dn ++ [mkMade c j (Some priv)]) !! n = Some j' -> keyed_as n j') by (apply Hadd; [done|by rewrite Ek|by rewrite Ek]).
      destruct use; [destruct export as [f|]|]; [destruct (b || b')|..]; try (apply IH'; exact Hx). exact Hx.
  Qed.
  Lemma loop_files cmds : forall i b dn fs, Forall (fun x => snd x = ""%string) fs -> Forall (fun x => snd x = ""%string) (s_files (loop i cmds b dn fs)).
  Proof.
    induction cmds as [|c cmds IH]; intros i b dn fs Hf; cbn [jobs_one_by_one]; [done|].
    destruct (key_of w i use inline file export) as [e| |priv pub b']; [done|..]; (destruct (one_job w i) as [e|j]; [done|]); cbv zeta;
      (destruct use; [destruct export as [f|]|]); try (by apply IH); (destruct (b || _); [apply IH; apply Forall_app; split; [done|by apply Forall_singleton]|done]).
  Qed.
End made.
Lemma add_jobs_cases w rn user cmd p b (P : submitted -> Prop) :
  (forall e, e <> 0 -> P (mkSub [] [] (Ok (e, [])))) ->
  (chars_ok user_char user = true -> path_bad (used p KStdout) = false -> path_bad (used p KStderr) = false ->
    (1 <? (match lines p with [] => nb p | ls => Z.of_nat (length ls) end)) = true -> given (used p KUseKey) = false ->
    P (mkSub (zip_with (fun c j => mkMade c j None) (commands p cmd) (some_jobs w (commands p cmd))) [] (Ok (0, some_jobs w (commands p cmd))))) ->
  (chars_ok user_char user = true -> path_bad (used p KStdout) = false -> path_bad (used p KStderr) = false ->
    (1 <? (match lines p with [] => nb p | ls => Z.of_nat (length ls) end)) && negb (given (used p KUseKey)) = false ->
    P (jobs_one_by_one w (given (used p KUseKey)) (opt_text (used p KInline)) (opt_text (used p KFile)) (opt_text (used p KExport)) rn 0 (commands p cmd) b [] [])) ->
  P (add_jobs w rn user cmd p b).
Proof.
  intros H1 H2 H3. unfold add_jobs, is_true.
  destruct (chars_ok user_char user); cbn [negb]; [|by apply H1].
  destruct (given (used p KNotify) && bad_syntax w (text_of (used p KNotify))); [by apply H1|].
  destruct (path_bad (used p KStdout)); [by apply H1|]. destruct (path_bad (used p KStderr)); [by apply H1|].
  destruct (refused w (used p <$> all_keys) =? 0) eqn:Er; cbn [negb]; [|apply H1; by apply Z.eqb_neq]. cbv zeta.
  destruct ((1 <? match lines p with [] => nb p | s :: l => Z.of_nat (length (s :: l)) end) && negb (given (used p KUseKey))) eqn:Ea.
  - apply andb_true_iff in Ea as [Ea Eb]. apply negb_true_iff in Eb. apply H2; done.
  - apply H3; done.
Qed.
Lemma add_jobs_ok w rn user cmd p b ids : sane w -> s_answer (add_jobs w rn user cmd p b) = Ok (0, ids) -> ids <> [] ->
  m_cmd <$> s_made (add_jobs w rn user cmd p b) = commands p cmd /\ ids = m_id <$> s_made (add_jobs w rn user cmd p b).
Proof.
  intros [Hs1 Hs2]. apply (add_jobs_cases w rn user cmd p b (fun s => s_answer s = Ok (0, ids) -> ids <> [] -> m_cmd <$> s_made s = commands p cmd /\ ids = m_id <$> s_made s)).
  - intros e He [= -> _]. done.
  - intros _ _ _ _ _. cbn [s_answer s_made]. intros [= <-] Hne. destruct (Hs1 (commands p cmd)) as [H|H]; [done|].
    clear -H. revert H. generalize (some_jobs w (commands p cmd)). induction (commands p cmd) as [|c cs IH]; intros [|i is] H; try discriminate; [done|].
    injection H as H. cbn. destruct (IH is H) as [E1 E2]. split; [by f_equal|]. by f_equal.
  - intros _ _ _ _ H _. apply loop_ok in H; [|done]. done.
Qed.
Lemma report_ok p kd d s : o_end (report p kd d s) = Ok 0 -> exists ids, s_answer s = Ok (0, ids) /\ ids <> [] /\ o_printed (report p kd d s) = ids.
Proof.
  unfold report. destruct (s_answer s) as [[c ids]|e]; [|discriminate]. destruct (c =? 0) eqn:E; cbn [negb]; [|discriminate]. apply Z.eqb_eq in E as ->.
  destruct ids as [|i is]; [discriminate|]. intros _. exists (i :: is). done.
Qed.
Lemma oarsub_ok w rn cn l p : sane w -> l_conn l = 0 -> o_end (oarsub w rn cn l) = Ok 0 -> o_params (oarsub w rn cn l) = Some p ->
  m_cmd <$> made_by (oarsub w rn cn l) = commands p (default ""%string (l_cmd l)) /\ commands p (default ""%string (l_cmd l)) <> [] /\
  o_printed (oarsub w rn cn l) = m_id <$> made_by (oarsub w rn cn l) /\ made_by (oarsub w rn cn l) <> [].
Proof.
  intros Hs Hc Ho Hp. destruct (oarsub_inv w rn cn l Hc) as [(_ & Hn & _)|(d & p0 & p' & kd & _ & _ & _ & _ & _ & E)]; [congruence|].
  rewrite E in *. rewrite (proj1 (report_params p' kd d _)) in Hp. injection Hp as ->.
  apply report_ok in Ho as (ids & H1 & H2 & H3). unfold made_by. rewrite (proj1 (proj2 (report_params p kd d _))). rewrite H3.
  apply add_jobs_ok in H1 as [Ha Hb]; [|done|done]. split; [done|].
  assert (Hne : s_made (add_jobs w rn (l_user l) (default ""%string (l_cmd l)) p (become w || l_scan l)) <> []) by (intros En; rewrite En in Hb; done).
  split; [|done]. intros En. rewrite En in Ha. by apply fmap_nil_inv in Ha.
Qed.
(** ** C177: the jobs of an array. *)
Theorem C177_param_file w rn cn l f ls ls' : sane w -> l_conn l = 0 -> o_end (oarsub w rn cn l) = Ok 0 ->
  l_kw l KParams = VText f -> f <> ""%string -> lines_of ls (cat w f) -> counted ls ls' ->
  m_cmd <$> made_by (oarsub w rn cn l) = (fun a => default ""%string (l_cmd l) +:+ " " +:+ a)%string <$> ls'.
Proof.
  intros Hs Hc Ho Hk Hf Hl Hcl. destruct (oarsub_inv w rn cn l Hc) as [(_ & _ & Hn & _)|(d & p0 & p & kd & _ & _ & _ & _ & Hl' & E)]; [done|].
  assert (Hp : o_params (oarsub w rn cn l) = Some p) by (rewrite E; apply report_params).
  destruct (oarsub_ok w rn cn l p Hs Hc Ho Hp) as (-> & _ & _). unfold commands.
  destruct Hl' as [(_ & H1 & H2 & H3)|[H1 _]].
  - rewrite Hk in H1. cbn [text_of] in H1. rewrite (counted_params ls (cat w f) ls' Hl Hcl) in H1. destruct (lines p) as [|a r]; [done|]. by rewrite H1.
  - rewrite Hk in H1. cbn [given] in H1. rewrite bool_decide_false in H1 by done. done.
Qed.
Theorem C177_array w rn cn l p n : sane w -> l_conn l = 0 -> o_end (oarsub w rn cn l) = Ok 0 -> o_params (oarsub w rn cn l) = Some p ->
  absent (l_kw l KParams) -> used p KArray = VNum n -> n <> 0 ->
  1 <= n /\ m_cmd <$> made_by (oarsub w rn cn l) = replicate (Z.to_nat n) (default ""%string (l_cmd l)).
Proof.
  intros Hs Hc Ho Hp Hk Hn Hn0. destruct (oarsub_ok w rn cn l p Hs Hc Ho Hp) as (H1 & H2 & _).
  destruct (oarsub_inv w rn cn l Hc) as [(_ & _ & Hx & _)|(d & p0 & p' & kd & _ & Hb & _ & Hu & Hl' & E)]; [done|].
  assert (p' = p) as ->. { rewrite E in Hp. rewrite (proj1 (report_params p' kd d _)) in Hp. congruence. }
  destruct Hl' as [(H & _)|[_ ->]]; [apply given_spec in Hk; congruence|].
  apply build_inv in Hb as (m & _ & _ & Hb). rewrite Hn in Hb. rewrite (proj2 (Z.eqb_neq n 0) Hn0) in Hb. injection Hb as Hb1 Hb2.
  rewrite H1. unfold commands in *. rewrite Hb2, Hb1 in *. split; [|done]. destruct (decide (1 <= n)); [done|]. replace (Z.to_nat n) with 0%nat in H2 by lia. done.
Qed.
Theorem C177_script_file w rn cn l p f ls ls' : sane w -> l_conn l = 0 -> o_end (oarsub w rn cn l) = Ok 0 -> o_params (oarsub w rn cn l) = Some p ->
  absent (l_kw l KParams) -> absent (used p KArray) -> used p KParams = VText f -> f <> ""%string -> lines_of ls (cat w f) -> counted ls ls' ->
  m_cmd <$> made_by (oarsub w rn cn l) = (fun a => default ""%string (l_cmd l) +:+ " " +:+ a)%string <$> ls'.
Proof.
  intros Hs Hc Ho Hp Hk Hn Hf Hf0 Hl Hcl. destruct (oarsub_ok w rn cn l p Hs Hc Ho Hp) as (H1 & H2 & _).
  destruct (oarsub_inv w rn cn l Hc) as [(_ & _ & Hx & _)|(d & p0 & p' & kd & _ & Hb & _ & Hu & Hl' & E)]; [done|].
  assert (p' = p) as ->. { rewrite E in Hp. rewrite (proj1 (report_params p' kd d _)) in Hp. congruence. }
  destruct Hl' as [(H & _)|[_ ->]]; [apply given_spec in Hk; congruence|].
  apply build_inv in Hb as (m & _ & _ & Hb). rewrite Hf in Hb. cbn [given text_of] in Hb. rewrite (bool_decide_false (f = ""%string)) in Hb by done. cbn [negb] in Hb.
  rewrite (counted_params ls (cat w f) ls' Hl Hcl) in Hb. cbv zeta in Hb.
  assert (Hb' : (nb p0, lines p0) = (Z.of_nat (length ls'), ls')) by (inversion Hn as [E1|E1|E1|E1|E1|E1]; rewrite <- E1 in Hb; exact Hb).
  injection Hb' as Hb1 Hb2. rewrite H1. unfold commands in *. rewrite Hb2, Hb1 in *. by destruct ls' as [|a r].
Qed.
Theorem C177_single w rn cn l p : sane w -> l_conn l = 0 -> o_end (oarsub w rn cn l) = Ok 0 -> o_params (oarsub w rn cn l) = Some p ->
  absent (l_kw l KParams) -> absent (used p KArray) -> absent (used p KParams) -> m_cmd <$> made_by (oarsub w rn cn l) = [default ""%string (l_cmd l)].
Proof.
  intros Hs Hc Ho Hp Hk Hn Hf. destruct (oarsub_ok w rn cn l p Hs Hc Ho Hp) as (H1 & H2 & _).
  destruct (oarsub_inv w rn cn l Hc) as [(_ & _ & Hx & _)|(d & p0 & p' & kd & _ & Hb & _ & Hu & Hl' & E)]; [done|].
  assert (p' = p) as ->. { rewrite E in Hp. rewrite (proj1 (report_params p' kd d _)) in Hp. congruence. }
  destruct Hl' as [(H & _)|[_ ->]]; [apply given_spec in Hk; congruence|].
  apply build_inv in Hb as (m & _ & _ & Hb). apply given_spec in Hf. rewrite Hf in Hb.
  assert (Hb' : (nb p0, lines p0) = (1, [])) by (inversion Hn as [E1|E1|E1|E1|E1|E1]; rewrite <- E1 in Hb; exact Hb).
  injection Hb' as Hb1 Hb2. rewrite H1. unfold commands. by rewrite Hb2, Hb1.
Qed.

(** ** C178: the characters of what is accepted. *)
Lemma word_char_spec c : word_char c = true -> letter_or_digit c \/ c = "_"%char.
Proof. destruct c as [[] [] [] [] [] [] [] []]; vm_compute; intros H; try discriminate; first [by right|left; lia]. Qed.
Lemma every_imp (P Q : ascii -> Prop) s : (forall c, P c -> Q c) -> every P s -> every Q s.
Proof. intros H Hs. unfold every in *. eapply Forall_impl; [exact Hs|exact H]. Qed.
Lemma all_chars_spec p (P : ascii -> Prop) s : (forall c, p c = true -> P c) -> all_chars p s = true -> every P s.
Proof. intros H. induction s as [|c s IH]; [intros _; apply every_nil|]. cbn [all_chars]. rewrite andb_true_iff, every_cons. intros [H1 H2]. split; [by apply H|by apply IH]. Qed.
Lemma chop_spec s : chop s = s \/ s = (chop s +:+ String newline "")%string.
Proof.
  induction s as [|c s IH]; [by left|]. destruct s as [|d s].
  - cbn [chop]. destruct (Ascii.eqb c newline) eqn:E; [apply Ascii.eqb_eq in E as ->; by right|by left].
  - change (chop (String c (String d s))) with (String c (chop (String d s))). destruct IH as [->|E]; [by left|right]. rewrite scons_app. by rewrite <- E.
Qed.
Lemma chars_ok_spec p (P : ascii -> Prop) s : (forall c, p c = true -> P c) -> chars_ok p s = true -> every P s \/ exists s', s = (s' +:+ String newline "")%string /\ every P s'.
Proof.
  intros H. unfold chars_ok. rewrite orb_true_iff, !andb_true_iff. intros [[H1 _]|[H1 _]]; [left; by eapply all_chars_spec|].
  destruct (chop_spec s) as [E|E]; [left; rewrite <- E|right; exists (chop s); split; [done|]]; by eapply all_chars_spec.
Qed.
Lemma of_user_spec c : user_char c = true -> of_user c.
Proof. unfold user_char, of_user. rewrite orb_true_iff, Ascii.eqb_eq. intros [H| ->]; [apply word_char_spec in H as [H| ->]; [by left|right; by_dec]|right; by_dec]. Qed.
Lemma of_name_spec c : name_char c = true -> of_name c.
Proof. unfold name_char, of_name. rewrite !orb_true_iff, !Ascii.eqb_eq. intros [[H| ->]| ->]; [apply word_char_spec in H as [H| ->]; [by left|right; by_dec]|right; by_dec|right; by_dec]. Qed.
Lemma of_path_spec c : path_char c = true -> of_path c.
Proof.
  unfold path_char, of_path. rewrite orb_true_iff. intros [H|H]; [apply word_char_spec in H as [H| ->]; [by left|right; by_dec]|].
  right. apply existsb_exists in H as (d & Hd & E). apply Ascii.eqb_eq in E as ->. apply elem_of_list_In in Hd. set_solver.
Qed.
Lemma made_user w rn user cmd p b : s_made (add_jobs w rn user cmd p b) <> [] ->
  chars_ok user_char user = true /\ path_bad (used p KStdout) = false /\ path_bad (used p KStderr) = false.
Proof. apply (add_jobs_cases w rn user cmd p b (fun s => s_made s <> [] -> chars_ok user_char user = true /\ path_bad (used p KStdout) = false /\ path_bad (used p KStderr) = false)); [done|done|done]. Qed.
Theorem C178_characters w rn cn l p : l_conn l = 0 -> o_params (oarsub w rn cn l) = Some p -> made_by (oarsub w rn cn l) <> [] ->
  (forall s, used p KName = VText s -> every of_name s) /\
  (forall k s, k ∈ [KStdout; KStderr] -> used p k = VText s -> every of_path s \/ exists s', s = (s' +:+ String newline "")%string /\ every of_path s') /\
  (every of_user (l_user l) \/ exists s', l_user l = (s' +:+ String newline "")%string /\ every of_user s').
Proof.
  intros Hc Hp Hm. destruct (oarsub_inv w rn cn l Hc) as [(_ & Hn & _)|(d & p0 & p' & kd & _ & _ & Hk & Hu & _ & E)]; [congruence|].
  rewrite E in Hp. rewrite (proj1 (report_params p' kd d _)) in Hp. injection Hp as ->.
  unfold made_by in Hm. rewrite E in Hm. rewrite (proj1 (proj2 (report_params p kd d _))) in Hm. apply made_user in Hm as (H1 & H2 & H3).
  split; [|split].
  - intros s Hs. rewrite Hu in Hs. unfold check in Hk. revert Hk. cbv zeta.
    destruct (negb (has_command (l_cmd l)) && negb (l_inter l) && negb (negb (d =? 0)) && negb false && negb (bool_decide ("noop"%string ∈ types_of (used p0 KTypes)))); [done|].
    destruct (l_inter l && negb (d =? 0)); [done|].
    destruct (l_inter l && bool_decide ("desktop_computing"%string ∈ types_of (used p0 KTypes))); [done|].
    destruct (existsb noop_like (types_of (used p0 KTypes)) && (l_inter l || false)); [done|].
    destruct (given (used p0 KNotify) && negb (bad_notify w (text_of (used p0 KNotify)) =? 0)) eqn:En.
    { apply andb_true_iff in En as [_ En]. apply negb_true_iff, Z.eqb_neq in En. done. }
    destruct (given (used p0 KName) && negb (all_chars name_char (text_of (used p0 KName)))) eqn:Ea; [done|]. intros _.
    rewrite Hs in Ea. cbn [given text_of] in Ea. destruct (bool_decide (s = ""%string)) eqn:Es; [apply bool_decide_eq_true in Es as ->; apply every_nil|].
    cbn [negb andb] in Ea. apply negb_false_iff in Ea. by apply (all_chars_spec name_char); [apply of_name_spec|].
  - intros k s Hks Hs. assert (Hb : path_bad (used p k) = false) by (apply elem_of_cons in Hks as [->|Hks]; [done|apply elem_of_list_singleton in Hks as ->; done]).
    rewrite Hs in Hb. unfold path_bad in Hb. cbn [given text_of] in Hb. destruct (bool_decide (s = ""%string)) eqn:Es; [apply bool_decide_eq_true in Es as ->; left; apply every_nil|].
    cbn [negb andb] in Hb. apply negb_false_iff in Hb. by apply (chars_ok_spec path_char); [apply of_path_spec|].
  - by apply (chars_ok_spec user_char); [apply of_user_spec|].
Qed.

(** ** C179: oarsub -C *)
Theorem C179_connected cosystem deploy me j ssh h u e : connect_job cosystem deploy me j ssh = Connected h u e ->
  exists x, j = Some x /\ c_state x = "Running"%string /\ (me = Some (c_user x) \/ me = Some "oar"%string) /\ "noop"%string ∉ c_types x /\ u = c_user x
    /\ right_host cosystem deploy x h.
Proof.
  unfold connect_job. destruct j as [x|]; [|discriminate].
  destruct ((bool_decide (me = Some (c_user x)) || bool_decide (me = Some "oar"%string)) && bool_decide (c_state x = "Running"%string)) eqn:E; [|discriminate].
  apply andb_true_iff in E as [E1 E2]. apply bool_decide_eq_true in E2. apply orb_true_iff in E1. rewrite !bool_decide_eq_true in E1.
  destruct (bool_decide ("noop"%string ∈ c_types x)) eqn:En; [discriminate|]. apply bool_decide_eq_false in En.
  destruct (c_hosts x) as [|h0 hs] eqn:Eh; [discriminate|]. cbv zeta. intros [= <- <- _]. exists x. repeat (split; [done|]).
  unfold right_host. destruct (bool_decide ("cosystem"%string ∈ c_types x)) eqn:Ec; [apply bool_decide_eq_true in Ec; by left|apply bool_decide_eq_false in Ec].
  destruct (bool_decide ("deploy"%string ∈ c_types x)) eqn:Ed; [apply bool_decide_eq_true in Ed; right; by left|apply bool_decide_eq_false in Ed].
  right; right. by rewrite Eh.
Qed.
Theorem C179_refused cosystem deploy me x ssh : c_state x <> "Running"%string \/ (me <> Some (c_user x) /\ me <> Some "oar"%string) ->
  connect_job cosystem deploy me (Some x) ssh = Refused 20.
Proof.
  intros H. unfold connect_job. destruct ((bool_decide (me = Some (c_user x)) || bool_decide (me = Some "oar"%string)) && bool_decide (c_state x = "Running"%string)) eqn:E; [|done].
  exfalso. apply andb_true_iff in E as [E1 E2]. apply bool_decide_eq_true in E2. apply orb_true_iff in E1. rewrite !bool_decide_eq_true in E1. tauto.
Qed.
Theorem C179_accepted cosystem deploy me x ssh : c_state x = "Running"%string -> me = Some (c_user x) \/ me = Some "oar"%string -> "noop"%string ∉ c_types x -> c_hosts x <> [] ->
  exists h e, connect_job cosystem deploy me (Some x) ssh = Connected h (c_user x) e.
Proof.
  intros H1 H2 H3 H4. unfold connect_job. rewrite (bool_decide_true (c_state x = _)) by done. rewrite (bool_decide_false ("noop"%string ∈ _)) by done.
  replace (bool_decide (me = Some (c_user x)) || bool_decide (me = Some "oar"%string)) with true; [|symmetry; apply orb_true_iff; rewrite !bool_decide_eq_true; done].
  destruct (c_hosts x) as [|h hs]; [done|]. cbn [andb]. eauto.
Qed.
(** The exit value of a connection that fails is lost: 0 is returned. *)
Theorem C179_failure_lost_refuted cosystem deploy me j ssh h u e : connect_job cosystem deploy me j ssh = Connected h u e -> 0 <= ssh <= 255 -> e = 0.
Proof.
  unfold connect_job. destruct j as [x|]; [|discriminate].
  destruct ((bool_decide (me = Some (c_user x)) || bool_decide (me = Some "oar"%string)) && bool_decide (c_state x = "Running"%string)); [|discriminate].
  destruct (bool_decide ("noop"%string ∈ c_types x)); [discriminate|]. destruct (c_hosts x) as [|h0 hs]; [discriminate|]. cbv zeta. intros [= _ _ <-] Hs.
  rewrite Z.shiftr_div_pow2 by lia. change (2 ^ 8) with 256. rewrite Z.div_small by lia. done.
Qed.

(** ** C180: job keys *)
Lemma opt_text_none v : opt_text v = None <-> unused v.
Proof.
  unfold opt_text, unused. destruct v as [| |s| | |]; try (split; [intros _ t; discriminate|done]).
  destruct (bool_decide (s = ""%string)) eqn:E; [apply bool_decide_eq_true in E as ->|apply bool_decide_eq_false in E].
  - split; [|done]. by intros _ t [= <-].
  - split; [done|]. intros H. by destruct (E (H s eq_refl)).
Qed.
Lemma opt_text_some v s : opt_text v = Some s -> v = VText s /\ s <> ""%string.
Proof.
  unfold opt_text. destruct v as [| |s'| | |]; try discriminate. destruct (bool_decide (s' = ""%string)) eqn:E; [discriminate|]. apply bool_decide_eq_false in E. by intros [= <-].
Qed.
Lemma finish_key_inv priv pub b priv' pub' b' : finish_key priv pub b = Key priv' pub' b' -> priv' = priv.
Proof. unfold finish_key. repeat (case_match; try discriminate). by intros [= <- _ _]. Qed.
Lemma key_of_right w i vi vf ve priv pub b : key_of w i true (opt_text vi) (opt_text vf) ve = Key priv pub b -> right_key w vi vf i priv.
Proof.
  unfold key_of, right_key. cbn [negb]. intros H.
  destruct (opt_text vi) as [t|] eqn:Ei.
  - apply opt_text_some in Ei as [-> Hi]. destruct (opt_text vf) as [f|] eqn:Ef; [discriminate|]. apply opt_text_none in Ef.
    destruct (public_of w t) as [pb|]; [|discriminate]. apply finish_key_inv in H as ->. by left.
  - apply opt_text_none in Ei. destruct (opt_text vf) as [f|] eqn:Ef.
    + apply opt_text_some in Ef as [-> Hf]. destruct (public_of w (cat w f)) as [pb|]; [|discriminate]. apply finish_key_inv in H as ->. right; left. split; [done|]. by exists f.
    + apply opt_text_none in Ef. destruct (key_env w) as [f|] eqn:Ev.
      * destruct (public_of w (cat w f)) as [pb|]; [|discriminate]. apply finish_key_inv in H as ->. right; right; left. split; [done|]. split; [done|]. by exists f.
      * destruct (generated w i) as [[pr pb]|] eqn:Eg; [|discriminate]. apply finish_key_inv in H as ->. right; right; right. repeat (split; [done|]). by exists pb.
Qed.
Lemma key_of_use w i inline file export : key_of w i true inline file export <> NoKey.
Proof. unfold key_of, finish_key. cbn [negb]. repeat case_match; discriminate. Qed.
Theorem C180_key w rn cn l p i j : l_conn l = 0 -> o_params (oarsub w rn cn l) = Some p -> made_by (oarsub w rn cn l) !! i = Some j ->
  (absent (used p KUseKey) /\ m_key j = None) \/
  (~ absent (used p KUseKey) /\ exists k, m_key j = Some k /\ right_key w (used p KInline) (used p KFile) i k).
Proof.
  intros Hc Hp. destruct (oarsub_inv w rn cn l Hc) as [(_ & Hn & _)|(d & p0 & p' & kd & _ & _ & _ & _ & _ & E)]; [congruence|].
  rewrite E in Hp. rewrite (proj1 (report_params p' kd d _)) in Hp. injection Hp as ->.
  unfold made_by. rewrite E. rewrite (proj1 (proj2 (report_params p kd d _))).
  set (P := fun s => s_made s !! i = Some j -> (absent (used p KUseKey) /\ m_key j = None) \/ (~ absent (used p KUseKey) /\ exists k, m_key j = Some k /\ right_key w (used p KInline) (used p KFile) i k)).
  apply (add_jobs_cases w rn (l_user l) (default ""%string (l_cmd l)) p (become w || l_scan l) P); unfold P; clear P.
  - done.
  - intros _ _ _ _ Hu. cbn [s_made]. intros H. apply lookup_zip_with_Some in H as (c & k & -> & _). left. split; [by apply given_spec|done].
  - intros _ _ _ _ H. apply (loop_keys w _ _ _ _ rn _ _ []) in H; [|done]. unfold keyed_as in H. destruct (given (used p KUseKey)) eqn:Eu.
    + right. split; [by apply given_yes|]. destruct (key_of w i true (opt_text (used p KInline)) (opt_text (used p KFile)) (opt_text (used p KExport))) as [e| |pr pb b'] eqn:Ek; [done|by apply key_of_use in Ek|].
      exists pr. split; [done|]. by apply key_of_right in Ek.
    + left. split; [by apply given_spec|]. destruct (key_of w i false (opt_text (used p KInline)) (opt_text (used p KFile)) (opt_text (used p KExport))) as [e| |pr pb b'] eqn:Ek; [done|done|].
      revert Ek. unfold key_of. cbn [negb]. repeat case_match; discriminate.
Qed.
(** An option about keys without -k: refused, for a single job. *)
Theorem C180_forbidden_partial w rn cn l p k : l_conn l = 0 -> o_params (oarsub w rn cn l) = Some p -> absent (used p KUseKey) ->
  k ∈ [KInline; KFile; KExport] -> ~ unused (used p k) -> absent (l_kw l KParams) -> absent (used p KArray) -> absent (used p KParams) ->
  made_by (oarsub w rn cn l) = [] /\ o_end (oarsub w rn cn l) <> Ok 0.
Proof.
  intros Hc Hp Hu Hk Hg Hf1 Hf2 Hf3. destruct (oarsub_inv w rn cn l Hc) as [(_ & Hn & _)|(d & p0 & p' & kd & _ & Hb & _ & _ & Hl' & E)]; [congruence|].
  rewrite E in Hp. rewrite (proj1 (report_params p' kd d _)) in Hp. injection Hp as ->.
  destruct Hl' as [(H & _)|[_ ->]]; [apply given_spec in Hf1; congruence|].
  apply build_inv in Hb as (m & _ & _ & Hb). apply given_spec in Hf3. rewrite Hf3 in Hb.
  assert (Hb' : (nb p0, lines p0) = (1, [])) by (inversion Hf2 as [E1|E1|E1|E1|E1|E1]; rewrite <- E1 in Hb; exact Hb). injection Hb' as Hb1 Hb2.
  unfold made_by. rewrite E. rewrite (proj1 (proj2 (report_params p0 kd d _))).
  assert (HH : forall s, s_made s = [] -> (exists e, e <> 0 /\ s_answer s = Ok (e, [])) -> s_made s = [] /\ o_end (report p0 kd d s) <> Ok 0).
  { intros s H1 (e & He & H2). split; [done|]. unfold report. rewrite H2. apply Z.eqb_neq in He. rewrite He. done. }
  set (P := fun s => s_made s = [] /\ o_end (report p0 kd d s) <> Ok 0).
  apply (add_jobs_cases w rn (l_user l) (default ""%string (l_cmd l)) p0 (become w || l_scan l) P); unfold P; clear P.
  - intros e He. apply HH; [done|]. by exists e.
  - rewrite Hb2, Hb1. intros _ _ _ H. vm_compute in H. discriminate.
  - intros _ _ _ _. apply given_spec in Hu. rewrite Hu. unfold commands. rewrite Hb2, Hb1. change (replicate (Z.to_nat 1) (default ""%string (l_cmd l))) with [default ""%string (l_cmd l)].
    cbn [jobs_one_by_one].
    assert (Ek : key_of w 0 false (opt_text (used p0 KInline)) (opt_text (used p0 KFile)) (opt_text (used p0 KExport)) = KeyError (-15)).
    { unfold key_of. cbn [negb].
      destruct (opt_text (used p0 KInline)) eqn:E1; [done|]. destruct (opt_text (used p0 KFile)) eqn:E2; [done|]. destruct (opt_text (used p0 KExport)) eqn:E3; [done|].
      apply opt_text_none in E1, E2, E3. exfalso. apply elem_of_cons in Hk as [->|Hk]; [done|]. apply elem_of_cons in Hk as [->|Hk]; [done|]. apply elem_of_list_singleton in Hk as ->. done. }
    rewrite Ek. apply HH; [done|]. exists (-15). done.
Qed.
(** The files written by -e never hold the key. *)
Theorem C180_export_refuted w rn cn l s f c : o_sub (oarsub w rn cn l) = Some s -> l_conn l = 0 -> (f, c) ∈ s_files s -> c = ""%string.
Proof.
  intros Hs Hc Hin. destruct (oarsub_inv w rn cn l Hc) as [(Hn & _)|(d & p0 & p' & kd & _ & _ & _ & _ & _ & E)]; [congruence|].
  rewrite E in Hs. rewrite (proj1 (proj2 (report_params p' kd d _))) in Hs. injection Hs as <-.
  assert (H : Forall (fun x => snd x = ""%string) (s_files (add_jobs w rn (l_user l) (default ""%string (l_cmd l)) p' (become w || l_scan l)))).
  { apply (add_jobs_cases w rn (l_user l) (default ""%string (l_cmd l)) p' (become w || l_scan l) (fun s => Forall (fun x => snd x = ""%string) (s_files s)));
      [intros; by apply Forall_nil|intros; by apply Forall_nil|]. intros _ _ _ _. apply loop_files. by apply Forall_nil. }
  by apply (proj1 (Forall_forall _ _) H) in Hin.
Qed.

(** ** C182: what the user is told *)
Theorem C182_printed w rn cn l p : sane w -> l_conn l = 0 -> o_end (oarsub w rn cn l) = Ok 0 -> o_params (oarsub w rn cn l) = Some p ->
  o_printed (oarsub w rn cn l) = m_id <$> made_by (oarsub w rn cn l) /\ made_by (oarsub w rn cn l) <> [].
Proof. intros Hs Hc Ho Hp. by destruct (oarsub_ok w rn cn l p Hs Hc Ho Hp) as (_ & _ & ? & ?). Qed.
Lemma no_key_none w rn user cmd p b : given (used p KUseKey) = false ->
  s_made (add_jobs w rn user cmd p b) = [] \/ exists ids, s_answer (add_jobs w rn user cmd p b) = Ok (0, ids) /\ ids <> [].
Proof.
  intros Hu. apply (add_jobs_cases w rn user cmd p b (fun s => s_made s = [] \/ exists ids, s_answer s = Ok (0, ids) /\ ids <> [])).
  - by left.
  - intros _ _ _ _ _. cbn [s_made s_answer]. destruct (some_jobs w (commands p cmd)) as [|i is]; [left; by destruct (commands p cmd)|right; by exists (i :: is)].
  - intros _ _ _ Hn. rewrite Hu in *. cbn [negb] in Hn. rewrite andb_true_r in Hn. apply Z.ltb_ge in Hn.
    assert (Hc : commands p cmd = [] \/ exists c, commands p cmd = [c]).
    { unfold commands. destruct (lines p) as [|a [|a' r]]; [|right; eexists; reflexivity|cbn [length] in Hn; lia].
      destruct (decide (nb p = 1)) as [->|]; [right; exists cmd; reflexivity|left]. replace (Z.to_nat (nb p)) with 0%nat by lia. done. }
    destruct Hc as [->|[c ->]]; [by left|]. cbn [jobs_one_by_one].
    destruct (key_of w 0 false (opt_text (used p KInline)) (opt_text (used p KFile)) (opt_text (used p KExport))) as [e| |priv pub b'] eqn:Ek.
    + by left.
    + destruct (one_job w 0) as [e|j]; [by left|]. right. cbn. exists [j]. done.
    + destruct (one_job w 0) as [e|j]; [by left|]. right. cbn. exists [j]. done.
Qed.
Theorem C182_refused_partial w rn cn l : l_conn l = 0 -> (forall p, o_params (oarsub w rn cn l) = Some p -> absent (used p KUseKey)) ->
  o_end (oarsub w rn cn l) <> Ok 0 -> made_by (oarsub w rn cn l) = [] /\ o_printed (oarsub w rn cn l) = [].
Proof.
  intros Hc Hk Ho. destruct (oarsub_inv w rn cn l Hc) as [(Hn & _ & _ & Hpr)|(d & p0 & p & kd & _ & _ & _ & _ & _ & E)]; [unfold made_by; by rewrite Hn|].
  assert (Hp : o_params (oarsub w rn cn l) = Some p) by (rewrite E; apply report_params). apply Hk, given_spec in Hp.
  rewrite E in *. unfold made_by. rewrite (proj1 (proj2 (report_params p kd d _))).
  destruct (no_key_none w rn (l_user l) (default ""%string (l_cmd l)) p (become w || l_scan l) Hp) as [H|(ids & H & Hi)].
  - split; [done|]. revert Ho. unfold report. destruct (s_answer _) as [[c ids]|e]; [|done]. destruct (negb (c =? 0)); [done|]. by destruct ids.
  - exfalso. apply Ho. unfold report. rewrite H. cbn. by destruct ids.
Qed.

(** ** C183: the date of a reservation *)
Definition no_digit (s : string) : Prop := forall c r, s = String c r -> ~ digit_char c.
Lemma run_digits_sound n : forall s d r, run_digits n s = (d, r) -> s = (d +:+ r)%string /\ every digit_char d /\ (String.length d <= n)%nat.
Proof.
  induction n as [|n IH]; intros s d r; cbn [run_digits].
  - intros [= <- <-]. split; [done|]. split; [apply every_nil|cbn; lia].
  - destruct s as [|c s]; [intros [= <- <-]; split; [done|split; [apply every_nil|cbn; lia]]|]. destruct (is_digit c) eqn:Ec.
    + destruct (run_digits n s) as [d' r'] eqn:E. intros [= <- <-]. apply IH in E as (-> & H1 & H2). split; [done|]. split; [apply every_cons; split; [by apply digit_spec|done]|cbn; lia].
    + intros [= <- <-]. split; [done|]. split; [apply every_nil|cbn; lia].
Qed.
Lemma run_digits_complete n : forall d r, every digit_char d -> (String.length d <= n)%nat -> no_digit r -> run_digits n (d +:+ r) = (d, r).
Proof.
  induction n as [|n IH]; intros d r Hd Hl Hr.
  - destruct d as [|c d]; [done|cbn in Hl; lia].
  - destruct d as [|c d].
    + rewrite snil_app. destruct r as [|c r]; [done|]. cbn [run_digits]. destruct (is_digit c) eqn:E; [|done]. apply digit_spec in E. by destruct (Hr c r).
    + apply every_cons in Hd as [Hc Hd]. rewrite scons_app. cbn [run_digits]. rewrite (proj2 (digit_spec c) Hc). rewrite IH; [done|done|cbn in Hl; lia|done].
Qed.
Lemma field_sound lo hi sep s k l : field lo hi sep s k = Some l -> exists t n r r', s = (t +:+ r)%string /\ between lo hi t n /\ sep r = Some r' /\ k n r' = Some l.
Proof.
  unfold field, take_number. destruct (run_digits hi s) as [d r] eqn:E. apply run_digits_sound in E as (-> & H1 & H2).
  destruct (lo <=? String.length d)%nat eqn:El; [|discriminate]. apply Nat.leb_le in El. destruct (sep r) as [r'|] eqn:Es; [|discriminate]. intros Hk.
  exists d, (number_from 0 d), r, r'. split; [done|]. split; [|done]. split; [lia|]. split; [done|]. apply number_from_spec.
Qed.
Lemma field_complete lo hi sep t n r r' k : between lo hi t n -> no_digit r -> sep r = Some r' -> field lo hi sep (t +:+ r) k = k n r'.
Proof.
  intros ([H1 H2] & Hd & ->) Hr Hs. unfold field, take_number. rewrite run_digits_complete by done. rewrite (proj2 (Nat.leb_le _ _) H1). rewrite Hs.
  unfold number. by rewrite <- number_from_spec.
Qed.
Lemma take_char_spec c s r : take_char c s = Some r <-> s = String c r.
Proof.
  unfold take_char. destruct s as [|d s]; [done|]. destruct (Ascii.eqb c d) eqn:E; [apply Ascii.eqb_eq in E as ->; split; congruence|]. apply Ascii.eqb_neq in E. split; congruence.
Qed.
Lemma between_start lo hi t n r : between lo hi t n -> (1 <= lo)%nat -> forall c s, (t +:+ r)%string = String c s -> ~ blank_char c.
Proof.
  intros ([H1 _] & Hd & _) Hlo c s E. destruct t as [|d t]; [cbn in H1; lia|]. rewrite scons_app in E. injection E as -> _. apply every_cons in Hd as [Hd _]. by apply digit_nonblank.
Qed.
Lemma parse_date_spec s y mo d h mi se : parse_date s = Some [y; mo; d; h; mi; se] <-> date_text s y mo d h mi se.
Proof.
  unfold parse_date. split.
  - intros H. destruct (lstrip_spec s) as (s0 & Hs0 & Es & _).
    apply field_sound in H as (ty & y' & r1 & r1' & E1 & By & S1 & H). apply take_char_spec in S1 as ->.
    apply field_sound in H as (tm & mo' & r2 & r2' & -> & Bm & S2 & H). apply take_char_spec in S2 as ->.
    apply field_sound in H as (td & d' & r3 & r3' & -> & Bd & S3 & H).
    unfold take_blanks in S3. destruct r3 as [|b r3]; [discriminate|]. destruct (is_blank b) eqn:Eb; [|discriminate]. assert (S3' : lstrip (String b r3) = r3') by congruence.
    destruct (lstrip_spec (String b r3)) as (s1 & Hs1 & Es1 & Hs1'). rewrite S3' in Es1, Hs1'.
    apply field_sound in H as (th & h' & r4 & r4' & E4 & Bh & S4 & H). apply take_char_spec in S4 as ->.
    apply field_sound in H as (ti & mi' & r5 & r5' & -> & Bi & S5 & H). apply take_char_spec in S5 as ->.
    apply field_sound in H as (ts & se' & r6 & r6' & -> & Bs & S6 & H). unfold take_end in S6. destruct (bool_decide (lstrip r6 = ""%string)) eqn:E6; [|discriminate].
    apply bool_decide_eq_true, lstrip_all in E6. injection H as <- <- <- <- <- <-.
    exists s0, ty, tm, td, s1, th, ti, ts, r6. split; [done|]. split; [done|]. split.
    { intros ->. rewrite snil_app in Es1. apply blank_spec in Eb. by destruct (Hs1' b r3). }
    repeat (split; [done|]). rewrite Es. rewrite E1. rewrite Es1, E4. reflexivity.
  - intros (s0 & ty & tm & td & s1 & th & ti & ts & s2 & H0 & H1 & H1n & H2 & By & Bm & Bd & Bh & Bi & Bs & ->).
    assert (Hsep : forall c r, ~ digit_char c -> no_digit (String c r)) by (intros c r Hc c' r' [= <- <-]; done).
    assert (Hb : forall c, blank_char c -> ~ digit_char c) by (intros c Hc Hd; by apply digit_nonblank in Hd).
    rewrite lstrip_blanks by done.
    assert (Hst : forall t r lo hi n, between lo hi t n -> (1 <= lo)%nat -> lstrip (t +:+ r) = (t +:+ r)%string).
    { intros t r lo hi n Hbt Hlo. destruct t as [|c t]; [destruct Hbt as ([? _] & _); cbn in *; lia|]. rewrite scons_app. apply lstrip_start. apply (between_start lo hi (String c t) n r Hbt Hlo c (t +:+ r)). done. }
    rewrite (Hst ty _ 4%nat 4%nat y By) by lia.
    rewrite (field_complete 4 4 _ ty y _ (tm +:+ "-" +:+ td +:+ s1 +:+ th +:+ ":" +:+ ti +:+ ":" +:+ ts +:+ s2)%string _ By);
      [|apply Hsep; vm_compute; lia|by apply take_char_spec].
    rewrite (field_complete 1 2 _ tm mo _ (td +:+ s1 +:+ th +:+ ":" +:+ ti +:+ ":" +:+ ts +:+ s2)%string _ Bm);
      [|apply Hsep; vm_compute; lia|by apply take_char_spec].
    rewrite (field_complete 1 2 _ td d _ (th +:+ ":" +:+ ti +:+ ":" +:+ ts +:+ s2)%string _ Bd).
    2: { destruct s1 as [|b s1]; [done|]. rewrite scons_app. apply Hsep. apply Hb. by apply every_cons in H1 as [? _]. }
    2: { destruct s1 as [|b s1]; [done|]. rewrite scons_app. unfold take_blanks. pose proof (proj1 (every_cons _ _ _) H1) as [Hb1 _]. rewrite (proj2 (blank_spec b) Hb1).
         rewrite <- scons_app, lstrip_blanks by done. f_equal. by apply (Hst th _ 1%nat 2%nat h). }
    rewrite (field_complete 1 2 _ th h _ (ti +:+ ":" +:+ ts +:+ s2)%string _ Bh); [|apply Hsep; vm_compute; lia|by apply take_char_spec].
    rewrite (field_complete 1 2 _ ti mi _ (ts +:+ s2)%string _ Bi); [|apply Hsep; vm_compute; lia|by apply take_char_spec].
    rewrite (field_complete 1 2 _ ts se _ ""%string _ Bs); [done| |].
    + intros c r ->. apply every_cons in H2 as [H2 _]. by apply Hb.
    + unfold take_end. apply lstrip_all in H2. by rewrite bool_decide_true.
Qed.
Lemma parse_date_six s l : parse_date s = Some l -> exists y mo d h mi se, l = [y; mo; d; h; mi; se].
Proof.
  unfold parse_date. intros H. do 6 (apply field_sound in H as (? & ? & ? & ? & _ & _ & _ & H)). injection H as <-. eauto 10.
Qed.
Lemma leap_spec y : leap y = true <-> is_leap y.
Proof.
  unfold leap, is_leap. rewrite orb_true_iff, andb_true_iff, negb_true_iff, !Z.eqb_eq, Z.eqb_neq. rewrite !Z.mod_divide by lia. split.
  - intros [[H1 H2]|H]; [by split; [|left]|]. split; [|by right]. apply (Z.divide_trans _ 400); [by exists 100|done].
  - intros [H1 [H2|H2]]; [by left|by right].
Qed.
Lemma date_exists_spec y mo d h mi se : date_exists [y; mo; d; h; mi; se] = true <-> real_date y mo d h mi se.
Proof.
  unfold date_exists, real_date. rewrite !andb_true_iff, !Z.leb_le.
  assert (Hd : d <= month_days y mo <-> exists n, days_in y mo n /\ d <= n).
  { unfold month_days, days_in. destruct (mo =? 2) eqn:Em.
    - apply Z.eqb_eq in Em as ->. rewrite (decide_True (P := 2 = 2)) by done. destruct (leap y) eqn:El.
      + apply leap_spec in El. split; [intros H; exists 29; split; [by right|done]|]. intros (n & [->|(_ & _ & ->)] & H); lia.
      + split; [intros H; exists 28; split; [by left|done]|]. intros (n & [->|(_ & H' & ->)] & H); [lia|]. apply leap_spec in H'. congruence.
    - apply Z.eqb_neq in Em. rewrite (decide_False (P := mo = 2)) by done. destruct (decide (mo ∈ [4; 6; 9; 11])) as [Hi|Hi].
      + rewrite bool_decide_true by done. split; [intros H; exists 30; split; [by left|done]|]. intros (n & [->|(Hm2 & _)] & H); [lia|done].
      + rewrite bool_decide_false by done. split; [intros H; exists 31; split; [by left|done]|]. intros (n & [->|(Hm2 & _)] & H); [lia|done]. }
  rewrite Hd. tauto.
Qed.
Theorem C183_date w rn cn l p s y mo d h mi se : l_conn l = 0 -> l_resv l = Some s -> date_text s y mo d h mi se -> o_params (oarsub w rn cn l) = Some p ->
  real_date y mo d h mi se /\ o_resv (oarsub w rn cn l) = mktime w [y; mo; d; h; mi; se].
Proof.
  intros Hc Hr Hd Hp. destruct (oarsub_inv w rn cn l Hc) as [(_ & Hn & _)|(dd & p0 & p' & kd & Hre & _ & _ & _ & _ & E)]; [congruence|].
  unfold reservation_of in Hre. rewrite Hr in Hre.
  assert (Hs : s <> ""%string) by (intros ->; apply parse_date_spec in Hd; vm_compute in Hd; discriminate).
  rewrite bool_decide_false in Hre by done. unfold reservation_date in Hre. rewrite (proj2 (parse_date_spec s y mo d h mi se) Hd) in Hre.
  destruct (date_exists [y; mo; d; h; mi; se]) eqn:Ed; [|discriminate]. apply date_exists_spec in Ed. injection Hre as <-. split; [done|].
  rewrite E. apply report_params.
Qed.
Theorem C183_refused w rn cn l s : l_resv l = Some s -> s <> ""%string -> (forall y mo d h mi se, ~ (date_text s y mo d h mi se /\ real_date y mo d h mi se)) ->
  made_by (oarsub w rn cn l) = [] /\ o_end (oarsub w rn cn l) <> Ok 0.
Proof.
  intros Hr Hs Hn. unfold made_by, oarsub, reservation_of. rewrite Hr, bool_decide_false by done. unfold reservation_date.
  destruct (parse_date s) as [ll|] eqn:E; [|done]. destruct (parse_date_six s ll E) as (y & mo & d & h & mi & se & ->). apply parse_date_spec in E.
  destruct (date_exists [y; mo; d; h; mi; se]) eqn:Ed; [|done]. apply date_exists_spec in Ed. exfalso. by apply (Hn y mo d h mi se).
Qed.
(** A date of the right form that is not in the calendar: the command stops with an exception instead of a message. *)
Theorem C183_impossible_refuted w rn cn l s y mo d h mi se : l_resv l = Some s -> date_text s y mo d h mi se -> ~ real_date y mo d h mi se ->
  o_end (oarsub w rn cn l) = Err EValue.
Proof.
  intros Hr Hd Hn. unfold oarsub, reservation_of. rewrite Hr.
  assert (Hs : s <> ""%string) by (intros ->; apply parse_date_spec in Hd; vm_compute in Hd; discriminate).
  rewrite bool_decide_false by done. unfold reservation_date. rewrite (proj2 (parse_date_spec s y mo d h mi se) Hd).
  destruct (date_exists [y; mo; d; h; mi; se]) eqn:Ed; [|done]. by apply date_exists_spec in Ed.
Qed.

(** ** C181: POST /jobs *)
Lemma add_jobs_ext w rn user cmd p p' b : (forall k, used p k = used p' k) -> nb p = nb p' -> lines p = lines p' -> add_jobs w rn user cmd p b = add_jobs w rn user cmd p' b.
Proof.
  intros Hu Hn Hl. unfold add_jobs, commands. rewrite !Hu, Hn, Hl. rewrite (list_fmap_ext (used p) (used p') all_keys); [done|intros; apply Hu].
Qed.
Lemma check_ext w p p' cmd i r c : (forall k, used p k = used p' k) -> check w p cmd i r c = check w p' cmd i r c.
Proof. intros Hu. unfold check. by rewrite !Hu. Qed.
Lemma build_ext w cmd kw kw' al : (forall k, kw k = kw' k) ->
  match build w false cmd kw al, build w false cmd kw' al with
  | Ok (inl a), Ok (inl b) => a = b | Ok (inr p), Ok (inr p') => (forall k, used p k = used p' k) /\ nb p = nb p' /\ lines p = lines p' | Err a, Err b => a = b | _, _ => False end.
Proof.
  intros H. unfold build. cbn [rbind]. assert (Hm : forall k, merged false kw (fun _ => None) k = merged false kw' (fun _ => None) k) by (intros k; unfold merged; by rewrite H).
  rewrite !Hm. destruct (match merged false kw' (fun _ => None) KArray with VNum n => _ | _ => _ end) as [n ls]. destruct (bad_request w (merged false kw' (fun _ => None) KResource)); [done|].
  cbn [used nb lines]. done.
Qed.
Lemma post_ext w rn c kw kw' rv al wd wd' u : (forall k, k ∉ [KFile; KExport; KParams] -> kw k = kw' k) ->
  seen (post_job w rn (mkRequest c kw rv al wd u)) = seen (post_job w rn (mkRequest c kw' rv al wd' u)).
Proof.
  intros H. unfold post_job. cbn [a_resv a_lines a_cmd a_user].
  destruct (match rv with Some s => if bool_decide (s = ""%string) then Ok (inr 0) else reservation_date w s | None => Ok (inr 0) end) as [d|e]; [|done]. cbn [rbind].
  set (ls := match al with Some t => if bool_decide (t = ""%string) then [] else split_on newline t | None => [] end). clearbody ls.
  assert (Hk : forall k, api_kw (mkRequest c kw rv al wd u) k = api_kw (mkRequest c kw' rv al wd' u) k).
  { intros k. destruct k; cbn [api_kw a_kw]; try reflexivity; apply H; by_dec. }
  pose proof (build_ext w (Some c) _ _ ls Hk) as Hb.
  destruct (build w false (Some c) (api_kw (mkRequest c kw rv al wd u)) ls) as [[e|p]|e]; destruct (build w false (Some c) (api_kw (mkRequest c kw' rv al wd' u)) ls) as [[e'|p']|e']; try done;
    cbn [rbind]; [|by rewrite Hb].
  destruct Hb as (Hu & Hn & Hl). rewrite (check_ext w p p' _ _ _ _ Hu). destruct (negb (check w p' (Some c) false false false =? 0)); [done|].
  rewrite (add_jobs_ext w rn u c p p' (become w) Hu Hn Hl). destruct (s_answer (add_jobs w rn u c p' (become w))) as [[cd ids]|e]; [|done]. cbn [rbind].
  destruct (cd =? -2); [done|]. by destruct (negb (cd =? 0)).
Qed.
(** The files of keys and the working directory are taken and not used. *)
Theorem C181_key_files_refuted w rn c kw kw' rv al wd wd' u : (forall k, k ∉ [KFile; KExport; KParams] -> kw k = kw' k) ->
  seen (post_job w rn (mkRequest c kw rv al wd u)) = seen (post_job w rn (mkRequest c kw' rv al wd' u)).
Proof. apply post_ext. Qed.
(** The reservation is taken and not used, and a wrong one is not refused. *)
Theorem C181_reservation_refuted w rn c kw s al wd u : (forall y mo d h mi se, date_text s y mo d h mi se -> real_date y mo d h mi se) ->
  post_job w rn (mkRequest c kw (Some s) al wd u) = post_job w rn (mkRequest c kw None al wd u).
Proof.
  intros Hd. unfold post_job. cbn [a_resv a_lines a_cmd a_user].
  assert (H : exists d, (if bool_decide (s = ""%string) then Ok (inr 0) else reservation_date w s) = Ok d).
  { destruct (bool_decide (s = ""%string)); [eauto|]. unfold reservation_date. destruct (parse_date s) as [ll|] eqn:E; [|eauto].
    destruct (parse_date_six s ll E) as (y & mo & d & h & mi & se & ->). apply parse_date_spec, Hd, date_exists_spec in E. rewrite E. eauto. }
  destruct H as [d ->]. reflexivity.
Qed.
Lemma post_ok w rn r a : post_job w rn r = Ok a -> h_status a = 200 -> sane w ->
  exists p, build w false (Some (a_cmd r)) (api_kw r) (match a_lines r with Some t => if bool_decide (t = ""%string) then [] else split_on newline t | None => [] end) = Ok (inr p) /\
    exists s ids, h_sub a = Some s /\ s_answer s = Ok (0, ids) /\ s = add_jobs w rn (a_user r) (a_cmd r) p (become w) /\ h_id a = match ids with [] => None | i :: l => Some (foldr Z.min i l) end.
Proof.
  intros H Hst Hs. unfold post_job in H. apply rbind_Ok in H as (d & _ & H). apply rbind_Ok in H as (b & Hb & H). destruct b as [e|p]; [injection H as <-; discriminate|].
  exists p. split; [done|]. destruct (negb (check w p (Some (a_cmd r)) false false false =? 0)); [injection H as <-; discriminate|].
  apply rbind_Ok in H as ([c ids] & Ha & H). destruct (c =? -2) eqn:E2; [injection H as <-; discriminate|]. destruct (c =? 0) eqn:E0; cbn [negb] in H; [|injection H as <-; discriminate].
  apply Z.eqb_eq in E0 as ->. injection H as <-. eexists _, ids. cbn [h_sub h_id]. split; [reflexivity|]. split; [done|]. done.
Qed.
Theorem C181_param_file w rn r a ls t : sane w -> post_job w rn r = Ok a -> h_status a = 200 -> h_id a <> None -> a_lines r = Some t -> t <> ""%string -> lines_of ls t ->
  exists s, h_sub a = Some s /\ m_cmd <$> s_made s = (fun x => a_cmd r +:+ " " +:+ x)%string <$> ls.
Proof.
  intros Hs H Hst Hi Ht Hne Hl. destruct (post_ok w rn r a H Hst Hs) as (p & Hb & s & ids & H1 & H2 & -> & H3). eexists. split; [done|].
  assert (Hid : ids <> []) by (intros ->; done). apply add_jobs_ok in H2 as [-> _]; [|done|done].
  rewrite Ht in Hb. rewrite bool_decide_false in Hb by done. rewrite (split_on_lines ls t Hl) in Hb. apply build_inv in Hb as (m & Hu & _ & Hb).
  assert (Hpf : given (used p KParams) = false) by (rewrite Hu; reflexivity). rewrite Hpf in Hb.
  assert (Hlp : lines p = ls) by (destruct (used p KArray) as [| | |n| |]; try congruence; destruct (n =? 0); congruence).
  unfold commands. rewrite Hlp. destruct Hl as (Hl & _). by destruct ls.
Qed.
Lemma foldr_min_in i l : foldr Z.min i l ∈ i :: l /\ forall x, x ∈ i :: l -> foldr Z.min i l <= x.
Proof.
  induction l as [|a l [IH1 IH2]]; [split; [left|intros x ->%elem_of_list_singleton; cbn; lia]|]. cbn [foldr]. split.
  - destruct (Z.min_spec a (foldr Z.min i l)) as [[_ ->]|[_ ->]]; [right; left|]. apply elem_of_cons in IH1 as [->|H]; [left|right; by right].
  - intros x [->|[->|H]%elem_of_cons]%elem_of_cons; [pose proof (IH2 i ltac:(left)); lia|lia|]. pose proof (IH2 x ltac:(by right)). lia.
Qed.
Theorem C181_id w rn r a i : sane w -> post_job w rn r = Ok a -> h_status a = 200 -> h_id a = Some i ->
  exists s, h_sub a = Some s /\ i ∈ m_id <$> s_made s /\ forall x, x ∈ m_id <$> s_made s -> i <= x.
Proof.
  intros Hs H Hst Hi. destruct (post_ok w rn r a H Hst Hs) as (p & _ & s & ids & H1 & H2 & -> & H3). eexists. split; [done|].
  destruct ids as [|i0 is]; [congruence|]. rewrite H3 in Hi. apply add_jobs_ok in H2 as [_ <-]; [|done|done].
  injection Hi as Hi. pose proof (foldr_min_in i0 is) as [Hm1 Hm2]. rewrite Hi in Hm1, Hm2. done.
Qed.
(** Refused without a key: no job is made. *)
Theorem C181_refused_partial w rn r a : post_job w rn r = Ok a -> h_status a <> 200 -> absent (a_kw r KUseKey) -> match h_sub a with Some s => s_made s = [] | None => True end.
Proof.
  intros H Hst Hk. unfold post_job in H. apply rbind_Ok in H as (d & _ & H). apply rbind_Ok in H as (b & Hb & H). destruct b as [e|p]; [by injection H as <-|].
  destruct (negb (check w p (Some (a_cmd r)) false false false =? 0)); [by injection H as <-|].
  apply build_inv in Hb as (m & Hu & _). assert (Hg : given (used p KUseKey) = false) by (rewrite Hu; unfold merged; cbn [andb]; apply given_spec in Hk; exact Hk).
  destruct (no_key_none w rn (a_user r) (a_cmd r) p (become w) Hg) as [Hn|(ids & Ha & Hi)].
  - apply rbind_Ok in H as ([c ids] & Ha & H). destruct (c =? -2); [injection H as <-; exact Hn|]. destruct (negb (c =? 0)); injection H as <-; exact Hn.
  - rewrite Ha in H. cbn [rbind] in H. change (0 =? -2) with false in H. change (negb (0 =? 0)) with false in H. cbv iota in H. injection H as <-. done.
Qed.

(** ** Cases *)
Definition nl : string := String newline "".
(** A world: the script, the file of parameters; keys "key0", "key1"...; job 100 + i. *)
Definition w_of (script params : string) : world :=
  mkWorld (fun f => if bool_decide (f = "./s.sh"%string) then script else if bool_decide (f = "params"%string) then params else if bool_decide (f = "key"%string) then "KEY"%string else ""%string)
    (fun _ => false) (fun _ => 0) (fun _ => 0) (fun _ => false) (fun i => inr (100 + Z.of_nat i)) (fun cs => (fun i => 100 + Z.of_nat i) <$> seq 0 (length cs))
    (fun i => match i with O => Some ("key0", "ssh-rsa AAA u@h") | S O => Some ("key1", "ssh-rsa BBB u@h") | _ => None end)%string (fun _ => Some "ssh-rsa CCC u@h"%string) None false (fun l => 1000).
Lemma w_of_sane a b : sane (w_of a b).
Proof. split; [|done]. intros cs. right. cbn [some_jobs w_of]. by rewrite fmap_length, seq_length. Qed.
(** What oarsub gives when only the command is on the command line. *)
Definition kw0 (k : key) : val :=
  match k with KResource | KTypes | KDeps => VTexts [] | KCheckpoint => VNum 0 | KHold | KUseKey => VFlag false | KDirectory => VText "/home/u" | _ => VNone end.
Definition with_ (x : key) (v : val) (kw : key -> val) (k : key) : val := if decide (k = x) then v else kw k.
Definition line_of (kw : key -> val) (scan : bool) : line := mkLine (Some "./s.sh a"%string) kw false None 0 scan "alice".
Definition rn0 (f : string) (j : Z) : string := f.
Definition run (script params : string) (kw : key -> val) (scan : bool) : outcome := oarsub (w_of script params) rn0 (ends (Ok 0)) (line_of kw scan).
Definition used_in (o : outcome) (k : key) : option val := (fun p => used p k) <$> o_params o.
Definition text3 : string := ("#!/bin/sh" +:+ nl +:+ "#OAR -l nodes=2" +:+ nl +:+ "#OAR  --queue admin " +:+ nl +:+ "#OAR -l core=1" +:+ nl +:+ "echo")%string.
Lemma text3_lines : lines_of ["#!/bin/sh"; "#OAR -l nodes=2"; "#OAR  --queue admin "; "#OAR -l core=1"; "echo"]%string (cat (w_of text3 "") "./s.sh").
Proof.
  split; [done|]. split; [|reflexivity].
  repeat (apply Forall_cons; split; [unfold every; cbn [list_ascii_of_string]; repeat (apply Forall_cons; split; [vm_compute; discriminate|]); by apply Forall_nil|]). by apply Forall_nil.
Qed.
Lemma text3_script kw : script_of (w_of text3 "") (line_of kw true) ["#!/bin/sh"; "#OAR -l nodes=2"; "#OAR  --queue admin "; "#OAR -l core=1"; "echo"]%string.
Proof.
  exists "./s.sh a"%string, "./s.sh"%string. split; [done|]. split; [|apply text3_lines]. exists ""%string, " a"%string. split; [apply every_nil|]. split; [done|]. split.
  { unfold every; cbn [list_ascii_of_string]. repeat (apply Forall_cons; split; [unfold blank_char; vm_compute; lia|]). by apply Forall_nil. }
  split; [reflexivity|]. right. exists " "%char, "a"%string. split; [unfold blank_char; vm_compute; lia|done].
Qed.
(** A script in its usual form: the two -l in order, -q from the script unless it is on the command line. *)
Theorem C174_case : used_in (run text3 "" (with_ KQueue (VText "default") kw0) true) KQueue = Some (VText "default") /\
  used_in (run text3 "" kw0 true) KQueue = Some (VText "admin") /\ used_in (run text3 "" kw0 true) KResource = Some (VTexts ["nodes=2"; "core=1"]%string) /\
  o_end (run text3 "" kw0 true) = Ok 0 /\ m_cmd <$> made_by (run text3 "" kw0 true) = ["./s.sh a"%string].
Proof. split; [vm_compute; reflexivity|]. split; [vm_compute; reflexivity|]. split; [vm_compute; reflexivity|]. split; vm_compute; reflexivity. Qed.
(** -p on the command line, -p in the script: the script wins. *)
Theorem C174_properties_refuted : exists w rn cn l p, l_conn l = 0 /\ sane w /\ o_end (oarsub w rn cn l) = Ok 0 /\ o_params (oarsub w rn cn l) = Some p /\
  l_kw l KProperties = VText "host='n1'" /\ used p KProperties = VText "mem > 4".
Proof.
  set (w := w_of "#OAR -p mem > 4" ""). set (l := line_of (with_ KProperties (VText "host='n1'") kw0) true).
  destruct (o_params (oarsub w rn0 (ends (Ok 0)) l)) as [p|] eqn:E; [|vm_compute in E; discriminate].
  exists w, rn0, (ends (Ok 0)), l, p. split; [done|]. split; [apply w_of_sane|]. split; [vm_compute; reflexivity|]. split; [done|]. split; [reflexivity|].
  assert (H : (fun p => used p KProperties) <$> o_params (oarsub w rn0 (ends (Ok 0)) l) = Some (VText "mem > 4")) by (vm_compute; reflexivity).
  rewrite E in H. by injection H.
Qed.
(** #OAR -d never counts: oarsub always gives a directory. *)
Theorem C175_directory_refuted w rn cn l p : l_conn l = 0 -> o_params (oarsub w rn cn l) = Some p -> ~ absent (l_kw l KDirectory) -> used p KDirectory = l_kw l KDirectory.
Proof. intros Hc Hp Hg. apply (C174_option_wins w rn cn l p KDirectory Hc Hp Hg). by_dec. Qed.
(** Two -p lines: the words of the first one are bound to the second one by the precedence of AND. *)
Theorem C175_and_refuted : used_in (run ("#OAR -p a=1 OR b=2" +:+ nl +:+ "#OAR -p c=3") "" kw0 true) KProperties = Some (VText "a=1 OR b=2 AND c=3").
Proof. vm_compute; reflexivity. Qed.
(** #OAR -s is accepted and no parameter of the job holds its value. *)
Theorem C176_stagein_refuted : exists p, o_end (run "#OAR --stagein /data" "" kw0 true) = Ok 0 /\ o_params (run "#OAR --stagein /data" "" kw0 true) = Some p /\ forall k, used p k <> VText "/data".
Proof.
  destruct (o_params (run "#OAR --stagein /data" "" kw0 true)) as [p|] eqn:E; [|vm_compute in E; discriminate]. exists p. split; [vm_compute; reflexivity|]. split; [done|].
  intros k. assert (H : (fun p => used p k) <$> o_params (run "#OAR --stagein /data" "" kw0 true) = Some (kw0 k)) by (destruct k; vm_compute; reflexivity).
  rewrite E in H. injection H as H. rewrite H. destruct k; cbn [kw0]; discriminate.
Qed.
(** A script that cannot be read is as a script without directive. *)
Theorem C176_unreadable_refuted : o_end (run "" "" kw0 true) = Ok 0 /\ m_id <$> made_by (run "" "" kw0 true) = [100].
Proof. split; vm_compute; reflexivity. Qed.
Theorem C177_zero_refuted : m_id <$> made_by (run "" "" (with_ KArray (VNum 0) kw0) false) = [100].
Proof. vm_compute; reflexivity. Qed.
Theorem C177_negative_refuted : o_end (run "" "" (with_ KArray (VNum (-2)) kw0) false) = Err EIndex /\ made_by (run "" "" (with_ KArray (VNum (-2)) kw0) false) = [].
Proof. split; vm_compute; reflexivity. Qed.
(** --array 2 and a file of three lines in the script: the file is not read. *)
Theorem C177_both_refuted : m_cmd <$> made_by (run "#OAR --array-param-file params" ("1" +:+ nl +:+ "2" +:+ nl +:+ "3") (with_ KArray (VNum 2) kw0) true) = ["./s.sh a"; "./s.sh a"]%string.
Proof. vm_compute; reflexivity. Qed.
Theorem C177_empty_file_refuted : o_end (run "#OAR --array-param-file params" "" kw0 true) = Err EIndex /\ o_end (run "" "" (with_ KParams (VText "params") kw0) false) = Ok 1.
Proof. split; vm_compute; reflexivity. Qed.
Theorem C177_case : m_cmd <$> made_by (run "" ("# values" +:+ nl +:+ "1 x" +:+ nl +:+ " " +:+ nl +:+ "2" +:+ nl) (with_ KParams (VText "params") kw0) false) = ["./s.sh a 1 x"; "./s.sh a 2"]%string /\
  m_id <$> made_by (run "" "" (with_ KArray (VNum 3) kw0) false) = [100; 101; 102].
Proof. split; vm_compute; reflexivity. Qed.
Theorem C178_newline_refuted : m_id <$> made_by (run "" "" (with_ KStdout (VText ("out" +:+ nl)) kw0) false) = [100].
Proof. vm_compute; reflexivity. Qed.
Theorem C178_case : made_by (run "" "" (with_ KStdout (VText "a;b") kw0) false) = [] /\ made_by (run "" "" (with_ KName (VText "a b") kw0) false) = [] /\
  m_id <$> made_by (run "" "" (with_ KName (VText "a-b_1.c") kw0) false) = [100].
Proof. split; [vm_compute; reflexivity|]. split; vm_compute; reflexivity. Qed.
(** A job of type cosystem without hosts: an exception, although a host of the configuration is there for it. *)
Theorem C179_no_host_refuted : connect_job "front" "deploy" (Some "u"%string) (Some (mkCjob "u" "Running" ["cosystem"%string] [])) 0 = Failed EIndex.
Proof. reflexivity. Qed.
Theorem C179_case : connect_job "front" "deploy" (Some "u"%string) (Some (mkCjob "u" "Running" [] ["n1"; "n2"]%string)) 0 = Connected "n1" "u" 0 /\
  connect_job "front" "deploy" (Some "v"%string) (Some (mkCjob "u" "Running" [] ["n1"; "n2"]%string)) 0 = Refused 20 /\
  connect_job "front" "deploy" (Some "u"%string) (Some (mkCjob "u" "Running" ["deploy"%string] ["n1"; "n2"]%string)) 255 = Connected "deploy" "u" 0.
Proof. repeat split; reflexivity. Qed.
(** --array 2 with -i and without -k: accepted. *)
Theorem C180_array_refuted : m_key <$> made_by (run "" "" (with_ KArray (VNum 2) (with_ KFile (VText "key") kw0)) false) = [None; None].
Proof. vm_compute; reflexivity. Qed.
(** -k -e: the job is made, then the command stops with an exception and prints no identifier. *)
Theorem C180_crash_refuted : exists o, o = run "" "" (with_ KUseKey (VFlag true) (with_ KExport (VText "k") kw0)) false /\
  o_end o = Err EKey /\ m_id <$> made_by o = [100] /\ o_printed o = [].
Proof. eexists. split; [reflexivity|]. split; [vm_compute; reflexivity|]. split; vm_compute; reflexivity. Qed.
Theorem C180_case : m_key <$> made_by (run "" "" (with_ KUseKey (VFlag true) (with_ KArray (VNum 2) kw0)) false) = [Some "key0"; Some "key1"]%string /\
  m_key <$> made_by (run "" "" (with_ KUseKey (VFlag true) (with_ KFile (VText "key") kw0)) false) = [Some "KEY"%string] /\
  made_by (run "" "" (with_ KFile (VText "key") kw0) false) = [] /\
  (s_files <$> o_sub (run "" "" (with_ KUseKey (VFlag true) (with_ KFile (VText "key") (with_ KExport (VText "k") kw0))) false)) = Some [("k", "")]%string.
Proof. split; [vm_compute; reflexivity|]. split; [vm_compute; reflexivity|]. split; vm_compute; reflexivity. Qed.
(** The third key cannot be made: two jobs are there and the user is told of none. *)
Theorem C182_keys_refuted : exists o, o = run "" "" (with_ KUseKey (VFlag true) (with_ KArray (VNum 3) kw0)) false /\
  o_end o = Ok 1 /\ m_id <$> made_by o = [100; 101] /\ o_printed o = [].
Proof. eexists. split; [reflexivity|]. split; [vm_compute; reflexivity|]. split; vm_compute; reflexivity. Qed.
Definition req0 (lines : option string) (kw : key -> val) : request := mkRequest "c" kw None lines None "alice".
(** The same file of parameters: the API makes jobs for its comments and blank lines. *)
Theorem C181_comments_refuted : exists a s, post_job (w_of "" "") rn0 (req0 (Some ("# values" +:+ nl +:+ "1" +:+ nl)%string) kw0) = Ok a /\ h_sub a = Some s /\
  m_cmd <$> s_made s = ["c # values"; "c 1"; "c "]%string.
Proof.
  destruct (post_job (w_of "" "") rn0 (req0 (Some ("# values" +:+ nl +:+ "1" +:+ nl)%string) kw0)) as [a|e] eqn:E; [|vm_compute in E; discriminate].
  assert (H : (fun a => (fun s => m_cmd <$> s_made s) <$> h_sub a) <$> (match post_job (w_of "" "") rn0 (req0 (Some ("# values" +:+ nl +:+ "1" +:+ nl)%string) kw0) with Ok a => Some a | Err _ => None end)
     = Some (Some ["c # values"; "c 1"; "c "]%string)) by (vm_compute; reflexivity).
  rewrite E in H. injection H as H. destruct (h_sub a) as [s|] eqn:Es; [|discriminate]. injection H as H. exists a, s. split; [done|]. split; done.
Qed.
(** An array of -1 job: status 200 and no job. *)
Theorem C181_nothing_refuted : seen (post_job (w_of "" "") rn0 (req0 None (with_ KArray (VNum (-1)) kw0))) = Ok (200, None, []).
Proof. vm_compute; reflexivity. Qed.
Theorem C181_case : seen (post_job (w_of "" "") rn0 (req0 None (with_ KArray (VNum 2) kw0))) = Ok (200, Some 100, [mkMade "c" 100 None; mkMade "c" 101 None]).
Proof. vm_compute; reflexivity. Qed.
Definition resv_line (s : string) : line := mkLine (Some "./s.sh a"%string) kw0 false (Some s) 0 false "alice".
Theorem C183_case : date_text " 2026-11-7  9:05:00" 2026 11 7 9 5 0 /\ o_resv (oarsub (w_of "" "") rn0 (ends (Ok 0)) (resv_line " 2026-11-7  9:05:00")) = 1000 /\
  o_end (oarsub (w_of "" "") rn0 (ends (Ok 0)) (resv_line "2026-02-30 09:00:00")) = Err EValue /\ o_end (oarsub (w_of "" "") rn0 (ends (Ok 0)) (resv_line "tomorrow")) = Ok 1.
Proof. split; [apply parse_date_spec; vm_compute; reflexivity|]. split; [vm_compute; reflexivity|]. split; vm_compute; reflexivity. Qed.
Print Assumptions C174_option_wins.
Print Assumptions C175_directives.
Print Assumptions C175_properties.
Print Assumptions C175_unambiguous.
Print Assumptions C176_not_understood.
Print Assumptions C176_no_directive.
Print Assumptions C177_param_file.
Print Assumptions C177_array.
Print Assumptions C177_script_file.
Print Assumptions C177_single.
Print Assumptions C178_characters.
Print Assumptions C179_connected.
Print Assumptions C179_refused.
Print Assumptions C179_accepted.
Print Assumptions C179_failure_lost_refuted.
Print Assumptions C180_key.
Print Assumptions C180_forbidden_partial.
Print Assumptions C180_export_refuted.
Print Assumptions C182_printed.
Print Assumptions C182_refused_partial.
Print Assumptions C183_date.
Print Assumptions C183_refused.
Print Assumptions C183_impossible_refuted.
Print Assumptions C181_key_files_refuted.
Print Assumptions C181_reservation_refuted.
Print Assumptions C181_param_file.
Print Assumptions C181_id.
Print Assumptions C181_refused_partial.
Print Assumptions C174_case.
Print Assumptions C174_properties_refuted.
Print Assumptions C175_directory_refuted.
Print Assumptions C175_and_refuted.
Print Assumptions C176_stagein_refuted.
Print Assumptions C176_unreadable_refuted.
Print Assumptions C177_zero_refuted.
Print Assumptions C177_negative_refuted.
Print Assumptions C177_both_refuted.
Print Assumptions C177_empty_file_refuted.
Print Assumptions C177_case.
Print Assumptions C178_newline_refuted.
Print Assumptions C178_case.
Print Assumptions C179_no_host_refuted.
Print Assumptions C179_case.
Print Assumptions C180_array_refuted.
Print Assumptions C180_crash_refuted.
Print Assumptions C180_case.
Print Assumptions C182_keys_refuted.
Print Assumptions C181_comments_refuted.
Print Assumptions C181_nothing_refuted.
Print Assumptions C181_case.
Print Assumptions C183_case.
