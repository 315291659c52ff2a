(** Accounting: C28, C29, C58, C59. *)
From Verif Require Import Base AcctModel AcctSpec AcctProofs.

Lemma zsum_perm l1 l2 : l1 ≡ₚ l2 -> zsum l1 = zsum l2.
Proof. unfold zsum. induction 1; cbn [foldr] in *; lia. Qed.

(** * C28: resource-seconds are neither lost nor duplicated *)
(** Each window of the group receives the number of resources times the seconds of the job that
    it contains; nothing else changes. *)
Theorem C28_each_second : forall T start stop w user project queue kind nb,
  0 < w -> 0 <= start -> unique T ->
  exists T', update_accounting T start stop w (user, project, queue, kind) nb = Ok T' /\ unique T' /\
    (forall ws we, is_window w ws we ->
       charged T' ws we (user, project, queue, kind) =
       charged T ws we (user, project, queue, kind) + nb * seconds_in start stop ws we) /\
    (forall ws we g, g <> (user, project, queue, kind) \/ ~ is_window w ws we -> charged T' ws we g = charged T ws we g).
Proof.
  intros T start stop w user project queue kind nb Hw Hs HU.
  destruct (update_spec T start stop w (user, project, queue, kind) nb Hw Hs HU) as (T' & E & HU' & HC & _).
  exists T'. split; [done|]. split; [done|]. split.
  - intros ws we Hwin. rewrite HC, decide_True by done. rewrite seconds_in_overlap; [done|]. destruct Hwin. lia.
  - intros ws we g Hg. rewrite HC, decide_False; [lia|]. intros [-> Hwin]. destruct Hg; done.
Qed.
Print Assumptions C28_each_second.

(** The total charged is the duration times the number of resources. *)
Theorem C28_total : forall T start stop w user project queue kind nb,
  0 < w -> 0 <= start <= stop -> unique T ->
  exists T', update_accounting T start stop w (user, project, queue, kind) nb = Ok T' /\
    total T' (user, project, queue, kind) = total T (user, project, queue, kind) + nb * (stop - start) /\
    forall g, g <> (user, project, queue, kind) -> total T' g = total T g.
Proof.
  intros T start stop w user project queue kind nb Hw Hs HU.
  destruct (update_spec T start stop w (user, project, queue, kind) nb Hw ltac:(lia) HU) as (T' & E & HU' & _ & HT).
  exists T'. split; [done|]. split.
  - rewrite HT, decide_True by done. rewrite Z.max_r by lia. done.
  - intros g Hg. rewrite HT, decide_False by done. lia.
Qed.
Print Assumptions C28_total.

(** A job from 90000 to 270000 with 3 resources and windows of one day: four windows. *)
Example C28_example : exists T', update_accounting [] 90000 270000 86400 ("u", "p", "q", "USED")%string 3 = Ok T' /\
  (a_start <$> T') = [86400; 172800; 259200] /\ (a_cons <$> T') = [248400; 259200; 32400] /\ 248400 + 259200 + 32400 = 3 * (270000 - 90000).
Proof. eexists. split; [vm_compute; reflexivity|]. split_and!; vm_compute; reflexivity. Qed.

(** ** The jobs charged by an update *)
(** Ids are primary keys. *)
Definition tables_ok (db : adb) : Prop :=
  NoDup (aj_id <$> t_jobs db) /\ NoDup (t_mlds db).*1 /\ NoDup (t_resources db).*1 /\ NoDup (t_assigned db) /\ unique (t_acct db).
(** Resources of type default assigned to a moldable. *)
Definition default_resources (db : adb) (m : Z) : list (Z * Z) :=
  filter (fun a => fst a = m /\ (snd a, "default"%string) ∈ t_resources db) (t_assigned db).
Definition chargeable (db : adb) (j : ajob) (wt nb : Z) : Prop :=
  j ∈ t_jobs db /\ aj_accounted j = "NO"%string /\ (aj_state j = "Terminated"%string \/ aj_state j = "Error"%string) /\
  1 < aj_start j <= aj_stop j /\ (aj_mld j, wt) ∈ t_mlds db /\
  nb = Z.of_nat (length (default_resources db (aj_mld j))) /\ 0 < nb.

Lemma filter_prod_len (l : list (Z * Z)) (rs : list (Z * string)) m : NoDup rs.*1 ->
  length (filter (fun x => fst (fst x) = m /\ snd (fst x) = fst (snd x) /\ snd (snd x) = "default"%string) (list_prod l rs)) =
  length (filter (fun a => fst a = m /\ (snd a, "default"%string) ∈ rs) l).
Proof.
  intros HN. induction l as [|a l IH]; [done|]. cbn [list_prod]. rewrite filter_app, app_length, IH.
  assert (Hone : length (filter (fun x => fst (fst x) = m /\ snd (fst x) = fst (snd x) /\ snd (snd x) = "default"%string) (map (fun y => (a, y)) rs)) =
    if decide (fst a = m /\ (snd a, "default"%string) ∈ rs) then 1%nat else 0%nat).
  { clear IH. induction rs as [|[r ty] rs IH]; [destruct (decide _) as [[_ H]|]; [by apply elem_of_nil in H|done]|].
    cbn [fmap list_fmap] in HN. apply NoDup_cons in HN as [HN1 HN2]. cbn [map]. cbn [fst] in HN1.
    destruct (decide (fst a = m /\ snd a = r /\ ty = "default"%string)) as [(H1 & H2 & H3)|H].
    - rewrite filter_cons_True by done. cbn [length]. rewrite IH by done. rewrite decide_False, decide_True; [done|..].
      + split; [done|]. rewrite H2, H3. left.
      + intros [_ Hc]. apply HN1. apply elem_of_list_fmap. exists (snd a, "default"%string). split; [by rewrite H2|done].
    - rewrite filter_cons_False by done. rewrite IH by done.
      destruct (decide (fst a = m /\ (snd a, "default"%string) ∈ rs)) as [[H1 H2]|H2].
      + rewrite decide_True; [done|]. split; [done|]. by right.
      + rewrite decide_False; [done|]. intros [Hc1 Hc2]. apply elem_of_cons in Hc2 as [Hc2|Hc2]; [|tauto].
        apply H. split; [done|]. split; congruence. }
  rewrite Hone. destruct (decide _) as [H|H]; [rewrite filter_cons_True by done|rewrite filter_cons_False by done]; done.
Qed.
Lemma selected_iff db j wt nb : tables_ok db -> (j, wt, nb) ∈ selected db <-> chargeable db j wt nb.
Proof.
  intros (_ & _ & HR & _ & _). unfold selected, chargeable.
  assert (Hnb : forall m, nb_default db m = Z.of_nat (length (default_resources db m))).
  { intros m. unfold nb_default. by rewrite filter_prod_len. }
  split.
  - intros H. apply elem_of_list_bind in H as (j' & H & Hj'). apply elem_of_list_filter in Hj' as [Hj1 Hj2].
    apply elem_of_list_bind in H as ([m wt'] & H & Hm). apply elem_of_list_filter in Hm as [Hm1 Hm2]. cbn [fst snd] in *.
    rewrite Hnb in H. destruct (0 <? _) eqn:E; [|by apply elem_of_nil in H].
    apply elem_of_list_singleton in H. injection H as -> -> ->. subst m. split_and!; try tauto; lia.
  - intros (H1 & H2 & H3 & H4 & H5 & H6 & H7). apply elem_of_list_bind. exists j. split; [|apply elem_of_list_filter; split; [|done]; split_and!; try tauto; lia].
    apply elem_of_list_bind. exists (aj_mld j, wt). split; [|apply elem_of_list_filter; done]. cbn [fst snd].
    rewrite Hnb, <- H6. destruct (0 <? nb) eqn:E; [left|lia].
Qed.

(** An update charges every finished job not accounted yet: its duration (USED) and its walltime
    (ASKED) times its number of default resources, window by window, and nothing else. *)
Theorem C28_update : forall order w db, 0 < w -> tables_ok db -> (forall l, order l ≡ₚ l) ->
  exists db', check_accounting_update order w db = Ok db' /\ unique (t_acct db') /\
    (forall j wt nb, (j, wt, nb) ∈ selected db <-> chargeable db j wt nb) /\
    (forall u p q ws we, is_window w ws we ->
       charged (t_acct db') ws we (u, p, q, "USED"%string) = charged (t_acct db) ws we (u, p, q, "USED"%string) +
         zsum ((fun '(j, _, nb) => nb * seconds_in (aj_start j) (aj_stop j) ws we) <$>
               filter (fun x => aj_user x.1.1 = u /\ aj_project x.1.1 = p /\ aj_queue x.1.1 = q) (selected db)) /\
       charged (t_acct db') ws we (u, p, q, "ASKED"%string) = charged (t_acct db) ws we (u, p, q, "ASKED"%string) +
         zsum ((fun '(j, wt, nb) => nb * seconds_in (aj_start j) (aj_start j + wt) ws we) <$>
               filter (fun x => aj_user x.1.1 = u /\ aj_project x.1.1 = p /\ aj_queue x.1.1 = q) (selected db))) /\
    (forall u p q,
       total (t_acct db') (u, p, q, "USED"%string) = total (t_acct db) (u, p, q, "USED"%string) +
         zsum ((fun '(j, _, nb) => nb * (aj_stop j - aj_start j)) <$>
               filter (fun x => aj_user x.1.1 = u /\ aj_project x.1.1 = p /\ aj_queue x.1.1 = q) (selected db))).
Proof.
  intros order w db Hw Hok Hord. unfold check_accounting_update.
  assert (Hsel : forall j wt nb, (j, wt, nb) ∈ order (selected db) -> chargeable db j wt nb).
  { intros j wt nb H. rewrite (Hord (selected db)) in H. by apply selected_iff. }
  destruct (treat_spec w (order (selected db)) Hw) with (js := t_jobs db) (T := t_acct db) as (T' & -> & HU & HC & HT).
  { intros j wt nb H. destruct (Hsel _ _ _ H) as (_ & _ & _ & ? & _). lia. }
  { by destruct Hok as (_ & _ & _ & _ & ?). }
  cbn [rbind]. eexists. split; [done|]. cbn [t_acct]. split; [done|]. split; [intros; by apply selected_iff|].
  assert (Hfil : forall (f g : ajob * Z * Z -> Z) u p q l,
    (forall x, x ∈ l -> f x = if decide (aj_user x.1.1 = u /\ aj_project x.1.1 = p /\ aj_queue x.1.1 = q) then g x else 0) ->
    zsum (f <$> l) = zsum (g <$> filter (fun x => aj_user x.1.1 = u /\ aj_project x.1.1 = p /\ aj_queue x.1.1 = q) l)).
  { intros f g u p q l. induction l as [|x l IH]; intros H; [done|]. cbn [fmap list_fmap]. unfold zsum in *. cbn [foldr].
    rewrite (H x) by by left. rewrite IH by (intros; apply H; by right).
    destruct (decide _); [rewrite filter_cons_True by done|rewrite filter_cons_False by done]; cbn [fmap list_fmap foldr]; lia. }
  split.
  - intros u p q ws we Hwin. rewrite !HC. 
    rewrite (zsum_perm _ _ (fmap_Permutation _ _ _ (Hord (selected db)))) at 1.
    rewrite (zsum_perm _ _ (fmap_Permutation _ _ _ (Hord (selected db)))) at 1.
    assert (Hlen : ws - 1 <= we) by (destruct Hwin; lia).
    split; f_equal; apply Hfil; intros [[j wt] nb] _; cbn [fst]; rewrite seconds_in_overlap by done.
    + rewrite (decide_False (P := (u, p, q, "USED"%string) = (_, _, _, "ASKED"%string) /\ _)) by (intros [[=] _]).
      destruct (decide (_ /\ is_window w ws we)) as [[[=] _]|Hn]; destruct (decide _) as [(<- & <- & <-)|Hn']; try tauto; try lia; exfalso; first [apply Hn'; by subst | apply Hn; by subst].
    + rewrite (decide_False (P := (u, p, q, "ASKED"%string) = (_, _, _, "USED"%string) /\ _)) by (intros [[=] _]).
      destruct (decide (_ /\ is_window w ws we)) as [[[=] _]|Hn]; destruct (decide _) as [(<- & <- & <-)|Hn']; try tauto; try lia; exfalso; first [apply Hn'; by subst | apply Hn; by subst].
  - intros u p q. rewrite HT. rewrite (zsum_perm _ _ (fmap_Permutation _ _ _ (Hord (selected db)))) at 1.
    f_equal. apply Hfil. intros [[j wt] nb] Hin. cbn [fst]. apply selected_iff in Hin; [|done]. destruct Hin as (_ & _ & _ & ? & _).
    rewrite (decide_False (P := (u, p, q, "USED"%string) = (_, _, _, "ASKED"%string))) by (intros [=]).
    rewrite Z.max_r by lia.
    destruct (decide (_ = _)) as [[=]|Hn]; destruct (decide (_ /\ _)) as [(<- & <- & <-)|Hn']; try tauto; try lia; try congruence; exfalso; first [apply Hn'; by subst | apply Hn; by subst].
Qed.
Print Assumptions C28_update.

(** * C29: which jobs are marked as accounted *)
Lemma check_jobs order w db db' : 0 < w -> tables_ok db -> (forall l, order l ≡ₚ l) ->
  check_accounting_update order w db = Ok db' ->
  t_jobs db' = match selected db with [] => t_jobs db | _ => mark_all (t_jobs db) end /\
  t_mlds db' = t_mlds db /\ t_assigned db' = t_assigned db /\ t_resources db' = t_resources db /\ unique (t_acct db').
Proof.
  intros Hw Hok Hord. unfold check_accounting_update.
  destruct (treat_spec w (order (selected db)) Hw) with (js := t_jobs db) (T := t_acct db) as (T' & -> & HU & _ & _).
  { intros j wt nb H. rewrite (Hord (selected db)) in H. apply selected_iff in H; [|done]. destruct H as (_ & _ & _ & ? & _). lia. }
  { by destruct Hok as (_ & _ & _ & _ & ?). }
  cbn [rbind]. intros [= <-]. cbn. split; [|done]. pose proof (Permutation_length (Hord (selected db))) as Hl.
  destruct (order (selected db)), (selected db); cbn in Hl; try lia; done.
Qed.
Lemma mark_all_in js j : j ∈ mark_all js -> aj_accounted j <> "NO"%string /\
  exists j0, j0 ∈ js /\ aj_id j0 = aj_id j /\ aj_state j0 = aj_state j /\ aj_start j0 = aj_start j /\ aj_stop j0 = aj_stop j /\ aj_mld j0 = aj_mld j /\
    (aj_accounted j0 = "NO"%string /\ aj_accounted j = "YES"%string \/ j0 = j).
Proof.
  intros H. apply elem_of_list_fmap in H as (j0 & -> & Hin). case_bool_decide as E; cbn.
  - split; [done|]. exists j0. split; [done|]. split_and!; try done. by left.
  - split; [done|]. exists j0. split; [done|]. split_and!; try done. by right.
Qed.

(** Every job charged by an update is marked, and no later update charges it again: right after
    an update, another one changes nothing. *)
Theorem C29_charged_once_partial : forall order w db db', 0 < w -> tables_ok db -> (forall l, order l ≡ₚ l) ->
  check_accounting_update order w db = Ok db' ->
  (forall j wt nb j', chargeable db j wt nb -> j' ∈ t_jobs db' -> aj_id j' = aj_id j -> aj_accounted j' = "YES"%string) /\
  (selected db' = [] /\ check_accounting_update order w db' = Ok db') /\
  ((forall j, j ∈ t_jobs db -> aj_accounted j = "NO"%string -> exists wt nb, chargeable db j wt nb) ->
   forall j j', j ∈ t_jobs db -> j' ∈ t_jobs db' -> aj_id j' = aj_id j -> aj_accounted j <> aj_accounted j' ->
   exists wt nb, chargeable db j wt nb).
Proof.
  intros order w db db' Hw Hok Hord E. destruct (check_jobs order w db db' Hw Hok Hord E) as (Hj & Hm & Ha & Hr & HU).
  destruct Hok as (HN & HM & HR & HA & HU0). split; [|split].
  - intros j wt nb j' Hc Hj' Hid. destruct (selected db) as [|x l] eqn:Es.
    { apply selected_iff in Hc; [|done]. rewrite Es in Hc. by apply elem_of_nil in Hc. }
    rewrite Hj in Hj'. destruct (mark_all_in _ _ Hj') as (_ & j0 & Hin & Hid0 & _ & _ & _ & _ & Hcase).
    destruct Hc as (Hin' & Hno & _). assert (j0 = j) as ->.
    { apply elem_of_list_lookup in Hin as [a Ha1]. apply elem_of_list_lookup in Hin' as [b Hb1].
      assert (a = b) as ->; [|congruence]. apply (NoDup_lookup _ a b (aj_id j) HN).
      - rewrite list_lookup_fmap, Ha1. cbn. congruence.
      - rewrite list_lookup_fmap, Hb1. done. }
    destruct Hcase as [[_ ?]|<-]; [done|]. 
    apply mark_all_in in Hj' as [? _]. done.
  - assert (Hs : selected db' = []).
    { destruct (selected db') as [|x l] eqn:Es; [done|]. exfalso.
      assert (Hx : x ∈ selected db') by (rewrite Es; left).
      destruct (selected db) as [|y l'] eqn:Es0.
      - assert (x ∈ selected db) as Hx'.
        { revert Hx. unfold selected, nb_default. by rewrite Hj, Hm, Ha, Hr. }
        rewrite Es0 in Hx'. by apply elem_of_nil in Hx'.
      - unfold selected in Hx. apply elem_of_list_bind in Hx as (j & _ & Hjin). apply elem_of_list_filter in Hjin as [[Hno _] Hjin].
        rewrite Hj in Hjin. by apply mark_all_in in Hjin as [? _]. }
    split; [done|]. unfold check_accounting_update. rewrite Hs.
    assert (order [] = []) as -> by (apply Permutation_nil; symmetry; apply Hord). cbn. by destruct db'.
  - intros Hall j j' Hin Hj' Hid Hne.
    destruct (decide (aj_accounted j = "NO"%string)) as [Hno|Hno]; [by apply Hall|]. exfalso. apply Hne.
    assert (Hsame : forall js, t_jobs db' = js -> (js = t_jobs db \/ js = mark_all (t_jobs db)) -> aj_accounted j = aj_accounted j').
    { intros js <- [Hc|Hc]; rewrite Hc in Hj'.
      - assert (j' = j) as ->; [|done]. apply elem_of_list_lookup in Hin as [a Ha1]. apply elem_of_list_lookup in Hj' as [b Hb1].
        assert (a = b) as ->; [|congruence]. apply (NoDup_lookup _ a b (aj_id j) HN); rewrite list_lookup_fmap, ?Ha1, ?Hb1; cbn; congruence.
      - destruct (mark_all_in _ _ Hj') as (_ & j0 & Hin0 & Hid0 & _ & _ & _ & _ & Hcase).
        assert (j0 = j) as ->. { apply elem_of_list_lookup in Hin as [a Ha1]. apply elem_of_list_lookup in Hin0 as [b Hb1].
        assert (a = b) as ->; [|congruence]. apply (NoDup_lookup _ a b (aj_id j) HN); rewrite list_lookup_fmap, ?Ha1, ?Hb1; cbn; congruence. }
        destruct Hcase as [[? _]|Heq]; [done|by rewrite Heq]. }
    apply (Hsame (t_jobs db') eq_refl). rewrite Hj. destruct (selected db); tauto.
Qed.
Print Assumptions C29_charged_once_partial.

(** Full statement: an update marks exactly the jobs it charges.  False: a running job is marked
    too, and is never charged when it ends. *)
Definition ex_done : ajob := mkAJob 1 "Terminated" "NO" 100 200 "u" "p" "default" 1.
Definition ex_running : ajob := mkAJob 2 "Running" "NO" 150 0 "v" "p" "default" 2.
Definition ex_adb : adb := mkAdb [ex_done; ex_running] [(1, 300); (2, 300)] [(1, 7); (2, 8)] [(7, "default"%string); (8, "default"%string)] [].
Lemma ex_adb_ok : tables_ok ex_adb.
Proof.
  unfold tables_ok, ex_adb, unique. cbn. repeat split; repeat first [apply NoDup_cons; split; [by_dec|]|apply NoDup_nil; done].
Qed.
Definition finish_job (id stop : Z) (db : adb) : adb :=
  mkAdb ((fun j => if aj_id j =? id then mkAJob (aj_id j) "Terminated" (aj_accounted j) (aj_start j) stop (aj_user j) (aj_project j) (aj_queue j) (aj_mld j) else j) <$> t_jobs db)
    (t_mlds db) (t_assigned db) (t_resources db) (t_acct db).
Theorem C29_marked_refuted : exists w db db' db'' j,
  0 < w /\ tables_ok db /\ j ∈ t_jobs db /\ aj_state j = "Running"%string /\
  check_accounting_update id w db = Ok db' /\
  check_accounting_update id w (finish_job (aj_id j) 500 db') = Ok db'' /\
  (exists j'', j'' ∈ t_jobs db'' /\ aj_id j'' = aj_id j /\ aj_accounted j'' = "YES"%string) /\
  forall ws we, charged (t_acct db'') ws we (aj_user j, aj_project j, aj_queue j, "USED"%string) = 0.
Proof.
  exists 86400, ex_adb. eexists. eexists. exists ex_running. split; [lia|]. split; [exact ex_adb_ok|]. split; [right; left|]. split; [done|].
  split; [vm_compute; reflexivity|]. split; [vm_compute; reflexivity|]. split.
  - eexists. split; [right; left|]. done.
  - intros ws we. unfold charged. cbn [t_acct]. rewrite filter_cons_False by (cbn; intros [=]).
    rewrite filter_cons_False by (cbn; intros [=]). done.
Qed.
Print Assumptions C29_marked_refuted.
Example C29_example : tables_ok ex_adb /\ selected ex_adb = [(ex_done, 300, 1)] /\ chargeable ex_adb ex_done 300 1.
Proof.
  split; [exact ex_adb_ok|]. assert (selected ex_adb = [(ex_done, 300, 1)]) as E by (vm_compute; reflexivity). split; [done|].
  apply selected_iff; [exact ex_adb_ok|]. rewrite E. left.
Qed.

(** * C58: an interrupted update *)
(** The statements are those of the update. *)
Lemma exec_all_app l1 : forall x l2, exec_all x (l1 ++ l2) = (y <-- exec_all x l1 ;; exec_all y l2).
Proof. induction l1 as [|s l1 IH]; intros x l2; cbn [app exec_all rbind]; [done|]. destruct (exec x s); cbn [rbind]; [apply IH|done]. Qed.
Lemma exec_window w g nb : forall f js T d start stop ws we,
  (exists T', upd_loop f T start stop ws we w g nb = Ok T') ->
  exists d', exec_all (mkTxn (js, T) d) (window_stmts f start stop ws we w g nb) =
    (T' <-- upd_loop f T start stop ws we w g nb ;; Ok (mkTxn (js, T') d')).
Proof.
  induction f as [|f IH]; intros js T d start stop ws we [T' H]; cbn [upd_loop window_stmts] in *; destruct (start <? stop) eqn:E.
  - done.
  - exists d. done.
  - cbn [exec_all exec working durable]. destruct (add_row T ws we g _) as [T1|e] eqn:E1; cbn [rbind] in *; [|done].
    assert (exists d1, (if bool_decide (filter (fun r => key_of r = (ws, we, g)) T = []) then commit (mkTxn (js, T1) d) else mkTxn (js, T1) d) = mkTxn (js, T1) d1) as [d1 ->].
    { case_bool_decide; [exists (js, T1)|exists d]; done. }
    apply IH. eauto.
  - exists d. done.
Qed.
Lemma exec_treat w l : forall js T d, (exists r, treat w l js T = Ok r) ->
  exists d', exec_all (mkTxn (js, T) d) (stmts w l) = ('(js', T') <-- treat w l js T ;; Ok (mkTxn (js', T') d')).
Proof.
  induction l as [|[[j wt] nb] l IH]; intros js T d [r Hr]; [eexists; done|].
  cbn [treat] in *. unfold stmts. cbn [mbind list_bind]. fold (stmts w l). 
  change (mbind (M := list) _ l) with (stmts w l).
  apply rbind_Ok in Hr as (T1 & E1 & Hr). apply rbind_Ok in Hr as (T2 & E2 & Hr). rewrite E1. cbn [rbind]. rewrite E2. cbn [rbind].
  rewrite <- !app_assoc. rewrite exec_all_app. unfold stmts_of_update at 1. unfold update_accounting in E1, E2.
  destruct (exec_window w (aj_user j, aj_project j, aj_queue j, "USED"%string) nb _ js T d _ _ _ _ ltac:(eauto)) as [d1 ->].
  rewrite E1. cbn [rbind]. rewrite exec_all_app. unfold stmts_of_update at 1.
  destruct (exec_window w (aj_user j, aj_project j, aj_queue j, "ASKED"%string) nb _ js T1 d1 _ _ _ _ ltac:(eauto)) as [d2 ->].
  rewrite E2. cbn [rbind app exec_all exec working]. apply IH. eauto.
Qed.
Theorem C58_uninterrupted : forall order w db, 0 < w -> tables_ok db -> (forall l, order l ≡ₚ l) ->
  exists x db', exec_all (mkTxn (t_jobs db, t_acct db) (t_jobs db, t_acct db)) (stmts w (order (selected db))) = Ok x /\
    check_accounting_update order w db = Ok db' /\ durable (commit x) = (t_jobs db', t_acct db').
Proof.
  intros order w db Hw Hok Hord. destruct (C28_update order w db Hw Hok Hord) as (db' & E & _).
  pose proof E as E'. unfold check_accounting_update in E'. apply rbind_Ok in E' as ([js T] & Et & E').
  destruct (exec_treat w (order (selected db)) (t_jobs db) (t_acct db) (t_jobs db, t_acct db) ltac:(eauto)) as [d' Ex].
  rewrite Et in Ex. cbn [rbind] in Ex. eexists _, db'. split; [exact Ex|]. split; [done|]. injection E' as <-. done.
Qed.
Print Assumptions C58_uninterrupted.

(** Full statement: an update killed at any point and run again charges the same as an
    uninterrupted one.  False both ways: a job is charged twice, another one is charged in part. *)
Theorem C58_interrupted_refuted_twice : exists n w db db1 db2 db' g,
  0 < w /\ tables_ok db /\ interrupted_update n id w db = Ok db1 /\ check_accounting_update id w db1 = Ok db2 /\
  check_accounting_update id w db = Ok db' /\ total (t_acct db2) g = 2 * total (t_acct db') g /\ total (t_acct db') g = 100.
Proof.
  exists 1%nat, 86400, ex_adb. do 3 eexists. exists ("u", "p", "default", "USED")%string.
  split; [lia|]. split; [exact ex_adb_ok|]. do 3 (split; [vm_compute; reflexivity|]). split; vm_compute; reflexivity.
Qed.
Print Assumptions C58_interrupted_refuted_twice.
Definition ex_adb2 : adb := mkAdb [ex_done; mkAJob 2 "Terminated" "NO" 86300 86600 "v" "p" "default" 2] [(1, 300); (2, 300)] [(1, 7); (2, 8)] [(7, "default"%string); (8, "default"%string)] [].
Theorem C58_interrupted_refuted_lost : exists n w db db1 db2 db' g,
  0 < w /\ tables_ok db /\ interrupted_update n id w db = Ok db1 /\ check_accounting_update id w db1 = Ok db2 /\
  check_accounting_update id w db = Ok db' /\ total (t_acct db2) g = 100 /\ total (t_acct db') g = 300.
Proof.
  exists 4%nat, 86400, ex_adb2. do 3 eexists. exists ("v", "p", "default", "USED")%string.
  split; [lia|]. split; [unfold tables_ok, ex_adb2, unique; cbn; repeat split; repeat first [apply NoDup_cons; split; [by_dec|]|apply NoDup_nil; done]|].
  do 3 (split; [vm_compute; reflexivity|]). split; vm_compute; reflexivity.
Qed.
Print Assumptions C58_interrupted_refuted_lost.

(** Proved: nothing is committed, hence an interrupted update can be run again, when every window
    it writes to exists already. *)
Definition has_window (T : list arow) (s : stmt) : Prop :=
  match s with SAdd ws we g _ => exists r, r ∈ T /\ key_of r = (ws, we, g) | SMark => True end.
Lemma exec_keys x s y : exec x s = Ok y -> forall k, k ∈ (key_of <$> (working x).2) -> k ∈ (key_of <$> (working y).2).
Proof.
  unfold exec. destruct (working x) as [js T] eqn:Ew. cbn [snd]. destruct s as [ws we g c|].
  - intros H. apply rbind_Ok in H as (T' & E & H). assert ((working y).2 = T') as -> by (case_bool_decide; injection H as <-; done).
    revert E. unfold add_row. destruct (filter _ T) as [|r [|]]; [..|done].
    + destruct g as [[[u p] q] t]. intros [= <-] k Hk. rewrite fmap_app. apply elem_of_app. by left.
    + fold (incr ws we g (c + a_cons r)). intros [= <-] k Hk. rewrite <- list_fmap_compose.
      apply elem_of_list_fmap in Hk as (r' & -> & Hr'). apply elem_of_list_fmap. exists r'. split; [|done]. unfold compose. by rewrite incr_key.
  - intros [= <-]. done.
Qed.
Theorem C58_interrupted_partial : forall order w db n db', 
  (forall s, s ∈ stmts w (order (selected db)) -> has_window (t_acct db) s) ->
  interrupted_update n order w db = Ok db' -> db' = db.
Proof.
  intros order w db n db' Hw. unfold interrupted_update. intros H. apply rbind_Ok in H as (x & E & H). injection H as <-.
  assert (Hsub : forall s, s ∈ take n (stmts w (order (selected db))) -> has_window (t_acct db) s).
  { intros s Hs. apply Hw. rewrite <- (take_drop n (stmts w (order (selected db)))). apply elem_of_app. by left. }
  clear Hw. revert Hsub E. generalize (take n (stmts w (order (selected db)))). intros l Hsub E.
  assert (Hgen : forall x0, durable x0 = (t_jobs db, t_acct db) -> (forall k, k ∈ (key_of <$> t_acct db) -> k ∈ (key_of <$> (working x0).2)) ->
    exec_all x0 l = Ok x -> durable x = (t_jobs db, t_acct db)).
  { clear E. revert x. induction l as [|s l IH]; intros x x0 Hd Hk E; cbn [exec_all] in E; [by injection E as <-|].
    apply rbind_Ok in E as (x1 & E1 & E). apply (IH ltac:(intros; apply Hsub; by right) x x1); [..|done].
    - pose proof (Hsub s ltac:(by left)) as Hs. unfold exec in E1. destruct (working x0) as [js T]. cbn [snd] in Hk. destruct s as [ws we g c|].
      + apply rbind_Ok in E1 as (T' & ET & E1). rewrite bool_decide_eq_false_2 in E1; [by injection E1 as <-|].
        destruct Hs as (r & Hr & Er). assert (key_of r ∈ key_of <$> T) as Hin by (apply Hk; apply elem_of_list_fmap; eauto).
        apply elem_of_list_fmap in Hin as (r' & Er' & Hr'). intros Hc.
        assert (r' ∈ filter (fun r => key_of r = (ws, we, g)) T) as HH by (apply elem_of_list_filter; split; [congruence|done]).
        rewrite Hc in HH. by apply elem_of_nil in HH.
      + injection E1 as <-. done.
    - intros k Hin. eapply exec_keys; [exact E1|]. by apply Hk. }
  rewrite (Hgen (mkTxn (t_jobs db, t_acct db) (t_jobs db, t_acct db)) eq_refl ltac:(cbn; done) E). cbn. by destruct db.
Qed.
Print Assumptions C58_interrupted_partial.
Example C58_example : 
  let db := mkAdb [ex_done] [(1, 300)] [(1, 7)] [(7, "default"%string)]
    [mkRow 0 86399 "u" "p" "default" "USED" 5; mkRow 0 86399 "u" "p" "default" "ASKED" 6] in
  (forall s, s ∈ stmts 86400 (selected db) -> has_window (t_acct db) s) /\ interrupted_update 2 id 86400 db = Ok db.
Proof.
  cbn zeta. split; [|vm_compute; reflexivity]. intros s Hs. vm_compute in Hs.
  repeat (apply elem_of_cons in Hs as [->|Hs]; [cbn|]); [| | done|by apply elem_of_nil in Hs].
  - eexists. split; [left|done].
  - eexists. split; [right; left|done].
Qed.

(** * C59: rebuilding the table *)
(** [oaraccounting --reinitialize] followed by an update: the table only depends on the jobs, not
    on the previous charges and marks. *)
Theorem C59_rebuild : forall order w db, 0 < w -> tables_ok db -> (forall l, order l ≡ₚ l) ->
  exists db', check_accounting_update order w (delete_all db) = Ok db' /\
    (forall u p q ws we, is_window w ws we ->
       charged (t_acct db') ws we (u, p, q, "USED"%string) =
         zsum ((fun '(j, _, nb) => nb * seconds_in (aj_start j) (aj_stop j) ws we) <$>
               filter (fun x => aj_user x.1.1 = u /\ aj_project x.1.1 = p /\ aj_queue x.1.1 = q) (selected (delete_all db)))) /\
    (forall j wt, j ∈ t_jobs db -> (aj_mld j, wt) ∈ t_mlds db -> default_resources db (aj_mld j) <> [] ->
       (aj_state j = "Terminated"%string \/ aj_state j = "Error"%string) -> 1 < aj_start j <= aj_stop j ->
       exists j' nb, (j', wt, nb) ∈ selected (delete_all db) /\ aj_id j' = aj_id j /\ aj_start j' = aj_start j /\ aj_stop j' = aj_stop j).
Proof.
  intros order w db Hw Hok Hord.
  assert (Hok' : tables_ok (delete_all db)).
  { destruct Hok as (H1 & H2 & H3 & H4 & H5). unfold tables_ok, delete_all. cbn [t_jobs t_mlds t_resources t_assigned t_acct].
    split_and!; try done; [|apply NoDup_nil; done]. rewrite <- list_fmap_compose. exact H1. }
  destruct (C28_update order w (delete_all db) Hw Hok' Hord) as (db' & E & _ & Hsel & HC & _).
  exists db'. split; [done|]. split.
  - intros u p q ws we Hwin. destruct (HC u p q ws we Hwin) as [-> _]. unfold charged at 1. cbn. done.
  - intros j wt Hj Hm Hd Hs Ht. 
    exists (mkAJob (aj_id j) (aj_state j) "NO" (aj_start j) (aj_stop j) (aj_user j) (aj_project j) (aj_queue j) (aj_mld j)), (Z.of_nat (length (default_resources db (aj_mld j)))).
    split; [|done]. apply Hsel. unfold chargeable. cbn [aj_accounted aj_state aj_start aj_stop aj_mld]. split_and!; try done; try lia.
    + cbn [t_jobs delete_all]. apply elem_of_list_fmap. eauto.
    + destruct (default_resources db (aj_mld j)); [done|cbn [length]; lia].
Qed.
Print Assumptions C59_rebuild.
