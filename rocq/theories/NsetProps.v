(** C161-C167: oarnodesetting. *)
From Verif Require Import Base ReqModel ReqSpec ReqProps NsetModel NsetSpec.
From Coq Require Import Ascii.

(** * One resource, one column *)
Definition logs_of (d : db) (i : Z) (n : string) : list log := filter (fun g => l_res g = i /\ l_attr g = n) (logs d).
Definition shut (now : Z) (g : log) : log := if l_stop g =? 0 then mkLog (l_res g) (l_attr g) (l_val g) (l_start g) now else g.

Lemma rsc_of_upd p f l lg i : (forall r, r_id (f r) = r_id r) ->
  rsc_of (mkDb (upd p f l) lg) i = (fun r => if p r then f r else r) <$> rsc_of (mkDb l lg) i.
Proof.
  intros Hf. unfold rsc_of, upd. cbn [rscs]. induction l as [|r l IH]; [done|]. rewrite fmap_cons, !filter_cons.
  assert (E : r_id (if p r then f r else r) = r_id r) by (destruct (p r); [apply Hf|done]). rewrite E. destruct (decide (r_id r = i)); [done|exact IH].
Qed.
Lemma rsc_of_logs l lg lg' i : rsc_of (mkDb l lg) i = rsc_of (mkDb l lg') i.
Proof. done. Qed.
Lemma rsc_of_eta d i lg : rsc_of (mkDb (rscs d) lg) i = rsc_of d i.
Proof. done. Qed.
Lemma upd_ids p f l : (forall r, r_id (f r) = r_id r) -> r_id <$> upd p f l = r_id <$> l.
Proof. intros Hf. unfold upd. rewrite <- list_fmap_compose. apply list_fmap_ext. intros k r _. cbn. destruct (p r); [apply Hf|done]. Qed.
Lemma rsc_of_id d i r : rsc_of d i = Some r -> r_id r = i /\ r ∈ rscs d.
Proof.
  unfold rsc_of. intros H. assert (r ∈ filter (fun r => r_id r = i) (rscs d)) as X by (destruct (filter _ (rscs d)); [done|injection H as ->; by left]).
  by apply elem_of_list_filter in X.
Qed.
Lemma rsc_of_exists d i : exists_in d i <-> exists r, rsc_of d i = Some r.
Proof.
  unfold exists_in. split.
  - intros (r & -> & H)%elem_of_list_fmap. unfold rsc_of. destruct (filter (fun r0 => r_id r0 = r_id r) (rscs d)) as [|r' l] eqn:E; [|by exists r'].
    exfalso. apply (elem_of_nil (A := rsc) r). rewrite <- E. by apply elem_of_list_filter.
  - intros (r & H). apply rsc_of_id in H as [<- H]. apply elem_of_list_fmap. by exists r.
Qed.
Lemma rsc_unique d i r r' : unique d -> rsc_of d i = Some r -> r' ∈ rscs d -> r_id r' = i -> r' = r.
Proof.
  intros HU Hr H E. apply rsc_of_id in Hr as [<- Hr]. unfold unique in HU. apply elem_of_list_lookup in H as [k H]. apply elem_of_list_lookup in Hr as [k' Hr].
  assert (k = k') as ->; [|congruence]. eapply NoDup_lookup; [exact HU| |]; rewrite list_lookup_fmap; [by rewrite H|]. rewrite Hr. cbn. by rewrite E.
Qed.
Lemma logs_of_app l lg lg' i n : logs_of (mkDb l (lg ++ lg')) i n = logs_of (mkDb l lg) i n ++ logs_of (mkDb l lg') i n.
Proof. unfold logs_of. cbn [logs]. apply filter_app. Qed.
Lemma logs_of_close l now n' ids lg i n : logs_of (mkDb l (close now n' ids lg)) i n =
  (if decide (n = n' /\ i ∈ ids) then shut now <$> logs_of (mkDb l lg) i n else logs_of (mkDb l lg) i n).
Proof.
  unfold logs_of, close. cbn [logs]. induction lg as [|g lg IH]; [by case_decide|]. rewrite fmap_cons, !filter_cons.
  set (g' := if _ && _ then _ else g).
  assert (E : l_res g' = l_res g /\ l_attr g' = l_attr g) by (unfold g'; by destruct (_ && _)). destruct E as [E1 E2]. rewrite E1, E2.
  destruct (decide (l_res g = i /\ l_attr g = n)) as [[<- <-]|N]; [|exact IH]. rewrite IH. destruct (decide (l_attr g = n' /\ l_res g ∈ ids)) as [[A B]|N].
  - rewrite fmap_cons. f_equal. unfold g', shut. rewrite (bool_decide_eq_true_2 _ A), (bool_decide_eq_true_2 _ B), !andb_true_r. done.
  - f_equal. unfold g'. destruct (l_stop g =? 0); [cbn [andb]|done]. destruct (decide (l_attr g = n')) as [A|A]; [rewrite (bool_decide_eq_true_2 _ A)|by rewrite (bool_decide_eq_false_2 _ A)].
    cbn [andb]. rewrite bool_decide_eq_false_2; [done|]. intros B. by apply N.
Qed.
Lemma logs_of_rows l ids n' v now i n : NoDup ids -> logs_of (mkDb l ((fun i => mkLog i n' v now 0) <$> ids)) i n =
  if decide (n = n' /\ i ∈ ids) then [mkLog i n v now 0] else [].
Proof.
  unfold logs_of. cbn [logs]. induction ids as [|j ids IH]; intros ND.
  - rewrite decide_False; [done|]. intros [_ H]. by apply elem_of_nil in H.
  - apply NoDup_cons in ND as [N1 N2]. rewrite fmap_cons, filter_cons. cbn [l_res l_attr]. rewrite (IH N2). destruct (decide (j = i /\ n' = n)) as [[-> ->]|N].
    + rewrite (decide_False (P := n = n /\ i ∈ ids)) by (by intros [_ ?]). rewrite decide_True; [done|]. split; [done|by left].
    + destruct (decide (n = n' /\ i ∈ ids)) as [[A B]|M]; [rewrite decide_True; [done|]; split; [done|by right]|rewrite decide_False; [done|]].
      intros [A B]. apply elem_of_cons in B as [->|B]; [by apply N|by apply M].
Qed.
Lemma set_val_id r n v : r_id (set_val r n v) = r_id r.
Proof. done. Qed.
Lemma set_val_eq r n v : r_val (set_val r n v) n = Some v.
Proof. cbn. by rewrite bool_decide_eq_true_2. Qed.
Lemma set_val_ne r n v x : x <> n -> r_val (set_val r n v) x = r_val r x.
Proof. intros H. cbn. by rewrite bool_decide_eq_false_2. Qed.

(** Setting a property, as seen from the resource [i]: the last commit is what the command sees. *)
Record prop_set (now : Z) (sel : rsc -> bool) (n' v : string) (i : Z) (r : rsc) (s s' : run) : Prop := {
  ps_ids : r_id <$> rscs (cur s') = r_id <$> rscs (cur s);
  ps_rsc : rsc_of (cur s') i = Some (if sel r && differs n' v r then set_val r n' v else r);
  ps_logs : forall n, logs_of (cur s') i n = if decide (n = n' /\ sel r && differs n' v r = true) then (shut now <$> logs_of (cur s) i n) ++ [mkLog i n v now 0] else logs_of (cur s) i n;
  ps_commits : (commits s' = commits s /\ cur s' = cur s) \/ (exists d1, commits s' = cur s' :: d1 :: commits s);
  ps_rest : codes s' = codes s /\ waits s' = waits s }.
Lemma set_property_spec now cs sel n v i r s : n <> "id"%string -> unique (cur s) -> rsc_of (cur s) i = Some r ->
  (n ∉ cs /\ set_property now cs sel n v s = raise s) \/ (n ∈ cs /\ stopped (set_property now cs sel n v s) = stopped s /\ prop_set now sel n v i r s (set_property now cs sel n v s)).
Proof.
  intros Hn HU Hr. unfold set_property. rewrite (bool_decide_eq_false_2 (n = "id"%string)) by done.
  destruct (decide (n ∈ cs)) as [Hc|Hc]; [rewrite (bool_decide_eq_true_2 _ Hc)|rewrite (bool_decide_eq_false_2 _ Hc); by left]. right. split; [done|].
  set (ids := r_id <$> filter (fun r => sel r && differs n v r = true) (rscs (cur s))).
  assert (HI : i ∈ ids <-> sel r && differs n v r = true).
  { unfold ids. rewrite elem_of_list_fmap. split.
    - intros (r' & E & H). apply elem_of_list_filter in H as [H1 H2]. by rewrite <- (rsc_unique _ _ _ r' HU Hr H2).
    - intros H. apply rsc_of_id in Hr as [E Hr]. exists r. split; [done|]. by apply elem_of_list_filter. }
  assert (ND : NoDup ids).
  { unfold ids. unfold unique in HU. clear -HU. induction (rscs (cur s)) as [|a l IH]; [constructor|]. rewrite fmap_cons in HU. apply NoDup_cons in HU as [H1 H2]. rewrite filter_cons.
    case_decide; [|by apply IH]. rewrite fmap_cons. apply NoDup_cons. split; [|by apply IH]. intros (x & E & Hx)%elem_of_list_fmap. apply H1. apply elem_of_list_filter in Hx as [_ Hx]. apply elem_of_list_fmap. by exists x. }
  clearbody ids. destruct ids as [|i0 ids'] eqn:EI.
  - assert (HB : sel r && differs n v r = false) by (destruct (sel r && differs n v r); [|done]; destruct HI as [_ HI]; by specialize (HI eq_refl) as ?%elem_of_nil).
    split; [done|]. constructor; try done; [by rewrite HB| |by left]. intros m. rewrite decide_False; [done|]. rewrite HB. by intros [_ ?].
  - rewrite <- EI in *. clear EI i0 ids'. split; [done|]. constructor; cbn [commit cur commits codes waits rscs logs]; try done.
    + by apply upd_ids.
    + rewrite rsc_of_upd by done. rewrite rsc_of_eta, Hr. cbn. f_equal. apply rsc_of_id in Hr as [E _]. rewrite E. destruct (sel r && differs n v r).
      * by rewrite bool_decide_eq_true_2 by (by apply HI).
      * rewrite bool_decide_eq_false_2; [done|]. intros H. by apply HI in H.
    + intros m. rewrite logs_of_app, logs_of_close, logs_of_rows by done.
      assert (X : (m = n /\ i ∈ ids) <-> (m = n /\ sel r && differs n v r = true)) by (by rewrite HI).
      destruct (decide (m = n /\ i ∈ ids)) as [Y|Y], (decide (m = n /\ sel r && differs n v r = true)) as [W|W]; [|tauto|tauto|].
      * done.
      * by rewrite app_nil_r.
    + right. by eexists.
Qed.
Lemma next_state_spec sel st i r s : rsc_of (cur s) i = Some r ->
  rsc_of (cur (next_state sel st s)) i = Some (if sel r then set_val (set_val r "next_state" st) "next_finaud_decision" "NO" else r) /\
  (forall n, logs_of (cur (next_state sel st s)) i n = logs_of (cur s) i n) /\ r_id <$> rscs (cur (next_state sel st s)) = r_id <$> rscs (cur s) /\
  commits (next_state sel st s) = cur (next_state sel st s) :: commits s.
Proof.
  intros Hr. unfold next_state. cbn [commit cur commits rscs]. split; [|split; [done|split; [by apply upd_ids|done]]]. rewrite rsc_of_upd by done. rewrite rsc_of_eta, Hr. done.
Qed.
Lemma max_above l : forall x, x ∈ l -> x <= fold_right Z.max 0 l.
Proof. induction l as [|y l IH]; intros x Hx; [by apply elem_of_nil in Hx|]. cbn. apply elem_of_cons in Hx as [->|Hx]; [lia|]. specialize (IH x Hx). lia. Qed.
Lemma new_id_fresh d : new_id d ∉ r_id <$> rscs d.
Proof. intros H. apply max_above in H. unfold new_id in H. lia. Qed.
Lemma add_one_spec now df st h i r s : unique (cur s) -> rsc_of (cur s) i = Some r -> unique (cur (add_one now df st h s)) /\
  rsc_of (cur (add_one now df st h s)) i = Some r /\ (forall n, logs_of (cur (add_one now df st h s)) i n = logs_of (cur s) i n) /\
  commits (add_one now df st h s) = cur (add_one now df st h s) :: commits s.
Proof.
  intros HU Hr. unfold add_one. cbn [commit cur commits]. assert (Hi : exists_in (cur s) i) by (apply rsc_of_exists; by exists r).
  assert (Hn : new_id (cur s) <> i) by (intros E; apply (new_id_fresh (cur s)); by rewrite E). split; [|split; [|split; [|done]]].
  - unfold unique. cbn [rscs]. rewrite fmap_app. apply NoDup_app. split; [done|]. split; [|by apply NoDup_singleton]. intros x Hx [->|Hf]%elem_of_cons; [|by apply elem_of_nil in Hf]. by apply new_id_fresh in Hx.
  - unfold rsc_of in *. cbn [rscs]. rewrite filter_app. destruct (filter (fun r0 => r_id r0 = i) (rscs (cur s))) as [|r0 l] eqn:E; [done|]. done.
  - intros n. rewrite logs_of_app. unfold logs_of at 2. cbn [logs]. rewrite filter_cons_False by (by intros [? _]). by rewrite filter_nil, app_nil_r.
Qed.

(** * Invariants of a command *)
Definition maint1 (now : Z) (cs : list string) (on w : bool) (j : Z) : run -> run := if on then maintenance_on now cs w j else maintenance_off now cs j.
Record closed (now : Z) (cs : list string) (df : string -> option string) (ok : string -> Prop) (on : bool) (I : run -> Prop) : Prop := {
  cl_code : forall c s, I s -> I (code c s);
  cl_wait : forall w s, I s -> I (wait w s);
  cl_raise : forall s, I s -> I (raise s);
  cl_prop : forall sel n v s, ok n -> n ∉ system_fields -> I s -> I (set_property now cs sel n v s);
  cl_next : forall sel st s, I s -> I (next_state sel st s);
  cl_add : forall st h s, I s -> I (add_one now df st h s);
  cl_maint : forall w j s, stopped s = false -> I s -> I (maint1 now cs on w j s) }.
Lemma andthen_inv (I : run -> Prop) f s : I s -> (I s -> I (f s)) -> I (andthen f s).
Proof. unfold andthen. destruct (stopped s); auto. Qed.
Lemma each_inv {A} (I : run -> Prop) (f : A -> run -> run) l s : I s -> (forall a s, a ∈ l -> I s -> I (f a s)) -> I (each f l s).
Proof.
  revert s. induction l as [|a l IH]; intros s Hs Hf; [done|]. change (each f (a :: l) s) with (each f l (andthen (f a) s)). apply IH; [|intros b s' Hb; apply Hf; by right].
  apply andthen_inv; [done|]. apply Hf. by left.
Qed.
Lemma each_inv' {A} (I : run -> Prop) (f : A -> run -> run) l s : I s -> (forall a s, a ∈ l -> stopped s = false -> I s -> I (f a s)) -> I (each f l s).
Proof.
  revert s. induction l as [|a l IH]; intros s Hs Hf; [done|]. change (each f (a :: l) s) with (each f l (andthen (f a) s)). apply IH; [|intros b s' Hb; apply Hf; by right].
  unfold andthen. destruct (stopped s) eqn:E; [done|]. apply Hf; [by left|done|done].
Qed.
Lemma each_app {A} (f : A -> run -> run) l l' s : each f (l ++ l') s = each f l' (each f l s).
Proof. apply fold_left_app. Qed.
Lemma each_stopped {A} (f : A -> run -> run) l s : stopped s = true -> each f l s = s.
Proof. intros H. induction l as [|a l IH]; [done|]. change (each f (a :: l) s) with (each f l (andthen (f a) s)). unfold andthen. rewrite H. exact IH. Qed.
Lemma set_properties_inv now cs (ok : string -> Prop) (I : run -> Prop) sel props s : (forall c s, I s -> I (code c s)) ->
  (forall sel n v s, ok n -> n ∉ system_fields -> I s -> I (set_property now cs sel n v s)) ->
  (forall p n v, p ∈ props -> split_on "="%char (lstrip p) = [n; v] -> ok n) -> I s -> I (set_properties now cs sel props s).
Proof.
  intros H1 H2 Hp Hs. unfold set_properties. apply each_inv; [done|]. intros p s' Hin Hs'. destruct (split_on "="%char (lstrip p)) as [|n [|v [|? ?]]] eqn:E; try (by apply H1).
  destruct (decide (n ∈ system_fields)) as [S|S]; [rewrite (bool_decide_eq_true_2 _ S); by apply H1|rewrite (bool_decide_eq_false_2 _ S)]. apply H2; [|done|done]. by eapply Hp.
Qed.
Definition all_props (o : opts) : list string := o_props o ++ match o_drain o with Some true => ["drain=YES"%string] | Some false => ["drain=NO"%string] | None => [] end.
Lemma all_props_ok (ok : string -> Prop) o : (forall n, names o n -> ok n) -> ok "drain"%string -> forall p n v, p ∈ all_props o -> split_on "="%char (lstrip p) = [n; v] -> ok n.
Proof.
  intros H1 H2 p n v Hp E. apply elem_of_app in Hp as [Hp|Hp]; [apply H1; by exists p, v|]. destruct (o_drain o) as [[|]|].
  - apply elem_of_list_singleton in Hp as ->. vm_compute in E. by injection E as <- _.
  - apply elem_of_list_singleton in Hp as ->. vm_compute in E. by injection E as <- _.
  - by apply elem_of_nil in Hp.
Qed.
(** The three parts of a command: states and maintenance, then the properties. *)
Definition first_part (now : Z) (cs : list string) (df : string -> option string) (me : string) (o : opts) (d : db) : run * list Z :=
  let hosts := match o_hosts o with [] => [me] | l => l end in
  let s := mkRun d [] [] [] false in
  let away st := bool_decide (st ∈ ["Dead"; "Absent"]%string) && negb (o_no_wait o) in
    if o_add o then
      let s := each (add_one now df (default "Alive"%string (o_state o))) hosts s in
      (s, match last (rscs (cur s)) with Some r => [r_id r] | None => [] end)
    else match o_resources o with
    | [] =>
        let s := match o_maint o with
                 | Some on => maintenance now cs on (o_no_wait o) (h ← hosts; r_id <$> filter (fun r => on_host h r = true) (rscs (cur s))) s
                 | None => s end in
        (andthen (fun s => match o_state o with
                 | Some st =>
                     let known := filter (fun h => existsb (on_host h) (rscs (cur s)) = true) hosts in
                     let s := each (fun h => next_state (on_host h) st) hosts s in
                     if away st then each (fun _ => wait (inr (default me (last hosts)))) known s else s
                 | None => s end) s, [])
    | ids =>
        (andthen (fun s => match o_maint o with Some on => maintenance now cs on (o_no_wait o) ids s | None => s end)
           (andthen (fun s => match o_state o with
                 | Some st => let s := next_state (in_ids ids) st s in if away st then each (fun i => wait (inl i)) ids s else s
                 | None => s end) s), ids)
    end.
Definition second_part (now : Z) (cs : list string) (me : string) (o : opts) (p : run * list Z) : run :=
  match all_props o with
  | [] => p.1
  | _ => match p.2 with
         | [] => andthen (set_properties now cs (in_hosts match o_hosts o with [] => [me] | l => l end) (all_props o)) p.1
         | _ => andthen (set_properties now cs (in_ids p.2) (all_props o)) p.1 end
  end.
Lemma nodesetting_parts now cs df me o d : nodesetting now cs df me o d = second_part now cs me o (first_part now cs df me o d).
Proof. unfold nodesetting, second_part, first_part, all_props. destruct (o_add o); [done|]. destruct (o_resources o); done. Qed.
Lemma second_closed now cs df ok on I me o p : closed now cs df ok on I -> (forall n, names o n -> ok n) -> ok "drain"%string -> I p.1 -> I (second_part now cs me o p).
Proof.
  intros C H1 H2 Hp. unfold second_part. destruct (all_props o) as [|x l] eqn:E; [done|]. rewrite <- E. destruct p.2; (apply andthen_inv; [done|]; intros _; eapply (set_properties_inv _ _ ok); [apply C|apply C|by apply all_props_ok|done]).
Qed.
Lemma first_closed now cs df ok on I me o d : closed now cs df ok on I -> (forall b, o_maint o = Some b -> b = on) -> I (mkRun d [] [] [] false) -> I (first_part now cs df me o d).1.
Proof.
  intros C Hon H0. unfold first_part. destruct (o_add o); [cbn [fst]; apply each_inv; [done|]; intros; by apply C|].
  assert (HM : forall l s, I s -> I (match o_maint o with Some b => maintenance now cs b (o_no_wait o) l s | None => s end)).
  { intros l s Hs. destruct (o_maint o) as [b|] eqn:Eb; [|done]. rewrite (Hon b eq_refl). unfold maintenance. apply each_inv'; [done|]. intros j s' _ Hst Hs'. by apply (cl_maint _ _ _ _ _ _ C). }
  destruct (o_resources o) as [|i0 ids]; cbn [fst].
  - apply andthen_inv; [by apply HM|]. intros H. destruct (o_state o) as [st|]; [|done].
    assert (HI : I (each (fun h => next_state (on_host h) st) (match o_hosts o with [] => [me] | l => l end)
       (match o_maint o with Some b => maintenance now cs b (o_no_wait o) (h ← (match o_hosts o with [] => [me] | l => l end); r_id <$> filter (fun r => on_host h r = true) (rscs d)) (mkRun d [] [] [] false) | None => mkRun d [] [] [] false end))).
    { apply each_inv; [exact H|]. intros; by apply C. }
    destruct (_ && _); [|exact HI]. apply each_inv; [exact HI|]. intros; by apply C.
  - apply andthen_inv; [apply andthen_inv; [done|]|].
    + intros _. destruct (o_state o) as [st|]; [|done]. destruct (_ && _); [apply each_inv|]; try (intros; by apply C).
    + intros H. by apply HM.
Qed.
Lemma command_closed x now o d ok on I : closed now (cols x) (defaults x) ok on I -> (forall b, o_maint o = Some b -> b = on) -> (forall n, names o n -> ok n) -> ok "drain"%string ->
  I (mkRun d [] [] [] false) -> I (command x now o d).
Proof. intros C Hon H1 H2 H0. unfold command. rewrite nodesetting_parts. eapply second_closed; [done|done|done|]. by eapply first_closed. Qed.
(** A command of maintenance that is about the resource [i] and is not stopped goes through it. *)
Lemma each_through {A} (f : A -> run -> run) l a (I J : run -> Prop) s : a ∈ l -> I s -> (forall b s, stopped s = false -> I s -> I (f b s)) -> (forall b s, stopped s = false -> J s -> J (f b s)) -> (forall s, stopped s = false -> I s -> J (f a s)) ->
  stopped (each f l s) = true \/ J (each f l s).
Proof.
  intros Ha Hs HI HJ HIJ. apply elem_of_list_split in Ha as (l1 & l2 & ->). rewrite each_app. set (s1 := each f l1 s). assert (Hs1 : I s1) by (apply each_inv'; [done|]; intros; by apply HI).
  destruct (stopped s1) eqn:E.
  - left. rewrite each_stopped by done. exact E.
  - right. change (each f (a :: l2) s1) with (each f l2 (andthen (f a) s1)). apply each_inv'; [|intros; by apply HJ]. unfold andthen. rewrite E. by apply HIJ.
Qed.
Lemma command_about x now o d ok on i (I J : run -> Prop) : closed now (cols x) (defaults x) ok on I -> closed now (cols x) (defaults x) ok on J ->
  (forall w s, stopped s = false -> I s -> J (maint1 now (cols x) on w i s)) -> o_maint o = Some on -> about x o d i -> (forall n, names o n -> ok n) -> ok "drain"%string ->
  I (mkRun d [] [] [] false) -> stopped (command x now o d) = true \/ J (command x now o d).
Proof.
  intros CI CJ HIJ Hon (Hadd & Hab) H1 H2 H0. unfold command. rewrite nodesetting_parts.
  assert (HF : stopped (first_part now (cols x) (defaults x) (here x) o d).1 = true \/ J (first_part now (cols x) (defaults x) (here x) o d).1).
  { unfold first_part. rewrite Hadd, Hon.
    assert (HM : forall l s, i ∈ l -> I s -> stopped (maintenance now (cols x) on (o_no_wait o) l s) = true \/ J (maintenance now (cols x) on (o_no_wait o) l s)).
    { intros l s Hl Hs. unfold maintenance. apply (each_through _ l i I J s Hl Hs).
      - intros b s'. apply (cl_maint _ _ _ _ _ _ CI).
      - intros b s'. apply (cl_maint _ _ _ _ _ _ CJ).
      - intros s'. apply HIJ. }
    destruct (o_resources o) as [|i0 ids]; cbn [fst].
    - destruct Hab as (r & Hr & Hh). apply rsc_of_id in Hr as [E Hr].
      assert (Hl : i ∈ (h ← (match o_hosts o with [] => [here x] | l => l end); r_id <$> filter (fun r => on_host h r = true) (rscs d))).
      { apply elem_of_list_bind. exists (r_addr r). split; [|done]. apply elem_of_list_fmap. exists r. split; [done|]. apply elem_of_list_filter. split; [|done]. unfold on_host. by rewrite bool_decide_eq_true_2. }
      cbn [cur]. set (s1 := maintenance now (cols x) on (o_no_wait o) _ _). destruct (HM _ (mkRun d [] [] [] false) Hl H0) as [Hst|HJ]; fold s1 in Hst || fold s1 in HJ.
      + left. unfold andthen. by rewrite Hst.
      + right. apply andthen_inv; [done|]. intros _. destruct (o_state o) as [st|]; [|done].
        assert (HI : J (each (fun h => next_state (on_host h) st) (match o_hosts o with [] => [here x] | l => l end) s1)) by (apply each_inv; [exact HJ|]; intros; by apply CJ).
        destruct (_ && _); [|exact HI]. apply each_inv; [exact HI|]. intros; by apply CJ.
    - set (s1 := andthen _ (mkRun d [] [] [] false)). assert (Hs1 : I s1).
      { apply andthen_inv; [done|]. intros _. destruct (o_state o) as [st|]; [|done]. destruct (_ && _); [apply each_inv|]; try (intros; by apply CI). }
      unfold andthen. destruct (stopped s1) eqn:E; [by left|]. by apply HM. }
  destruct HF as [HF|HF]; [left|right; by eapply second_closed].
  unfold second_part, andthen. destruct (all_props o); [done|]. destruct (_.2); by rewrite HF.
Qed.

(** * The log *)
Record dclosed (now : Z) (cs : list string) (df : string -> option string) (ok : string -> Prop) (K : db -> Prop) : Prop := {
  dc_prop : forall sel n v s, ok n -> n ∉ system_fields -> K (cur s) -> K (cur (set_property now cs sel n v s));
  dc_next : forall sel st s, K (cur s) -> K (cur (next_state sel st s));
  dc_add : forall st h s, K (cur s) -> K (cur (add_one now df st h s));
  dc_on : forall j d, K d -> K (mkDb (rscs d) (logs d ++ [mkLog j "maintenance" "on" now 0]));
  dc_close : forall j d, K d -> K (mkDb (rscs d) (close now "maintenance" [j] (logs d))) }.
Lemma set_property_commits now cs sel n v s : n <> "id"%string ->
  (commits (set_property now cs sel n v s) = commits s /\ cur (set_property now cs sel n v s) = cur s) \/ exists l, commits (set_property now cs sel n v s) = cur (set_property now cs sel n v s) :: l.
Proof.
  intros Hn. unfold set_property. rewrite (bool_decide_eq_false_2 (n = "id"%string)) by done. destruct (bool_decide (n ∈ cs)); [|by left].
  destruct (r_id <$> filter _ _); [by left|right]. by eexists.
Qed.
Lemma split_name n v : lacks ["="%char] n -> split_on "="%char (n +:+ String "="%char v) = n :: split_on "="%char v.
Proof. apply split_on_sep. Qed.
Lemma upto_text u : split_on "="%char (lstrip ("last_available_upto=" +:+ u)) = "last_available_upto"%string :: split_on "="%char u /\
  split_on "="%char (lstrip ("available_upto=" +:+ u)) = "available_upto"%string :: split_on "="%char u.
Proof.
  assert (L : forall x, (forall a, a ∈ list_ascii_of_string x -> a <> "="%char) -> lacks ["="%char] x).
  { induction x as [|a x IH]; intros H; [done|]. split; [intros X; apply elem_of_list_singleton in X; revert X; apply H; by left|]. apply IH. intros b Hb. apply H. by right. }
  split.
  - change (lstrip ("last_available_upto=" +:+ u)) with ("last_available_upto" +:+ String "="%char u). apply split_name. apply L. intros a Ha ->. apply (bool_decide_eq_true_2 _) in Ha. vm_compute in Ha. discriminate.
  - change (lstrip ("available_upto=" +:+ u)) with ("available_upto" +:+ String "="%char u). apply split_name. apply L. intros a Ha ->. apply (bool_decide_eq_true_2 _) in Ha. vm_compute in Ha. discriminate.
Qed.
Lemma maint_names u rest p n v : p ∈ ("available_upto=0"%string :: rest) -> (rest = [] \/ rest = ["last_available_upto=" +:+ u]) -> split_on "="%char (lstrip p) = [n; v] ->
  n = "available_upto"%string \/ n = "last_available_upto"%string.
Proof.
  intros [->|Hp]%elem_of_cons HR E.
  - left. change "available_upto=0"%string with ("available_upto=" +:+ "0") in E. rewrite (proj2 (upto_text "0")) in E. by injection E as <- _.
  - destruct HR as [->| ->]; [by apply elem_of_nil in Hp|]. apply elem_of_list_singleton in Hp as ->. rewrite (proj1 (upto_text u)) in E. right. by injection E as <- _.
Qed.
Lemma dclosed_closed now cs df (ok : string -> Prop) on K d0 : dclosed now cs df ok K -> ok "available_upto"%string -> ok "last_available_upto"%string -> (forall n, ok n -> n <> "id"%string) ->
  closed now cs df ok on (fun s => K (cur s) /\ K (after d0 s)).
Proof.
  intros D O1 O2 Oid.
  assert (HP : forall sel n v s, ok n -> n ∉ system_fields -> K (cur s) /\ K (after d0 s) -> K (cur (set_property now cs sel n v s)) /\ K (after d0 (set_property now cs sel n v s))).
  { intros sel n v s Hn Hs [H1 H2]. assert (X : K (cur (set_property now cs sel n v s))) by (by apply D). split; [done|].
    destruct (set_property_commits now cs sel n v s) as [[E _]|(l & E)]; [by apply Oid| |]; unfold after; rewrite E; done. }
  assert (HN : forall sel st s, K (cur s) /\ K (after d0 s) -> K (cur (next_state sel st s)) /\ K (after d0 (next_state sel st s))).
  { intros sel st s [H1 H2]. assert (X : K (cur (next_state sel st s))) by (by apply D). by split. }
  constructor; try done.
  - intros st h s [H1 H2]. assert (X : K (cur (add_one now df st h s))) by (by apply D). by split.
  - intros w j s _ [H1 H2]. unfold maint1. destruct on.
    + unfold maintenance_on. destruct (filter _ _) as [|r [|? ?]]; [done| |done]. cbv zeta. set (upto := default _ _). set (texts := _ :: _).
      apply andthen_inv; [apply andthen_inv; [apply andthen_inv|]|].
      * split; [by apply D|done].
      * intros X. eapply (set_properties_inv now cs ok (fun s => K (cur s) /\ K (after d0 s))); [done|done| |exact X]. intros p n v Hp E.
        destruct (maint_names upto _ p n v Hp ltac:(case_bool_decide; [by left|by right]) E) as [->| ->]; done.
      * intros X. by apply HN.
      * intros X. by destruct w.
    + unfold maintenance_off. destruct (filter _ _) as [|r [|? ?]]; [done| |done]. cbv zeta. set (last := default _ _). apply andthen_inv; [apply andthen_inv|].
      * assert (X : K (mkDb (rscs (cur s)) (close now "maintenance" [j] (logs (cur s))))) by (by apply D). by split.
      * intros X. case_bool_decide; [done|]. eapply (set_properties_inv now cs ok (fun s => K (cur s) /\ K (after d0 s))); [done|done| |exact X]. intros p n v Hp E.
        apply elem_of_list_singleton in Hp as ->. rewrite (proj2 (upto_text last)) in E. by injection E as <- _.
      * intros X. by apply HN.
Qed.

Definition opn (d : db) (i : Z) (n : string) : list string := l_val <$> filter (fun g => l_stop g = 0) (logs_of d i n).
Definition covers (t : Z) (g : log) : Prop := l_start g <= t /\ (l_stop g = 0 \/ t < l_stop g).
Global Instance covers_dec t g : Decision (covers t g).
Proof. unfold covers. apply _. Defined.
Lemma recorded_eq i n t d : recorded i n t d = l_val <$> filter (covers t) (logs_of d i n).
Proof. unfold recorded, logs_of. f_equal. rewrite list_filter_filter. apply list_filter_iff. intros g. unfold covers. tauto. Qed.
Lemma covers_shut t now g : t < now -> covers t (shut now g) <-> covers t g.
Proof. intros H. unfold covers, shut. destruct (l_stop g =? 0) eqn:E; cbn [l_start l_stop]; [|done]. split; intros [? ?]; (split; [done|]); [left; lia|right; lia]. Qed.
Lemma shut_val now g : l_val (shut now g) = l_val g.
Proof. unfold shut. by destruct (l_stop g =? 0). Qed.
Lemma covers_shut_list t now (l : list log) : t < now -> l_val <$> filter (covers t) (shut now <$> l) = l_val <$> filter (covers t) l.
Proof.
  intros H. induction l as [|g l IH]; [done|]. rewrite fmap_cons, !filter_cons. destruct (decide (covers t g)) as [C|C].
  - rewrite decide_True by (by apply covers_shut). rewrite !fmap_cons, IH. f_equal. apply shut_val.
  - rewrite decide_False by (by rewrite covers_shut). exact IH.
Qed.
Lemma shut_none now (l : list log) : 0 < now -> filter (fun g => l_stop g = 0) (shut now <$> l) = [].
Proof. intros H. induction l as [|g l IH]; [done|]. rewrite fmap_cons, filter_cons_False; [done|]. unfold shut. destruct (l_stop g =? 0) eqn:E; cbn [l_stop]; lia. Qed.
Definition dated (now : Z) (l : list log) : Prop := Forall (fun g => l_start g <= now /\ l_stop g <= now) l.
Lemma dated_shut now (l : list log) : dated now l -> dated now (shut now <$> l).
Proof. intros H. unfold dated in *. rewrite Forall_fmap. eapply Forall_impl; [exact H|]. intros g [? ?]. cbn. unfold shut. destruct (l_stop g =? 0); cbn [l_start l_stop]; [|done]. split; [done|lia]. Qed.

(** What holds all along a command of date [now] begun in [d0]: of the log of column [n] of the resource [i]. *)
Definition follows (i : Z) (n : string) (d0 d : db) : Prop :=
  (opn d i n = [] /\ opn d0 i n = [] /\ val d i n = val d0 i n) \/ exists v, opn d i n = [v] /\ val d i n = Some v.
Record kept (now : Z) (i : Z) (n : string) (d0 d : db) : Prop := {
  kp_unique : unique d; kp_exists : exists r, rsc_of d i = Some r;
  kp_past : forall t, t < now -> recorded i n t d = recorded i n t d0;
  kp_dates : dated now (logs_of d i n);
  kp_value : property_name n -> follows i n d0 d }.
Lemma unique_ids d d' : r_id <$> rscs d' = r_id <$> rscs d -> unique d -> unique d'.
Proof. unfold unique. by intros ->. Qed.
Lemma kept_same now i n d0 d d' r r' : kept now i n d0 d -> unique d' -> rsc_of d i = Some r -> rsc_of d' i = Some r' -> logs_of d' i n = logs_of d i n -> (property_name n -> r_val r' n = r_val r n) -> kept now i n d0 d'.
Proof.
  intros [K1 K2 K3 K4 K5] HU Hr Hr' HL HV. constructor; [done|by exists r'| | |].
  - intros t Ht. rewrite recorded_eq, HL, <- recorded_eq. by apply K3.
  - by rewrite HL.
  - intros Hn. specialize (K5 Hn). unfold follows, opn, val in *. by rewrite HL, Hr', (HV Hn), Hr in *.
Qed.
Lemma server_system n : property_name n -> n ∉ system_fields.
Proof. intros (H & _). exact H. Qed.
Lemma kept_closed now cs df i n d0 : 0 < now -> dclosed now cs df (fun n => n <> "id"%string) (kept now i n d0).
Proof.
  intros Hnow. constructor.
  - intros sel m v s Hm _ K. destruct (kp_exists _ _ _ _ _ K) as [r Hr]. destruct (set_property_spec now cs sel m v i r s Hm (kp_unique _ _ _ _ _ K) Hr) as [[_ ->]|(_ & _ & P)]; [done|].
    assert (HU : unique (cur (set_property now cs sel m v s))) by (eapply unique_ids; [apply (ps_ids _ _ _ _ _ _ _ _ P)|apply K]).
    destruct (decide (n = m /\ sel r && differs m v r = true)) as [[<- HB]|N].
    + pose proof (ps_logs _ _ _ _ _ _ _ _ P n) as L. rewrite decide_True in L by done. pose proof (ps_rsc _ _ _ _ _ _ _ _ P) as R. rewrite HB in R. constructor; [done|by eexists| | |].
      * intros t Ht. rewrite <- (kp_past _ _ _ _ _ K t Ht). rewrite !recorded_eq, L, filter_app, fmap_app, covers_shut_list by done.
        rewrite filter_cons_False; [by rewrite filter_nil, app_nil_r|]. unfold covers. cbn [l_start]. lia.
      * rewrite L. unfold dated. apply Forall_app. split; [apply dated_shut; apply K|]. constructor; [cbn; lia|constructor].
      * intros _. right. exists v. unfold opn, val. rewrite L, R, filter_app, shut_none, set_val_eq by done. done.
    + pose proof (ps_logs _ _ _ _ _ _ _ _ P n) as L. rewrite decide_False in L by done. eapply kept_same; [exact K|done|exact Hr|apply (ps_rsc _ _ _ _ _ _ _ _ P)|done|].
      intros _. destruct (sel r && differs m v r) eqn:B; [|done]. apply set_val_ne. intros ->. by apply N.
  - intros sel st s K. destruct (kp_exists _ _ _ _ _ K) as [r Hr]. destruct (next_state_spec sel st i r s Hr) as (A1 & A2 & A3 & _).
    eapply kept_same; [exact K|eapply unique_ids; [exact A3|apply K]|exact Hr|exact A1|apply A2|]. intros HN%server_system. destruct (sel r); [|done].
    rewrite !set_val_ne; [done| |]; intros ->; apply HN; by_dec.
  - intros st h s K. destruct (kp_exists _ _ _ _ _ K) as [r Hr]. destruct (add_one_spec now df st h i r s (kp_unique _ _ _ _ _ K) Hr) as (A1 & A2 & A3 & _).
    by eapply kept_same; [exact K|exact A1|exact Hr|exact A2|apply A3|].
  - intros j d K. destruct (kp_exists _ _ _ _ _ K) as [r Hr]. destruct (decide (j = i /\ n = "maintenance"%string)) as [[-> ->]|N].
    + assert (L : logs_of (mkDb (rscs d) (logs d ++ [mkLog i "maintenance" "on" now 0])) i "maintenance" = logs_of d i "maintenance" ++ [mkLog i "maintenance" "on" now 0]).
      { rewrite logs_of_app. f_equal. unfold logs_of. cbn [logs]. by rewrite filter_cons_True. }
      constructor; [apply K|by exists r| | |].
      * intros t Ht. rewrite <- (kp_past _ _ _ _ _ K t Ht). rewrite !recorded_eq, L, filter_app. rewrite (filter_cons_False _ (mkLog _ _ _ _ _)); [by rewrite filter_nil, app_nil_r|]. unfold covers. cbn [l_start]. lia.
      * rewrite L. unfold dated. apply Forall_app. split; [apply K|]. constructor; [cbn; lia|constructor].
      * intros (_ & ? & _). done.
    + eapply kept_same; [exact K|apply K|exact Hr|exact Hr| |done]. rewrite logs_of_app. unfold logs_of at 2. cbn [logs]. rewrite filter_cons_False; [by rewrite filter_nil, app_nil_r|]. cbn. intros [? ?]. by apply N.
  - intros j d K. destruct (kp_exists _ _ _ _ _ K) as [r Hr]. pose proof (logs_of_close (rscs d) now "maintenance" [j] (logs d) i n) as L. destruct (decide (n = "maintenance"%string /\ i ∈ [j])) as [[-> H]|N].
    + change (logs_of (mkDb (rscs d) (logs d)) i "maintenance") with (logs_of d i "maintenance") in L. constructor; [apply K|by exists r| | |].
      * intros t Ht. rewrite <- (kp_past _ _ _ _ _ K t Ht). rewrite !recorded_eq, L. by apply covers_shut_list.
      * rewrite L. apply dated_shut. apply K.
      * intros (_ & ? & _). done.
    + eapply kept_same; [exact K|apply K|exact Hr|exact Hr|exact L|done].
Qed.

(** * Histories *)
Lemma step_kept x now o d i n : 0 < now -> unique d -> exists_in d i -> ~ names o "id"%string -> dated now (logs_of d i n) ->
  (property_name n -> opn d i n = [] \/ exists v, opn d i n = [v] /\ val d i n = Some v) -> kept now i n d (after d (command x now o d)).
Proof.
  intros Hnow HU HE Hid HD HV. assert (K0 : kept now i n d d).
  { constructor; [done|by apply rsc_of_exists|done|done|]. intros Hn. destruct (HV Hn) as [?|?]; [by left|by right]. }
  assert (X : kept now i n d (cur (command x now o d)) /\ kept now i n d (after d (command x now o d))); [|apply X].
  set (on := match o_maint o with Some b => b | None => true end).
  apply (command_closed x now o d (fun n => n <> "id"%string) on (fun s => kept now i n d (cur s) /\ kept now i n d (after d s))).
  - apply dclosed_closed; [by apply kept_closed|done|done|done].
  - intros b Hb. unfold on. by rewrite Hb.
  - intros m Hm ->. done.
  - done.
  - by split.
Qed.
(** The state of the invariant between commands. *)
Record between (b i : Z) (n : string) (d : db) : Prop := {
  bt_unique : unique d; bt_exists : exists_in d i; bt_dates : dated b (logs_of d i n);
  bt_value : property_name n -> opn d i n = [] \/ exists v, opn d i n = [v] /\ val d i n = Some v }.
Lemma dated_mono b b' l : b <= b' -> dated b l -> dated b' l.
Proof. intros H HD. eapply Forall_impl; [exact HD|]. intros g [? ?]. split; lia. Qed.
Lemma between_step x b now o d i n : between b i n d -> 0 < now -> b <= now -> ~ names o "id"%string -> between now i n (after d (command x now o d)) /\ kept now i n d (after d (command x now o d)).
Proof.
  intros [B1 B2 B3 B4] H0 Hb Hid. assert (K : kept now i n d (after d (command x now o d))) by (apply step_kept; try done; by eapply dated_mono). split; [|done].
  destruct K as [K1 K2 K3 K4 K5]. constructor; [done|by apply rsc_of_exists|done|]. intros Hn. destruct (K5 Hn) as [(? & _)|?]; [by left|by right].
Qed.
Lemma replay_future x h : forall b d i n t, between b i n d -> ordered h -> plain h -> Forall (fun s => b <= s) h.*1 -> Forall (fun s => t < s) h.*1 -> recorded i n t (replay x h d) = recorded i n t d.
Proof.
  induction h as [|[now o] h IH]; intros b d i n t HB HO HP Hb Ht; [done|]. cbn [replay]. destruct HO as [HO1 HO2]. cbn [fmap list_fmap fst] in *.
  apply StronglySorted_inv in HO1 as [HO1 HO3]. apply Forall_cons in HO2 as [HO2 HO4]. apply Forall_cons in Hb as [Hb1 Hb2]. apply Forall_cons in Ht as [Ht1 Ht2].
  destruct (between_step x b now o d i n HB HO2 Hb1) as [HB' K]; [apply (HP (now, o)); by left|].
  rewrite (IH now); [by apply K|done|done| |done|done]. intros c Hc. apply HP. by right.
Qed.
Lemma until_none t h : Forall (fun s => t < s) h.*1 -> until t h = [].
Proof.
  intros H. induction h as [|c h IH]; [done|]. rewrite fmap_cons in H. apply Forall_cons in H as [H1 H2]. unfold until. rewrite filter_cons_False by lia. by apply IH.
Qed.
Lemma by_date_now b d i n t : between b i n d -> b <= t -> recorded i n t d = opn d i n.
Proof.
  intros HB Ht. rewrite recorded_eq. unfold opn. f_equal. pose proof (bt_dates _ _ _ _ HB) as HD. revert HD. generalize (logs_of d i n). intros l HD.
  induction HD as [|g l [G1 G2] HD IH]; [done|]. rewrite !filter_cons. rewrite IH. destruct (decide (l_stop g = 0)) as [E|E].
  - rewrite decide_True; [done|]. unfold covers. split; [lia|by left].
  - rewrite decide_False; [done|]. unfold covers. lia.
Qed.
Lemma by_date x h : forall b d i n t, between b i n d -> ordered h -> plain h -> Forall (fun s => b <= s) h.*1 -> b <= t -> recorded i n t (replay x h d) = opn (replay x (until t h) d) i n.
Proof.
  induction h as [|[now o] h IH]; intros b d i n t HB HO HP Hb Ht; [by eapply by_date_now|].
  assert (HO' := HO). destruct HO' as [HO1 HO2]. assert (Hb' := Hb). rewrite fmap_cons in HO1, HO2, Hb'. cbn [fst] in *. apply StronglySorted_inv in HO1 as [HO1 HO3]. apply Forall_cons in HO2 as [HO2 HO4]. apply Forall_cons in Hb' as [Hb1 Hb2].
  destruct (between_step x b now o d i n HB HO2 Hb1) as [HB' K]; [apply (HP (now, o)); by left|].
  assert (HP' : plain h) by (intros c Hc; apply HP; by right).
  destruct (decide (now <= t)) as [L|L].
  - unfold until. rewrite filter_cons_True by done. cbn [replay]. by apply (IH now).
  - assert (HT : Forall (fun s => t < s) ((now, o) :: h).*1) by (rewrite fmap_cons; constructor; [cbn; lia|]; eapply Forall_impl; [exact HO3|]; cbn; lia).
    rewrite until_none by done. rewrite (replay_future x ((now, o) :: h) b) by done. by eapply by_date_now.
Qed.
Lemma start_between b i n d : unique d -> exists_in d i -> logs_of d i n = [] -> between b i n d.
Proof. intros. constructor; [done|done| |]; [rewrite H1; constructor|]. intros _. left. unfold opn. by rewrite H1. Qed.
Lemma by_date' x h d i n t : unique d -> exists_in d i -> logs_of d i n = [] -> ordered h -> plain h -> recorded i n t (replay x h d) = opn (replay x (until t h) d) i n.
Proof.
  intros HU HE HL HO HP. apply (by_date x h (Z.min t 0)); try done; [by apply start_between| |lia]. destruct HO as [_ HO]. eapply Forall_impl; [exact HO|]. cbn. lia.
Qed.

Lemma until_ordered t h : ordered h -> ordered (until t h).
Proof.
  intros [H1 H2]. unfold ordered. induction h as [|c h IH]; [done|]. rewrite fmap_cons in H1, H2. apply StronglySorted_inv in H1 as [H1 H3]. apply Forall_cons in H2 as [H2 H4]. destruct (IH H1 H4) as [I1 I2].
  unfold until. rewrite filter_cons. destruct (decide (c.1 <= t)); [|done]. rewrite fmap_cons. split; constructor; try done.
  rewrite Forall_forall in *. intros s (c' & -> & Hc)%elem_of_list_fmap. apply elem_of_list_filter in Hc as [_ Hc]. apply H3. apply elem_of_list_fmap. by exists c'.
Qed.
Lemma until_plain t h : plain h -> plain (until t h).
Proof. intros H c Hc. apply elem_of_list_filter in Hc as [_ Hc]. by apply H. Qed.
Lemma follows_history x h : forall b d i n, property_name n -> between b i n d -> ordered h -> plain h -> Forall (fun s => b <= s) h.*1 ->
  (exists v, opn (replay x h d) i n = [v] /\ val (replay x h d) i n = Some v) \/
  (opn (replay x h d) i n = [] /\ opn d i n = [] /\ forall h', h' `prefix_of` h -> val (replay x h' d) i n = val d i n).
Proof.
  induction h as [|[now o] h IH]; intros b d i n Hn HB HO HP Hb.
  - cbn [replay]. destruct (bt_value _ _ _ _ HB Hn) as [E|E]; [right|by left]. split; [done|]. split; [done|]. intros h' ->%prefix_nil_inv. done.
  - assert (HO' := HO). destruct HO' as [HO1 HO2]. rewrite fmap_cons in HO1, HO2, Hb. cbn [fst] in *. apply StronglySorted_inv in HO1 as [HO1 HO3]. apply Forall_cons in HO2 as [HO2 HO4]. apply Forall_cons in Hb as [Hb1 Hb2].
    destruct (between_step x b now o d i n HB HO2 Hb1) as [HB' K]; [apply (HP (now, o)); by left|]. cbn [replay].
    destruct (IH now _ i n Hn HB') as [E|(E1 & E2 & E3)]; [done|intros c Hc; apply HP; by right|done|by left|right]. split; [done|].
    destruct (kp_value _ _ _ _ _ K Hn) as [(F1 & F2 & F3)|(v & F & _)]; [|rewrite E2 in F; done]. split; [done|]. intros [|[now' o'] h'] Hp; [done|].
    apply prefix_cons_inv_1 in Hp as E. injection E as -> ->. apply prefix_cons_inv_2 in Hp. cbn [replay]. rewrite E3 by done. done.
Qed.
Lemma no_rows d i n : (forall g, g ∈ logs d -> ~ (l_res g = i /\ l_attr g = n)) -> logs_of d i n = [].
Proof.
  intros H. destruct (logs_of d i n) as [|g l] eqn:E; [done|]. exfalso. assert (X : g ∈ logs_of d i n) by (rewrite E; by left). apply elem_of_list_filter in X as [X1 X2]. by apply (H g).
Qed.
(** ** The log of a property says, of every date, the value the property had at that date *)
Theorem C163_log x h d i n t : unique d -> exists_in d i -> (forall g, g ∈ logs d -> ~ (l_res g = i /\ l_attr g = n)) -> property_name n -> ordered h -> plain h ->
  (exists v, recorded i n t (replay x h d) = [v] /\ val (replay x (until t h) d) i n = Some v) \/
  (recorded i n t (replay x h d) = [] /\ forall h', h' `prefix_of` until t h -> val (replay x h' d) i n = val d i n).
Proof.
  intros HU HE HL Hn HO HP. apply no_rows in HL. rewrite (by_date' x h d i n t) by done.
  destruct (follows_history x (until t h) 0 d i n Hn) as [?|(? & _ & ?)]; [by apply start_between|by apply until_ordered|by apply until_plain| |by left|by right].
  destruct (until_ordered t h HO) as [_ X]. eapply Forall_impl; [exact X|]. cbn. lia.
Qed.

(** * Maintenance *)
Definition quiet (n : string) : Prop := n ∉ ["id"; "available_upto"; "last_available_upto"]%string.
(** Between the operations of a command: the two dates and the open rows of maintenance of the resource [i]. *)
Definition in_service (u : string) (d : db) (i : Z) : Prop :=
  val d i "available_upto" = Some u /\ (val d i "last_available_upto" = Some "0"%string \/ val d i "last_available_upto" = Some u) /\ opn d i "maintenance" = [].
Definition in_maint (u : string) (d : db) (i : Z) : Prop :=
  val d i "available_upto" = Some "0"%string /\ val d i "last_available_upto" = Some u /\ opn d i "maintenance" <> [].
Definition good (i : Z) (P : db -> Prop) (d : db) : Prop := unique d /\ (exists r, rsc_of d i = Some r) /\ P d.
Definition settled (d0 : db) (i : Z) (P : db -> Prop) (s : run) : Prop := good i P (cur s) /\ good i P (after d0 s).
(** A property of the dates and of the open rows. *)
Definition of_dates (i : Z) (P : db -> Prop) : Prop := forall d d', val d' i "available_upto" = val d i "available_upto" -> val d' i "last_available_upto" = val d i "last_available_upto" ->
  logs_of d' i "maintenance" = logs_of d i "maintenance" -> P d -> P d'.
Lemma in_service_dates u i : of_dates i (fun d => in_service u d i).
Proof. intros d d' E1 E2 E3 (H1 & H2 & H3). unfold in_service, opn. by rewrite E1, E2, E3. Qed.
Lemma in_maint_dates u i : of_dates i (fun d => in_maint u d i).
Proof. intros d d' E1 E2 E3 (H1 & H2 & H3). unfold in_maint, opn. by rewrite E1, E2, E3. Qed.
Lemma good_step i P d d' r r' : of_dates i P -> good i P d -> rsc_of d i = Some r -> unique d' -> rsc_of d' i = Some r' ->
  r_val r' "available_upto" = r_val r "available_upto" -> r_val r' "last_available_upto" = r_val r "last_available_upto" ->
  logs_of d' i "maintenance" = logs_of d i "maintenance" -> good i P d'.
Proof.
  intros HP (S1 & S2 & S3) Hr HU Hr' E1 E2 E3. split; [done|]. split; [by exists r'|]. apply (HP d); [| |done|done]; unfold val; by rewrite Hr', Hr.
Qed.
Lemma set_settled now cs sel n v d0 i P s : of_dates i P -> quiet n -> n <> "maintenance"%string -> settled d0 i P s -> settled d0 i P (set_property now cs sel n v s).
Proof.
  intros HP Hq Hm [S SA]. destruct S as (S1 & (r & Hr) & S3). assert (S : good i P (cur s)) by (by split; [|split; [exists r|]]).
  assert (Hn : n <> "id"%string) by (intros ->; apply Hq; by_dec).
  assert (X : good i P (cur (set_property now cs sel n v s))).
  { destruct (set_property_spec now cs sel n v i r s Hn S1 Hr) as [[_ ->]|(_ & _ & X)]; [done|].
    eapply good_step; [done|done|exact Hr|eapply unique_ids; [apply (ps_ids _ _ _ _ _ _ _ _ X)|done]|apply (ps_rsc _ _ _ _ _ _ _ _ X)| | |].
    - destruct (_ && _); [|done]. apply set_val_ne. intros <-. apply Hq. by_dec.
    - destruct (_ && _); [|done]. apply set_val_ne. intros <-. apply Hq. by_dec.
    - rewrite (ps_logs _ _ _ _ _ _ _ _ X). rewrite decide_False; [done|]. by intros [<- _]. }
  split; [done|]. destruct (set_property_commits now cs sel n v s Hn) as [[E _]|(l & E)]; unfold after; rewrite E; done.
Qed.
Lemma next_settled sel st d0 i P s : of_dates i P -> settled d0 i P s -> settled d0 i P (next_state sel st s).
Proof.
  intros HP [S SA]. destruct S as (S1 & (r & Hr) & S3). destruct (next_state_spec sel st i r s Hr) as (A1 & A2 & A3 & A4).
  assert (X : good i P (cur (next_state sel st s))); [|by split].
  eapply good_step; [done|split; [exact S1|split; [by exists r|exact S3]]|exact Hr|eapply unique_ids; [exact A3|done]|exact A1| | |apply A2]; by destruct (sel r).
Qed.
Lemma add_settled now df st h d0 i P s : of_dates i P -> settled d0 i P s -> settled d0 i P (add_one now df st h s).
Proof.
  intros HP [S SA]. destruct S as (S1 & (r & Hr) & S3). destruct (add_one_spec now df st h i r s S1 Hr) as (A1 & A2 & A3 & A4).
  assert (X : good i P (cur (add_one now df st h s))); [|by split].
  by eapply good_step; [done|split; [exact S1|split; [by exists r|exact S3]]|exact Hr|exact A1|exact A2| | |apply A3].
Qed.
Lemma by_id_one d j r : unique d -> filter (fun r => by_id j r = true) (rscs d) = [r] <-> rsc_of d j = Some r.
Proof.
  intros HU. assert (E : filter (fun r => by_id j r = true) (rscs d) = filter (fun r => r_id r = j) (rscs d)).
  { apply list_filter_iff. intros r'. unfold by_id. apply Z.eqb_eq. }
  rewrite E. unfold rsc_of. split; [by intros ->|]. intros H.
  assert (HL : (length (filter (fun r => r_id r = j) (rscs d)) <= 1)%nat).
  { unfold unique in HU. clear -HU. induction (rscs d) as [|a l IH]; [cbn; lia|]. rewrite fmap_cons in HU. apply NoDup_cons in HU as [H1 H2]. rewrite filter_cons. destruct (decide (r_id a = j)) as [<-|]; [|by apply IH].
    cbn [length]. assert (filter (fun r => r_id r = r_id a) l = []) as ->; [|cbn; lia]. destruct (filter _ l) as [|b l'] eqn:E; [done|]. exfalso. apply H1. assert (X : b ∈ filter (fun r => r_id r = r_id a) l) by (rewrite E; by left).
    apply elem_of_list_filter in X as [X1 X2]. apply elem_of_list_fmap. by exists b. }
  clear E. destruct (filter (fun r => r_id r = j) (rscs d)) as [|a [|b l]]; [done|by injection H as ->|cbn in HL; lia].
Qed.
(** One property set by the maintenance of the resource [i] itself. *)
Lemma set_properties_one now cs sel p n v s : split_on "="%char (lstrip p) = [n; v] -> n ∉ system_fields -> stopped s = false -> set_properties now cs sel [p] s = set_property now cs sel n v s.
Proof. intros E H Hs. unfold set_properties, each. cbn [fold_left]. unfold andthen. rewrite Hs, E. by rewrite bool_decide_eq_false_2. Qed.
Lemma lacks_split u : lacks ["="%char] u -> split_on "="%char u = [u].
Proof. apply split_on_lacks. Qed.
Lemma by_id_own i r d : rsc_of d i = Some r -> by_id i r = true.
Proof. intros H. apply rsc_of_id in H as [H _]. unfold by_id. by apply Z.eqb_eq. Qed.
Lemma by_id_other i j r d : rsc_of d i = Some r -> i <> j -> by_id j r = false.
Proof. intros H Hn. apply rsc_of_id in H as [H _]. unfold by_id. apply Z.eqb_neq. by rewrite H. Qed.
(** The two columns of the dates exist. *)
Definition has_dates (cs : list string) : Prop := "available_upto"%string ∈ cs /\ "last_available_upto"%string ∈ cs.
(** What [set_property] does to a run that is not stopped, for the columns of the dates. *)
Lemma set_date now cs j n v i r s : n ∈ cs -> n <> "id"%string -> unique (cur s) -> rsc_of (cur s) i = Some r -> stopped s = false ->
  let s' := set_property now cs (by_id j) n v s in
  stopped s' = false /\ unique (cur s') /\
  (exists r', rsc_of (cur s') i = Some r' /\ forall m, r_val r' m = if decide (i = j /\ m = n) then Some v else r_val r m) /\
  (forall m, m <> n -> logs_of (cur s') i m = logs_of (cur s) i m).
Proof.
  intros Hc Hn HU Hr Hs. destruct (set_property_spec now cs (by_id j) n v i r s Hn HU Hr) as [[? _]|(_ & S & X)]; [done|]. cbv zeta. split; [by rewrite S|]. split; [eapply unique_ids; [apply (ps_ids _ _ _ _ _ _ _ _ X)|done]|]. split.
  - eexists. split; [apply (ps_rsc _ _ _ _ _ _ _ _ X)|]. intros m. destruct (decide (i = j)) as [<-|Hij].
    + rewrite (by_id_own i r _ Hr). cbn [andb]. unfold differs. case_bool_decide as E; cbn [negb].
      * destruct (decide (i = i /\ m = n)) as [[_ ->]|]; done.
      * destruct (decide (i = i /\ m = n)) as [[_ ->]|N]; [apply set_val_eq|]. apply set_val_ne. intros ->. by apply N.
    + rewrite (by_id_other i j r _ Hr Hij). cbn [andb]. rewrite decide_False by (by intros [? _]). done.
  - intros m Hm. rewrite (ps_logs _ _ _ _ _ _ _ _ X). rewrite decide_False; [done|]. by intros [? _].
Qed.
(** An operation of maintenance on [j] seen from [i]. *)
Record on_effect (now : Z) (i j : Z) (r : rsc) (s s' : run) : Prop := {
  oe_stopped : stopped s' = false; oe_unique : unique (cur s'); oe_after : forall d0, after d0 s' = cur s';
  oe_rsc : exists r', rsc_of (cur s') i = Some r' /\
    r_val r' "available_upto" = (if decide (i = j) then Some "0"%string else r_val r "available_upto") /\
    r_val r' "last_available_upto" = (if decide (i = j /\ r_val r "available_upto" <> Some "0"%string) then r_val r "available_upto" else r_val r "last_available_upto");
  oe_logs : logs_of (cur s') i "maintenance" = logs_of (cur s) i "maintenance" ++ if decide (i = j) then [mkLog i "maintenance" "on" now 0] else [] }.
Lemma next_settles sel st s d0 : after d0 (next_state sel st s) = cur (next_state sel st s).
Proof. done. Qed.
Lemma next_state_other sel st i r s m : rsc_of (cur s) i = Some r -> m <> "next_state"%string -> m <> "next_finaud_decision"%string ->
  exists r', rsc_of (cur (next_state sel st s)) i = Some r' /\ r_val r' m = r_val r m.
Proof. intros Hr H1 H2. destruct (next_state_spec sel st i r s Hr) as (A & _). eexists. split; [exact A|]. destruct (sel r); [|done]. by rewrite !set_val_ne. Qed.
Lemma maintenance_on_spec now cs w i j r s u : has_dates cs -> unique (cur s) -> stopped s = false -> rsc_of (cur s) i = Some r ->
  (exists rj, rsc_of (cur s) j = Some rj /\ r_val rj "available_upto" = Some u /\ lacks ["="%char] u) ->
  on_effect now i j r s (maintenance_on now cs w j s).
Proof.
  intros [D1 D2] HU Hs Hr (rj & Hj & Hu & Hl). unfold maintenance_on. rewrite (proj2 (by_id_one _ j rj HU) Hj). rewrite Hu. cbn [default from_option id]. cbv zeta.
  set (s1 := pending _ s). assert (L1 : forall m, m <> "maintenance"%string -> logs_of (cur s1) i m = logs_of (cur s) i m).
  { intros m Hm. unfold s1. cbn [pending cur]. rewrite logs_of_app. unfold logs_of at 2. cbn [logs]. rewrite filter_cons_False; [by rewrite filter_nil, app_nil_r|]. cbn. intros [_ ?]. done. }
  assert (L2 : logs_of (cur s1) i "maintenance" = logs_of (cur s) i "maintenance" ++ if decide (i = j) then [mkLog i "maintenance" "on" now 0] else []).
  { unfold s1. cbn [pending cur]. rewrite logs_of_app. f_equal. unfold logs_of. cbn [logs]. destruct (decide (i = j)) as [->|N]; [by rewrite filter_cons_True|]. rewrite filter_cons_False; [done|]. cbn. intros [? _]. done. }
  assert (U1 : unique (cur s1)) by done. assert (R1 : rsc_of (cur s1) i = Some r) by done. assert (S1 : stopped s1 = false) by done.
  assert (J1 : rsc_of (cur s1) j = Some rj) by done. clearbody s1.
  set (texts := _ :: _).
  assert (HX : exists s2, set_properties now cs (by_id j) texts s1 = s2 /\ stopped s2 = false /\ unique (cur s2) /\
    (exists r', rsc_of (cur s2) i = Some r' /\ r_val r' "available_upto" = (if decide (i = j) then Some "0"%string else r_val r "available_upto") /\
      r_val r' "last_available_upto" = (if decide (i = j /\ r_val r "available_upto" <> Some "0"%string) then r_val r "available_upto" else r_val r "last_available_upto")) /\
    logs_of (cur s2) i "maintenance" = logs_of (cur s1) i "maintenance").
  { eexists. split; [reflexivity|]. unfold texts. clear texts.
    assert (T0 : split_on "="%char (lstrip "available_upto=0") = ["available_upto"; "0"]%string) by reflexivity.
    assert (NS1 : "available_upto"%string ∉ system_fields) by by_dec. assert (NS2 : "last_available_upto"%string ∉ system_fields) by by_dec.
    destruct (set_date now cs j "available_upto" "0" i r s1 D1 ltac:(done) U1 R1 S1) as (A1 & A2 & (r2 & A3 & A4) & A5).
    set (s2 := set_property now cs (by_id j) "available_upto" "0" s1) in *.
    assert (AV : i = j -> r_val r "available_upto" = Some u) by (intros ->; rewrite Hr in Hj; injection Hj as ->; done).
    case_bool_decide as E.
    - subst u. rewrite (set_properties_one _ _ _ _ _ _ _ T0 NS1 S1). fold s2. split; [done|]. split; [done|]. split; [|by apply A5]. exists r2. split; [done|]. rewrite !A4. split.
      + destruct (decide (i = j)) as [->|N]; [by rewrite decide_True|by rewrite decide_False by (by intros [? _])].
      + rewrite (decide_False (P := i = j /\ "last_available_upto"%string = "available_upto"%string)) by (by intros [_ ?]). rewrite decide_False; [done|]. intros [X Y]. apply Y. by apply AV.
    - change ("available_upto=0"%string :: ["last_available_upto=" +:+ u]) with (["available_upto=0"%string] ++ ["last_available_upto=" +:+ u]). unfold set_properties. rewrite each_app. fold (set_properties now cs (by_id j) ["available_upto=0"%string] s1).
      rewrite (set_properties_one _ _ _ _ _ _ _ T0 NS1 S1). fold s2. fold (set_properties now cs (by_id j) ["last_available_upto=" +:+ u] s2).
      assert (T1 : split_on "="%char (lstrip ("last_available_upto=" +:+ u)) = ["last_available_upto"; u]%string) by (rewrite (proj1 (upto_text u)), lacks_split; done).
      rewrite (set_properties_one _ _ _ _ _ _ _ T1 NS2 A1).
      destruct (set_date now cs j "last_available_upto" u i r2 s2 D2 ltac:(done) A2 A3 A1) as (B1 & B2 & (r3 & B3 & B4) & B5).
      set (s3 := set_property now cs (by_id j) "last_available_upto" u s2) in *. split; [done|]. split; [done|]. split; [|rewrite B5, A5; done]. exists r3. split; [done|]. rewrite !B4, !A4. split.
      + rewrite (decide_False (P := i = j /\ "available_upto"%string = "last_available_upto"%string)) by (by intros [_ ?]). destruct (decide (i = j)) as [->|N]; [by rewrite decide_True|by rewrite decide_False by (by intros [? _])].
      + rewrite (decide_False (P := i = j /\ "last_available_upto"%string = "available_upto"%string)) by (by intros [_ ?]). destruct (decide (i = j)) as [X|N].
        * rewrite (AV X). rewrite !decide_True; [done| |done]. split; [done|]. congruence.
        * rewrite !decide_False by (by intros [? _]). done. }
  destruct HX as (s2 & E2 & B1 & B2 & (r2 & B3 & B4 & B5) & B6). unfold andthen at 3. rewrite S1, E2. unfold andthen at 2. rewrite B1.
  destruct (next_state_spec (by_id j) "Absent" i r2 s2 B3) as (N1 & N2 & N3 & N4). unfold andthen. change (stopped (next_state (by_id j) "Absent" s2)) with (stopped s2). rewrite B1.
  assert (HW : forall (w : bool) (s : run), cur (if w then s else wait (inl j) s) = cur s /\ commits (if w then s else wait (inl j) s) = commits s /\ stopped (if w then s else wait (inl j) s) = stopped s) by (by intros [|]).
  destruct (HW w (next_state (by_id j) "Absent" s2)) as (W1 & W2 & W3). constructor.
  - by rewrite W3.
  - rewrite W1. eapply unique_ids; [exact N3|done].
  - intros d0. unfold after. by rewrite W1, W2.
  - rewrite W1. eexists. split; [exact N1|]. rewrite <- B4, <- B5. by destruct (by_id j r2).
  - rewrite W1, N2, B6. done.
Qed.

(** Maintenance of another resource. *)
Definition untouched (d d' : db) (i : Z) : Prop := unique d' /\ rsc_of d' i = rsc_of d i /\ logs_of d' i "maintenance" = logs_of d i "maintenance".
Lemma maint_other now cs on w i j r s d0 : i <> j -> unique (cur s) -> rsc_of (cur s) i = Some r -> 
  let s' := maint1 now cs on w j s in untouched (cur s) (cur s') i /\ (after d0 s' = after d0 s \/ untouched (cur s) (after d0 s') i).
Proof.
  intros Hij HU Hr. cbv zeta. set (I := fun s' => untouched (cur s) (cur s') i /\ (after d0 s' = after d0 s \/ untouched (cur s) (after d0 s') i)).
  assert (I0 : I s) by (split; [by split|by left]). assert (C0 : forall c s', I s' -> I (code c s')) by done.
  assert (HN : forall st s', I s' -> I (next_state (by_id j) st s')).
  { intros st s' [(X1 & X2 & X3) _]. rewrite Hr in X2. destruct (next_state_spec (by_id j) st i r s' X2) as (A1 & A2 & A3 & A4). rewrite (by_id_other i j r _ Hr Hij) in A1.
    assert (Y : untouched (cur s) (cur (next_state (by_id j) st s')) i) by (split; [by eapply unique_ids|split; [by rewrite A1|by rewrite A2]]). split; [done|]. right. done. }
  assert (HP : forall n v s', n <> "id"%string -> I s' -> I (set_property now cs (by_id j) n v s')).
  { intros n v s' Hn [(X1 & X2 & X3) X4]. rewrite Hr in X2. destruct (set_property_spec now cs (by_id j) n v i r s' Hn X1 X2) as [[_ ->]|(_ & _ & X)]; [split; [split; [done|split; [by rewrite Hr|done]]|done]|].
    pose proof (ps_rsc _ _ _ _ _ _ _ _ X) as R. pose proof (ps_logs _ _ _ _ _ _ _ _ X "maintenance") as L. rewrite (by_id_other i j r _ Hr Hij) in R, L. cbn [andb] in R, L. rewrite decide_False in L by (by intros [_ ?]).
    assert (Y : untouched (cur s) (cur (set_property now cs (by_id j) n v s')) i) by (split; [eapply unique_ids; [apply (ps_ids _ _ _ _ _ _ _ _ X)|done]|split; [by rewrite R, Hr|by rewrite L]]).
    split; [done|]. destruct (set_property_commits now cs (by_id j) n v s' Hn) as [[E _]|(l & E)].
    - unfold after in *. rewrite E. done.
    - right. unfold after. rewrite E. done. }
  assert (HPS : forall texts s', (forall p n v, p ∈ texts -> split_on "="%char (lstrip p) = [n; v] -> n <> "id"%string) -> I s' -> I (set_properties now cs (by_id j) texts s')).
  { intros texts s' HT HI. unfold set_properties. apply each_inv; [done|]. intros p s'' Hp HI'. destruct (split_on "="%char (lstrip p)) as [|n [|v [|? ?]]] eqn:E; try done. case_bool_decide; [done|]. apply HP; [|done]. by eapply HT. }
  unfold maint1. destruct on.
  - unfold maintenance_on. destruct (filter _ _) as [|rj [|? ?]]; [exact I0| |exact I0]. cbv zeta. set (upto := default _ _). set (texts := _ :: _). apply andthen_inv; [apply andthen_inv; [apply andthen_inv|]|].
    + split; [|by left]. split; [done|]. split; [done|]. cbn [pending cur]. rewrite logs_of_app. unfold logs_of at 2. cbn [logs]. rewrite filter_cons_False; [by rewrite filter_nil, app_nil_r|]. cbn. intros [? _]. done.
    + apply HPS. intros p n v Hp E. destruct (maint_names upto _ p n v Hp ltac:(case_bool_decide; [by left|by right]) E) as [->| ->]; done.
    + apply HN.
    + by destruct w.
  - unfold maintenance_off. destruct (filter _ _) as [|rj [|? ?]]; [exact I0| |exact I0]. cbv zeta. set (lst := default _ _). apply andthen_inv; [apply andthen_inv|].
    + assert (Y : untouched (cur s) (mkDb (rscs (cur s)) (close now "maintenance" [j] (logs (cur s)))) i).
      { split; [done|]. split; [done|]. rewrite logs_of_close. rewrite decide_False; [done|]. intros [_ ?%elem_of_list_singleton]. done. }
      split; [done|]. by right.
    + intros HI. case_bool_decide; [done|]. apply HPS; [|done]. intros p n v Hp E. apply elem_of_list_singleton in Hp as ->. rewrite (proj2 (upto_text lst)) in E. by injection E as <- _.
    + apply HN.
Qed.
Lemma maintenance_off_spec now cs i r s l : has_dates cs -> unique (cur s) -> stopped s = false -> rsc_of (cur s) i = Some r -> r_val r "last_available_upto" = Some l -> lacks ["="%char] l ->
  let s' := maintenance_off now cs i s in
  unique (cur s') /\ (forall d0, after d0 s' = cur s') /\ logs_of (cur s') i "maintenance" = shut now <$> logs_of (cur s) i "maintenance" /\
  exists r', rsc_of (cur s') i = Some r' /\ r_val r' "last_available_upto" = Some l /\ r_val r' "available_upto" = (if decide (l = "0"%string) then r_val r "available_upto" else Some l).
Proof.
  intros [D1 D2] HU Hs Hr Hl HL. cbv zeta. unfold maintenance_off. rewrite (proj2 (by_id_one _ i r HU) Hr). rewrite Hl. cbn [default from_option id]. cbv zeta.
  set (s1 := commit _ s). assert (L1 : logs_of (cur s1) i "maintenance" = shut now <$> logs_of (cur s) i "maintenance").
  { unfold s1. cbn [commit cur]. rewrite logs_of_close, decide_True; [done|]. split; [done|by left]. }
  assert (U1 : unique (cur s1)) by done. assert (R1 : rsc_of (cur s1) i = Some r) by done. assert (S1 : stopped s1 = false) by done. clearbody s1.
  assert (HX : exists s2, (if bool_decide (l = "0"%string) then s1 else set_properties now cs (by_id i) ["available_upto=" +:+ l] s1) = s2 /\ stopped s2 = false /\ unique (cur s2) /\
    logs_of (cur s2) i "maintenance" = logs_of (cur s1) i "maintenance" /\
    exists r', rsc_of (cur s2) i = Some r' /\ r_val r' "last_available_upto" = Some l /\ r_val r' "available_upto" = (if decide (l = "0"%string) then r_val r "available_upto" else Some l)).
  { eexists. split; [reflexivity|]. case_bool_decide as E.
    - split; [done|]. split; [done|]. split; [done|]. exists r. by rewrite decide_True.
    - assert (T : split_on "="%char (lstrip ("available_upto=" +:+ l)) = ["available_upto"; l]%string) by (rewrite (proj2 (upto_text l)), lacks_split; done).
      assert (NS1 : "available_upto"%string ∉ system_fields) by by_dec. rewrite (set_properties_one _ _ _ _ _ _ _ T NS1 S1).
      destruct (set_date now cs i "available_upto" l i r s1 D1 ltac:(done) U1 R1 S1) as (A1 & A2 & (r2 & A3 & A4) & A5). split; [done|]. split; [done|]. split; [by apply A5|].
      exists r2. split; [done|]. rewrite !A4. rewrite (decide_False (P := i = i /\ _)) by (by intros [_ ?]). rewrite decide_True by done. rewrite decide_False by done. done. }
  destruct HX as (s2 & E2 & B1 & B2 & B3 & (r2 & B4 & B5 & B6)). unfold andthen. rewrite !S1, !E2, !B1.
  destruct (next_state_spec (by_id i) "Alive" i r2 s2 B4) as (N1 & N2 & N3 & N4). split; [by eapply unique_ids|]. split; [intros d0; reflexivity|]. split; [by rewrite N2, B3|].
  eexists. split; [exact N1|]. rewrite <- B6, <- B5. by destruct (by_id i r2).
Qed.
Definition usual (u : string) (d : db) (i : Z) : Prop := in_service u d i \/ in_maint u d i.
Lemma usual_dates u i : of_dates i (fun d => usual u d i).
Proof. intros d d' E1 E2 E3 [H|H]; [left; by eapply in_service_dates|right; by eapply in_maint_dates]. Qed.
Lemma opn_app_on now d d' i : logs_of d' i "maintenance" = logs_of d i "maintenance" ++ [mkLog i "maintenance" "on" now 0] -> opn d' i "maintenance" <> [].
Proof. intros H. unfold opn. rewrite H, filter_app, fmap_app. intros [_ X]%app_eq_nil. done. Qed.
(** Maintenance of the resource itself. *)
Lemma on_self now cs w i s u d0 : has_dates cs -> lacks ["="%char] u -> u <> "0"%string -> stopped s = false -> settled d0 i (fun d => usual u d i) s ->
  settled d0 i (fun d => in_maint u d i) (maintenance_on now cs w i s).
Proof.
  intros HD HL Hu Hs [(S1 & (r & Hr) & S3) _]. assert (HX : exists u', r_val r "available_upto" = Some u' /\ lacks ["="%char] u').
  { destruct S3 as [(X & _)|(X & _)]; unfold val in X; rewrite Hr in X; [by exists u|]. exists "0"%string. split; [done|]. split; [|done]. by_dec. }
  destruct HX as (u' & HX1 & HX2). destruct (maintenance_on_spec now cs w i i r s u' HD S1 Hs Hr) as [E1 E2 E3 (r' & E4 & E5 & E6) E7]; [by exists r|].
  assert (G : good i (fun d => in_maint u d i) (cur (maintenance_on now cs w i s))).
  { split; [done|]. split; [by exists r'|]. unfold in_maint, val. rewrite E4, E5, E6. rewrite (decide_True (P := i = i)) by done. split; [done|]. split.
    - destruct S3 as [(X & _)|(X & Y & _)]; unfold val in X; rewrite Hr in X; rewrite X.
      + rewrite decide_True by (split; [done|congruence]). done.
      + rewrite decide_False by (by intros [_ ?]). unfold val in Y. by rewrite Hr in Y.
    - rewrite decide_True in E7 by done. by eapply opn_app_on. }
  split; [done|]. by rewrite E3.
Qed.
Lemma off_self now cs i s u d0 : has_dates cs -> lacks ["="%char] u -> u <> "0"%string -> 0 < now -> stopped s = false -> settled d0 i (fun d => usual u d i) s ->
  settled d0 i (fun d => in_service u d i) (maintenance_off now cs i s).
Proof.
  intros HD HL Hu Hnow Hs [(S1 & (r & Hr) & S3) _].
  assert (HX : exists l, r_val r "last_available_upto" = Some l /\ lacks ["="%char] l /\ (l = u \/ (l = "0"%string /\ r_val r "available_upto" = Some u))).
  { assert (L0 : lacks ["="%char] "0") by (split; [by_dec|done]). destruct S3 as [(X & Y & _)|(X & Y & _)]; unfold val in X, Y; rewrite Hr in X, Y.
    - destruct Y as [Y|Y]; eexists; (split; [exact Y|]); (split; [done|]); [by right|by left].
    - exists u. split; [done|]. split; [done|]. by left. }
  destruct HX as (l & X1 & X2 & X3). destruct (maintenance_off_spec now cs i r s l HD S1 Hs Hr X1 X2) as (E1 & E2 & E3 & (r' & E4 & E5 & E6)).
  assert (G : good i (fun d => in_service u d i) (cur (maintenance_off now cs i s))).
  { split; [done|]. split; [by exists r'|]. unfold in_service, val. rewrite E4, E5, E6. split; [|split].
    - destruct X3 as [->|(-> & X)]; [by rewrite decide_False|by rewrite decide_True].
    - destruct X3 as [->|(-> & X)]; [by right|by left].
    - unfold opn. rewrite E3, shut_none by done. done. }
  split; [done|]. by rewrite E2.
Qed.
Lemma untouched_good i P d d' : of_dates i P -> good i P d -> untouched d d' i -> good i P d'.
Proof.
  intros HP (G1 & (r & Hr) & G3) (U1 & U2 & U3). split; [done|]. split; [exists r; by rewrite U2|]. apply (HP d); [| |done|done]; unfold val; by rewrite U2.
Qed.
Lemma other_settled now cs on w i j P s d0 : of_dates i P -> i <> j -> settled d0 i P s -> settled d0 i P (maint1 now cs on w j s).
Proof.
  intros HP Hij [G GA]. assert (G' := G). destruct G' as (G1 & (r & Hr) & G3). destruct (maint_other now cs on w i j r s d0 Hij G1 Hr) as [X Y]. split; [exact (untouched_good i P _ _ HP G X)|].
  destruct Y as [->|Y]; [done|exact (untouched_good i P _ _ HP G Y)].
Qed.
Definition dates_ok (n : string) : Prop := quiet n /\ n <> "maintenance"%string.
Lemma dates_ok_id n : dates_ok n -> n <> "id"%string.
Proof. intros [H _] ->. apply H. by_dec. Qed.
Lemma closed_dates now cs df i (P : db -> Prop) on d0 : of_dates i P -> (forall w s, stopped s = false -> settled d0 i P s -> settled d0 i P (maint1 now cs on w i s)) ->
  closed now cs df dates_ok on (settled d0 i P).
Proof.
  intros HP HM. constructor; try done.
  - intros sel n v s [H1 H2] _ Hs. by apply set_settled.
  - intros sel st s Hs. by apply next_settled.
  - intros st h s Hs. by apply add_settled.
  - intros w j s Hst Hs. destruct (decide (i = j)) as [<-|Hij]; [by apply HM|]. by apply other_settled.
Qed.
Lemma good_impl i (P Q : db -> Prop) d : (forall d, P d -> Q d) -> good i P d -> good i Q d.
Proof. intros H (G1 & G2 & G3). split; [done|]. split; [done|]. by apply H. Qed.
Lemma settled_impl d0 i (P Q : db -> Prop) s : (forall d, P d -> Q d) -> settled d0 i P s -> settled d0 i Q s.
Proof. intros H [G1 G2]. split; by eapply good_impl. Qed.
Lemma usual_closed now cs df i u on d0 : has_dates cs -> lacks ["="%char] u -> u <> "0"%string -> 0 < now -> closed now cs df dates_ok on (settled d0 i (fun d => usual u d i)).
Proof.
  intros HD HL Hu Hnow. apply closed_dates; [apply usual_dates|]. intros w s Hst Hs. destruct on; cbn [maint1].
  - eapply settled_impl; [|by apply on_self]. intros d ?. by right.
  - eapply settled_impl; [|by apply off_self]. intros d ?. by left.
Qed.
Lemma names_ok o : dates_alone o -> forall n, names o n -> dates_ok n.
Proof.
  intros H n Hn. specialize (H n Hn). split.
  - intros X. apply H. apply elem_of_cons in X as [->|X]; [by_dec|]. apply elem_of_cons in X as [->|X]; [by_dec|]. apply elem_of_list_singleton in X as ->. by_dec.
  - intros ->. apply H. by_dec.
Qed.
Lemma drain_ok : dates_ok "drain"%string.
Proof. split; by_dec. Qed.
Lemma usual_step x now o d i u : has_dates (cols x) -> lacks ["="%char] u -> u <> "0"%string -> 0 < now -> dates_alone o -> good i (fun d => usual u d i) d ->
  good i (fun d => usual u d i) (after d (command x now o d)).
Proof.
  intros HD HL Hu Hnow HO HG. set (on := match o_maint o with Some b => b | None => true end).
  assert (X : settled d i (fun d => usual u d i) (command x now o d)); [|apply X].
  apply (command_closed x now o d dates_ok on); [by apply usual_closed| |by apply names_ok|apply drain_ok|by split]. intros b Hb. unfold on. by rewrite Hb.
Qed.
Lemma usual_replay x h : forall d i u, has_dates (cols x) -> lacks ["="%char] u -> u <> "0"%string -> Forall (fun t => 0 < t) h.*1 -> (forall c, c ∈ h -> dates_alone c.2) -> good i (fun d => usual u d i) d ->
  good i (fun d => usual u d i) (replay x h d).
Proof.
  induction h as [|[now o] h IH]; intros d i u HD HL Hu HT HO HG; [done|]. cbn [replay]. rewrite fmap_cons in HT. apply Forall_cons in HT as [HT1 HT2].
  apply IH; try done; [intros c Hc; apply HO; by right|]. apply usual_step; try done. apply (HO (now, o)). by left.
Qed.
Lemma lacks_text u : "="%char ∉ list_ascii_of_string u -> lacks ["="%char] u.
Proof. induction u as [|a u IH]; intros H; [done|]. cbn in H. apply not_elem_of_cons in H as [H1 H2]. split; [|by apply IH]. intros X%elem_of_list_singleton. by subst. Qed.
Lemma available_good x u d i : available x u d i -> has_dates (cols x) /\ lacks ["="%char] u /\ u <> "0"%string /\ good i (fun d => usual u d i) d.
Proof.
  intros [A1 [A2 A2'] A3 A4 A5 A6 A7]. split; [done|]. split; [by apply lacks_text|]. split; [done|]. split; [done|]. split; [by apply rsc_of_exists|]. left. split; [done|]. split; [done|].
  unfold opn. by rewrite (no_rows d i _ A7).
Qed.
(** ** C161: maintenance keeps the date a resource is available up to *)
Theorem C161_date x u h d i now o : available x u d i -> ordered h -> (forall c, c ∈ h -> dates_alone c.2) -> dates_alone o -> 0 < now ->
  (val (replay x h d) i "available_upto" = Some u \/ val (replay x h d) i "available_upto" = Some "0"%string) /\
  (forall on, about x o (replay x h d) i -> o_maint o = Some on -> stopped (command x now o (replay x h d)) = false ->
    val (after (replay x h d) (command x now o (replay x h d))) i "available_upto" = Some (if on : bool then "0"%string else u)).
Proof.
  intros (HD & HL & Hu & HG)%available_good [_ HT] HA HO Hnow. pose proof (usual_replay x h d i u HD HL Hu HT HA HG) as G. split.
  - destruct G as (_ & _ & [(G & _)|(G & _)]); [by left|by right].
  - intros on Hab Hon Hst. set (d1 := replay x h d) in *. clearbody d1. destruct on.
    + destruct (command_about x now o d1 dates_ok true i (settled d1 i (fun d => usual u d i)) (settled d1 i (fun d => in_maint u d i))) as [X|X]; [| | |done|done|by apply names_ok|apply drain_ok|by split|congruence|].
      * by apply usual_closed.
      * apply closed_dates; [apply in_maint_dates|]. intros w s Hs X. apply on_self; try done. eapply settled_impl; [|exact X]. intros d' ?. by right.
      * intros w s Hs X. by apply on_self.
      * destruct X as [_ (_ & _ & X & _)]. exact X.
    + destruct (command_about x now o d1 dates_ok false i (settled d1 i (fun d => usual u d i)) (settled d1 i (fun d => in_service u d i))) as [X|X]; [| | |done|done|by apply names_ok|apply drain_ok|by split|congruence|].
      * by apply usual_closed.
      * apply closed_dates; [apply in_service_dates|]. intros w s Hs X. apply off_self; try done. eapply settled_impl; [|exact X]. intros d' ?. by left.
      * intros w s Hs X. by apply off_self.
      * destruct X as [_ (_ & _ & X & _)]. exact X.
Qed.
(** ** C162: the log of maintenance says when the resource was under maintenance *)
Theorem C162_log x u h d i t : available x u d i -> ordered h -> (forall c, c ∈ h -> dates_alone c.2) ->
  (recorded i "maintenance" t (replay x h d) <> [] <-> val (replay x (until t h) d) i "available_upto" = Some "0"%string).
Proof.
  intros HV HO HA. assert (HX := HV). destruct HX as [_ _ X3 X4 _ _ X7]. rewrite by_date'; [|done|done|by apply no_rows|done|].
  2: { intros c Hc Hn. specialize (HA c Hc _ Hn). apply HA. by_dec. }
  apply available_good in HV as (HD & HL & Hu & HG).
  assert (G : good i (fun d => usual u d i) (replay x (until t h) d)).
  { apply usual_replay; try done; [by destruct (until_ordered t h HO)|]. intros c Hc. apply elem_of_list_filter in Hc as [_ Hc]. by apply HA. }
  destruct G as (_ & _ & [(G1 & _ & G2)|(G1 & _ & G2)]).
  - rewrite G1, G2. split; [done|]. intros [= E]. done.
  - split; [done|]. by intros _.
Qed.
(** * C164: what a command leaves alone *)
Section Alone.
  Variables (x : site) (now : Z) (o : opts) (d : db) (i : Z) (r : rsc).
  Hypothesis HU : unique d.
  Hypothesis Hr : rsc_of d i = Some r.
  Hypothesis Hid : ~ names o "id"%string.
  Definition same (s : run) : Prop := good i (fun d => rsc_of d i = Some r) (cur s) /\ good i (fun d => rsc_of d i = Some r) (after d s).
  Lemma same_prop sel n v s : n <> "id"%string -> sel r = false -> same s -> same (set_property now (cols x) sel n v s).
  Proof.
    intros Hn Hsel [G GA]. assert (G' := G). destruct G' as (G1 & _ & G3).
    assert (X : good i (fun d => rsc_of d i = Some r) (cur (set_property now (cols x) sel n v s))).
    { destruct (set_property_spec now (cols x) sel n v i r s Hn G1 G3) as [[_ ->]|(_ & _ & X)]; [done|].
      assert (R : rsc_of (cur (set_property now (cols x) sel n v s)) i = Some r) by (rewrite (ps_rsc _ _ _ _ _ _ _ _ X), Hsel; done).
      split; [eapply unique_ids; [apply (ps_ids _ _ _ _ _ _ _ _ X)|done]|]. split; [by exists r|done]. }
    split; [done|]. destruct (set_property_commits now (cols x) sel n v s Hn) as [[E _]|(l & E)]; unfold after; rewrite E; done.
  Qed.
  Lemma same_next sel st s : sel r = false -> same s -> same (next_state sel st s).
  Proof.
    intros Hsel [(G1 & _ & G3) _]. destruct (next_state_spec sel st i r s G3) as (A1 & A2 & A3 & A4). rewrite Hsel in A1.
    assert (X : good i (fun d => rsc_of d i = Some r) (cur (next_state sel st s))); [|by split]. split; [by eapply unique_ids|]. split; [by exists r|done].
  Qed.
  Lemma same_add df st h s : same s -> same (add_one now df st h s).
  Proof.
    intros [(G1 & _ & G3) _]. destruct (add_one_spec now df st h i r s G1 G3) as (A1 & A2 & A3 & A4).
    assert (X : good i (fun d => rsc_of d i = Some r) (cur (add_one now df st h s))); [|by split]. split; [done|]. split; [by exists r|done].
  Qed.
  Lemma same_maint on w j s : i <> j -> same s -> same (maint1 now (cols x) on w j s).
  Proof.
    intros Hij [G GA]. assert (G' := G). destruct G' as (G1 & _ & G3). destruct (maint_other now (cols x) on w i j r s d Hij G1 G3) as [(X1 & X2 & _) Y]. split; [split; [done|split; [exists r|]; by rewrite X2]|].
    destruct Y as [->|(Y1 & Y2 & _)]; [done|]. split; [done|]. split; [exists r|]; by rewrite Y2.
  Qed.
  Lemma same_props sel s : sel r = false -> same s -> same (set_properties now (cols x) sel (all_props o) s).
  Proof.
    intros Hsel Hs. unfold set_properties. apply each_inv; [done|]. intros p s' Hp Hs'. destruct (split_on "="%char (lstrip p)) as [|n [|v [|? ?]]] eqn:E; try done. case_bool_decide; [done|].
    apply same_prop; [|done|done]. apply (all_props_ok (fun n => n <> "id"%string) o) with p v; [|done|done|done]. intros m Hm ->. done.
  Qed.
  Lemma same_start : same (mkRun d [] [] [] false).
  Proof. split; (split; [done|]; split; [by exists r|done]). Qed.
  Lemma same_command : ~ about x o d i -> same (command x now o d).
  Proof.
    intros Hab. unfold command. rewrite nodesetting_parts.
    destruct (o_add o) eqn:Eadd.
    - assert (HF : first_part now (cols x) (defaults x) (here x) o d = (let s := each (add_one now (defaults x) (default "Alive"%string (o_state o))) (hosts_of x o) (mkRun d [] [] [] false) in
        (s, match last (rscs (cur s)) with Some r => [r_id r] | None => [] end))) by (unfold first_part; by rewrite Eadd).
      rewrite HF. cbv zeta. clear HF.
      assert (HN : exists h l, hosts_of x o = l ++ [h]). { unfold hosts_of. destruct (o_hosts o) as [|h l] using rev_ind; [by exists (here x), []|]. exists h, l. destruct l; done. }
      destruct HN as (h & l & ->). rewrite each_app. set (s1 := each _ l _). assert (S1 : same s1) by (apply each_inv; [apply same_start|]; intros; by apply same_add).
      assert (T1 : stopped s1 = false) by (apply (each_inv (fun s => stopped s = false)); [done|]; intros a s _ Hs; exact Hs).
      change (each (add_one now (defaults x) (default "Alive"%string (o_state o))) [h] s1) with (andthen (add_one now (defaults x) (default "Alive"%string (o_state o)) h) s1).
      unfold andthen. rewrite T1. set (s2 := add_one _ _ _ _ s1). assert (S2 : same s2) by (by apply same_add).
      assert (HL : last (rscs (cur s2)) = Some (set_val (set_val (mkRsc (new_id (cur s1)) (defaults x)) "network_address" h) "state" (default "Alive"%string (o_state o)))) by (unfold s2; cbn [add_one commit cur rscs]; apply last_snoc).
      rewrite HL. cbn [r_id set_val]. unfold second_part. cbn [fst snd]. destruct (all_props o) as [|p ps] eqn:EP; [done|]. rewrite <- EP. apply andthen_inv; [done|]. intros _. apply same_props; [|done].
      unfold in_ids. apply bool_decide_eq_false_2. intros HI%elem_of_list_singleton. destruct S1 as [(G1 & _ & G3) _]. apply (new_id_fresh (cur s1)). rewrite <- HI. apply rsc_of_id in G3 as [_ G3]. apply elem_of_list_fmap. by exists r.
    - assert (Hri : r_id r = i) by (by apply rsc_of_id in Hr as [? _]).
      assert (HF : same (first_part now (cols x) (defaults x) (here x) o d).1 /\ (o_resources o = [] /\ (first_part now (cols x) (defaults x) (here x) o d).2 = [] \/
        o_resources o <> [] /\ (first_part now (cols x) (defaults x) (here x) o d).2 = o_resources o)).
      { unfold first_part. rewrite Eadd. unfold about in Hab. destruct (o_resources o) as [|i0 ids] eqn:ER; cbn [fst snd].
        - fold (hosts_of x o) in *. assert (HH : r_addr r ∉ hosts_of x o) by (intros HH; apply Hab; split; [done|]; by exists r). split; [|by left].
          assert (HM : same (match o_maint o with Some on => maintenance now (cols x) on (o_no_wait o) (h ← hosts_of x o; r_id <$> filter (fun r => on_host h r = true) (rscs d)) (mkRun d [] [] [] false) | None => mkRun d [] [] [] false end)).
          { destruct (o_maint o) as [on|]; [|apply same_start]. unfold maintenance. apply each_inv; [apply same_start|]. intros j s Hj Hs. apply (same_maint on (o_no_wait o) j s); [|done]. intros <-.
            apply elem_of_list_bind in Hj as (h & Hj & Hh). apply elem_of_list_fmap in Hj as (r' & E & Hj). apply elem_of_list_filter in Hj as [Hj1 Hj2]. symmetry in E. rewrite (rsc_unique d i r r' HU Hr Hj2 E) in Hj1.
            unfold on_host in Hj1. apply bool_decide_eq_true_1 in Hj1. apply HH. by rewrite Hj1. }
          apply andthen_inv; [exact HM|]. intros _. destruct (o_state o) as [st|]; [|exact HM]. set (s1 := match o_maint o with Some _ => _ | None => _ end) in *.
          assert (H2 : same (each (fun h => next_state (on_host h) st) (hosts_of x o) s1)).
          { apply each_inv; [exact HM|]. intros h s Hh Hs. apply same_next; [|done]. unfold on_host. apply bool_decide_eq_false_2. intros E. apply HH. by rewrite E. }
          destruct (_ && _); [|exact H2]. apply each_inv; [exact H2|]. intros h s _ Hs. exact Hs.
        - assert (HH : i ∉ i0 :: ids) by (intros HH; apply Hab; by split). split; [|by right].
          assert (H1 : same (andthen (fun s => match o_state o with
                 | Some st => let s := next_state (in_ids (i0 :: ids)) st s in if bool_decide (st ∈ ["Dead"; "Absent"]%string) && negb (o_no_wait o) then each (fun i => wait (inl i)) (i0 :: ids) s else s
                 | None => s end) (mkRun d [] [] [] false))).
          { apply andthen_inv; [apply same_start|]. intros _. destruct (o_state o) as [st|]; [|apply same_start].
            assert (H2 : same (next_state (in_ids (i0 :: ids)) st (mkRun d [] [] [] false))).
            { apply same_next; [|apply same_start]. unfold in_ids. apply bool_decide_eq_false_2. by rewrite Hri. }
            cbv zeta. destruct (_ && _); [|exact H2]. apply each_inv; [exact H2|]. intros h s _ Hs. exact Hs. }
          apply andthen_inv; [exact H1|]. intros H2. destruct (o_maint o) as [on|]; [|exact H2]. unfold maintenance. apply each_inv; [exact H2|]. intros j s Hj Hs.
          apply (same_maint on (o_no_wait o) j s); [|done]. intros <-. done. }
      destruct (first_part now (cols x) (defaults x) (here x) o d) as [s1 l1]. cbn [fst snd] in HF. destruct HF as [S1 HF]. unfold second_part. cbn [fst snd]. destruct (all_props o) as [|p ps] eqn:EP; [done|]. rewrite <- EP.
      unfold about in Hab. destruct HF as [[ER ->]|[ER ->]].
      + rewrite ER in Hab. apply andthen_inv; [done|]. intros _. apply same_props; [|done]. unfold in_hosts. apply bool_decide_eq_false_2. intros HH. apply Hab. split; [done|]. by exists r.
      + destruct (o_resources o) as [|i0 ids]; [done|]. apply andthen_inv; [done|]. intros _. apply same_props; [|done]. unfold in_ids. apply bool_decide_eq_false_2. rewrite Hri. intros HH. apply Hab. by split.
  Qed.
End Alone.
(** ** A command changes nothing of a resource it is not about *)
Theorem C164_others x now o d i n : unique d -> exists_in d i -> ~ names o "id"%string -> ~ about x o d i ->
  val (after d (command x now o d)) i n = val d i n.
Proof.
  intros HU HE Hid Hab. apply rsc_of_exists in HE as [r Hr]. destruct (same_command x now o d i r HU Hr Hid Hab) as [_ (_ & _ & X)]. unfold val. by rewrite X, Hr.
Qed.
(** ** ... and of the columns of the server only the next state *)
Theorem C164_server x now o d i n : unique d -> exists_in d i -> ~ names o "id"%string -> n ∈ server_columns -> n <> "next_state"%string -> n <> "next_finaud_decision"%string ->
  val (after d (command x now o d)) i n = val d i n.
Proof.
  intros HU HE Hid Hn N1 N2. apply rsc_of_exists in HE as [r Hr]. set (K := fun d' => unique d' /\ exists r', rsc_of d' i = Some r' /\ r_val r' n = r_val r n).
  assert (D : dclosed now (cols x) (defaults x) (fun n => n <> "id"%string) K).
  { constructor.
    - intros sel m v s Hm Hs (K1 & r' & K2 & K3). destruct (set_property_spec now (cols x) sel m v i r' s Hm K1 K2) as [[_ ->]|(_ & _ & X)]; [by split; [|exists r']|].
      split; [eapply unique_ids; [apply (ps_ids _ _ _ _ _ _ _ _ X)|done]|]. eexists. split; [apply (ps_rsc _ _ _ _ _ _ _ _ X)|]. destruct (_ && _); [|done]. rewrite set_val_ne; [done|]. intros ->. by apply Hs.
    - intros sel st s (K1 & r' & K2 & K3). destruct (next_state_spec sel st i r' s K2) as (A1 & A2 & A3 & A4). split; [by eapply unique_ids|]. eexists. split; [exact A1|]. destruct (sel r'); [|done]. by rewrite !set_val_ne.
    - intros st h s (K1 & r' & K2 & K3). destruct (add_one_spec now (defaults x) st h i r' s K1 K2) as (A1 & A2 & A3 & A4). split; [done|]. by exists r'.
    - intros j d' HK. exact HK.
    - intros j d' HK. exact HK. }
  assert (X : K (cur (command x now o d)) /\ K (after d (command x now o d))).
  { apply (command_closed x now o d (fun n => n <> "id"%string) (match o_maint o with Some b => b | None => true end) (fun s => K (cur s) /\ K (after d s))).
    - by apply dclosed_closed.
    - intros b Hb. by rewrite Hb.
    - intros m Hm ->. done.
    - done.
    - assert (K d) by (split; [done|by exists r]). done. }
  destruct X as [_ (_ & r' & X1 & X2)]. unfold val. by rewrite X1, Hr.
Qed.

(** * C165: what is waited for *)
Lemma set_property_rest now cs sel n v s : codes (set_property now cs sel n v s) = codes s /\ waits (set_property now cs sel n v s) = waits s.
Proof.
  unfold set_property. case_bool_decide.
  - destruct (WalltimeModel.number v); [|done]. destruct (filter _ _) as [|? [|? ?]]; [done| |done]. by destruct (existsb _ _).
  - case_bool_decide; [|done]. by destruct (r_id <$> _).
Qed.
(** Something about the exit values and the waits, kept when they grow. *)
Definition growing (T : list Z -> list (Z + string) -> Prop) : Prop := (forall c l w, T l w -> T (l ++ [c]) w) /\ (forall v l w, T l w -> T l (w ++ [v])).
Lemma growing_closed now cs df on T : growing T -> closed now cs df (fun _ => True) on (fun s => T (codes s) (waits s)).
Proof.
  intros [G1 G2]. assert (HP : forall sel n v s, T (codes s) (waits s) -> T (codes (set_property now cs sel n v s)) (waits (set_property now cs sel n v s))).
  { intros sel n v s H. destruct (set_property_rest now cs sel n v s) as [-> ->]. done. }
  assert (HS : forall sel texts s, T (codes s) (waits s) -> T (codes (set_properties now cs sel texts s)) (waits (set_properties now cs sel texts s))).
  { intros sel texts s H. apply (set_properties_inv now cs (fun _ => True) (fun s => T (codes s) (waits s))); [|intros; by apply HP|done|done]. intros c s' Hs. by apply G1. }
  constructor; try done.
  - intros c s H. by apply G1.
  - intros w s H. by apply G2.
  - intros sel n v s _ _ H. by apply HP.
  - intros w j s _ H. unfold maint1. destruct on.
    + unfold maintenance_on. destruct (filter _ _) as [|r [|? ?]]; [done| |done]. cbv zeta. set (I := fun s => T (codes s) (waits s)). change (I s) in H.
      apply (andthen_inv I); [apply (andthen_inv I); [apply (andthen_inv I)|]|].
      * exact H.
      * intros X. by apply HS.
      * intros X. exact X.
      * intros X. destruct w; [done|]. by apply G2.
    + unfold maintenance_off. destruct (filter _ _) as [|r [|? ?]]; [done| |done]. cbv zeta. set (I := fun s => T (codes s) (waits s)). change (I s) in H.
      apply (andthen_inv I); [apply (andthen_inv I)|].
      * exact H.
      * intros X. case_bool_decide; [done|]. by apply HS.
      * intros X. exact X.
Qed.
Lemma waited_growing w : growing (fun _ l => w ∈ l).
Proof. split; [done|]. intros v l w' H. apply elem_of_app. by left. Qed.
Lemma each_wait {A} (f : A -> Z + string) l s : stopped s = false -> forall a, a ∈ l -> f a ∈ waits (each (fun a => wait (f a)) l s).
Proof.
  intros Hs a Ha. destruct (each_through (fun a => wait (f a)) l a (fun s => stopped s = false) (fun s => stopped s = false /\ f a ∈ waits s) s Ha Hs) as [X|X].
  - done.
  - intros b s' H [? ?]. split; [done|]. cbn. apply elem_of_app. by left.
  - intros s' H _. split; [done|]. cbn. apply elem_of_app. right. by left.
  - assert (Y : stopped (each (fun a => wait (f a)) l s) = false) by (apply (each_inv (fun s => stopped s = false)); done). congruence.
  - apply X.
Qed.
Lemma second_waits now cs (df : string -> option string) me o p w : w ∈ waits p.1 -> w ∈ waits (second_part now cs me o p).
Proof. intros H. apply (second_closed now cs df (fun _ => True) true (fun s => w ∈ waits s)); [|done|done|done]. apply (growing_closed now cs df true _ (waited_growing w)). Qed.
Lemma maint_waits now cs (df : string -> option string) on w' l s w : w ∈ waits s -> w ∈ waits (maintenance now cs on w' l s).
Proof. intros H. unfold maintenance. apply (each_inv' (fun s => w ∈ waits s)); [done|]. intros j s' _ Hst Hs. exact (cl_maint _ _ _ _ _ _ (growing_closed now cs df on _ (waited_growing w)) w' j s' Hst Hs). Qed.
Lemma maint_waits_own now cs w' l s j : j ∈ l -> w' = false -> stopped s = false -> stopped (maintenance now cs true w' l s) = true \/ inl j ∈ waits (maintenance now cs true w' l s).
Proof.
  intros Hj -> Hs. unfold maintenance. set (f := fun i => maintenance_on now cs false i). 
  apply elem_of_list_split in Hj as (l1 & l2 & ->). rewrite each_app. set (s1 := each f l1 s). change (each f (j :: l2) s1) with (each f l2 (andthen (f j) s1)).
  destruct (stopped (andthen (f j) s1)) eqn:E; [left; rewrite each_stopped; done|right]. apply (each_inv' (fun s => inl j ∈ waits s)).
  - unfold andthen in *. destruct (stopped s1) eqn:E1; [congruence|]. unfold f, maintenance_on in *. destruct (filter _ _) as [|r [|? ?]]; [done| |done]. cbv zeta in *.
    set (s2 := andthen (next_state (by_id j) "Absent") _) in *. unfold andthen in *. destruct (stopped s2) eqn:E2; [congruence|]. cbn. apply elem_of_app. right. by left.
  - intros b s' _ Hst H. apply (cl_maint _ _ _ _ _ _ (growing_closed now cs (fun _ => None) true _ (waited_growing (inl j))) false b s' Hst H).
Qed.
(** ** The jobs of the resources sent away are waited for *)
Theorem C165_resources x now o d i : o_add o = false -> i ∈ o_resources o -> o_no_wait o = false ->
  (o_state o = Some "Dead"%string \/ o_state o = Some "Absent"%string \/ (o_maint o = Some true /\ stopped (command x now o d) = false)) ->
  inl i ∈ waits (command x now o d).
Proof.
  intros Hadd Hi Hw HS. unfold command in *. rewrite nodesetting_parts in *. destruct (stopped (first_part now (cols x) (defaults x) (here x) o d).1) eqn:EF.
  - assert (E2 : second_part now (cols x) (here x) o (first_part now (cols x) (defaults x) (here x) o d) = (first_part now (cols x) (defaults x) (here x) o d).1).
    { unfold second_part, andthen. destruct (all_props o); [done|]. destruct (_.2); by rewrite EF. }
    rewrite E2 in *. revert EF HS. unfold first_part. rewrite Hadd, Hw. destruct (o_resources o) as [|i0 ids] eqn:ER; [by apply elem_of_nil in Hi|]. cbn [fst]. set (s1 := andthen _ (mkRun d [] [] [] false)). intros EF HS.
    assert (H1 : inl i ∈ waits s1).
    { destruct HS as [HS|[HS|[_ HS]]]; [| |congruence]; unfold s1; rewrite HS; unfold andthen; cbn [stopped]; rewrite bool_decide_eq_true_2 by by_dec; cbn [andb negb]; by apply (each_wait inl). }
    unfold andthen. destruct (stopped s1); [done|]. destruct (o_maint o); [|done]. by apply (maint_waits _ _ (defaults x)).
  - apply (second_waits now (cols x) (defaults x)). revert EF HS. unfold first_part. rewrite Hadd, Hw. destruct (o_resources o) as [|i0 ids] eqn:ER; [by apply elem_of_nil in Hi|]. cbn [fst]. set (s1 := andthen _ (mkRun d [] [] [] false)). intros EF HS.
    assert (T1 : stopped s1 = false) by (destruct (stopped s1) eqn:E1; [|done]; unfold andthen in EF; rewrite E1 in EF; congruence).
    unfold andthen in *. rewrite T1 in *. destruct HS as [HS|[HS|[HS _]]].
    + assert (H1 : inl i ∈ waits s1) by (unfold s1; rewrite HS; cbn [stopped]; rewrite bool_decide_eq_true_2 by by_dec; cbn [andb negb]; by apply (each_wait inl)).
      destruct (o_maint o); [|done]. by apply (maint_waits _ _ (defaults x)).
    + assert (H1 : inl i ∈ waits s1) by (unfold s1; rewrite HS; cbn [stopped]; rewrite bool_decide_eq_true_2 by by_dec; cbn [andb negb]; by apply (each_wait inl)).
      destruct (o_maint o); [|done]. by apply (maint_waits _ _ (defaults x)).
    + rewrite HS in *. destruct (maint_waits_own now (cols x) false (i0 :: ids) s1 i Hi eq_refl T1) as [X|X]; [congruence|done].
Qed.
(** ** The jobs of a single host sent away are waited for *)
Theorem C165_host_partial x now o d h r : o_add o = false -> o_resources o = [] -> hosts_of x o = [h] -> r ∈ rscs d -> r_addr r = h -> o_no_wait o = false -> o_maint o = None ->
  o_state o = Some "Dead"%string \/ o_state o = Some "Absent"%string -> inr h ∈ waits (command x now o d).
Proof.
  intros Hadd HR HH Hr Hh Hw HM HS. unfold command. rewrite nodesetting_parts. apply (second_waits now (cols x) (defaults x)). unfold first_part. rewrite Hadd, Hw, HR, HM. fold (hosts_of x o). rewrite HH.
  assert (K : filter (fun h0 => existsb (on_host h0) (rscs d) = true) [h] = [h]).
  { rewrite filter_cons_True; [done|]. apply existsb_exists. exists r. split; [by apply elem_of_list_In|]. unfold on_host. by apply bool_decide_eq_true_2. }
  destruct HS as [HS|HS]; rewrite HS; cbn [fst]; unfold andthen; cbn [stopped cur]; rewrite K; rewrite bool_decide_eq_true_2 by by_dec; cbn [andb negb]; unfold each; cbn; by left.
Qed.
(** * C166: adding resources *)
Lemma add_each now df st hosts : forall s, stopped s = false -> unique (cur s) -> exists new,
  rscs (cur (each (add_one now df st) hosts s)) = rscs (cur s) ++ new /\ (fun r => r_val r "network_address") <$> new = Some <$> hosts /\ Forall (fun r => r_val r "state" = Some st) new /\
  unique (cur (each (add_one now df st) hosts s)) /\ (hosts <> [] -> after (cur s) (each (add_one now df st) hosts s) = cur (each (add_one now df st) hosts s)).
Proof.
  induction hosts as [|h hosts IH]; intros s Hs HU; [exists []; rewrite app_nil_r; done|]. change (each (add_one now df st) (h :: hosts) s) with (each (add_one now df st) hosts (andthen (add_one now df st h) s)).
  unfold andthen. rewrite Hs. set (s1 := add_one now df st h s). set (r1 := set_val (set_val (mkRsc (new_id (cur s)) df) "network_address" h) "state" st).
  assert (U1 : unique (cur s1)).
  { unfold unique, s1, add_one. cbn [commit cur rscs]. rewrite fmap_app. apply NoDup_app. split; [exact HU|]. split; [|apply NoDup_singleton].
    intros z Hz [->|Hf]%elem_of_cons; [by apply new_id_fresh in Hz|by apply elem_of_nil in Hf]. }
  destruct (IH s1 Hs U1) as (new & E1 & E2 & E3 & E4 & E5). exists (r1 :: new). split; [|split; [|split; [|split]]].
  - rewrite E1. unfold s1, add_one. cbn [commit cur rscs]. by rewrite <- app_assoc.
  - rewrite !fmap_cons, E2. f_equal.
  - constructor; [apply set_val_eq|exact E3].
  - exact E4.
  - intros _. destruct hosts as [|h' hosts]; [reflexivity|]. specialize (E5 ltac:(done)). unfold after in *. destruct (commits _) as [|d' ?] eqn:EC; [|exact E5].
    exfalso. revert EC. clear. intros EC.
    assert (X : commits (each (add_one now df st) (h' :: hosts) s1) <> []); [|done]. apply (each_inv (fun s => commits s <> [])); done.
Qed.
(** ** --add without -p: one new resource per host, the old ones unchanged *)
Theorem C166_add x now o d : unique d -> o_add o = true -> o_props o = [] -> o_drain o = None -> exists new,
  rscs (after d (command x now o d)) = rscs d ++ new /\ (fun r => r_val r "network_address") <$> new = Some <$> hosts_of x o /\
  Forall (fun r => r_val r "state" = Some (default "Alive"%string (o_state o))) new /\ unique (after d (command x now o d)).
Proof.
  intros HU Hadd HP HD. unfold command. rewrite nodesetting_parts. unfold second_part, all_props. rewrite HP, HD. cbn [app]. unfold first_part. rewrite Hadd. cbn [fst]. fold (hosts_of x o).
  destruct (add_each now (defaults x) (default "Alive"%string (o_state o)) (hosts_of x o) (mkRun d [] [] [] false) eq_refl HU) as (new & E1 & E2 & E3 & E4 & E5).
  exists new. cbn [cur] in *. rewrite E5; [done|]. unfold hosts_of. by destruct (o_hosts o).
Qed.
(** * C167: the exit value *)
Lemma exit_value_zero l p : Forall (fun c => c = 0 \/ c = p) l -> exit_value p l = p.
Proof.
  induction l as [|c l IH]; intros H; [done|]. apply Forall_cons in H as [H1 H2]. cbn. destruct (c =? 0) eqn:E; [by apply IH|]. destruct H1 as [->| ->]; [lia|]. rewrite Z.eqb_refl. cbn [negb]. rewrite andb_false_r. by apply IH.
Qed.
Lemma exit_value_first l : forall c, c <> 0 -> Forall (fun a => 0 <= a) l -> exit_value c l = c \/ exit_value c l = 15 /\ exists c', c' ∈ l /\ c' <> 0 /\ c' <> c.
Proof.
  induction l as [|a l IH]; intros c Hc HF; [by left|]. apply Forall_cons in HF as [HF1 HF2]. cbn. destruct (a =? 0) eqn:E.
  - destruct (IH c Hc HF2) as [?|(? & c' & ? & ?)]; [by left|right]. split; [done|]. exists c'. split; [by right|done].
  - destruct (c =? 0) eqn:E2; [lia|]. cbn [negb andb]. destruct (c =? a) eqn:E3; cbn [negb].
    + apply Z.eqb_eq in E3 as ->. destruct (IH a Hc HF2) as [?|(? & c' & ? & ?)]; [by left|right]. split; [done|]. exists c'. split; [by right|done].
    + right. split; [done|]. exists a. split; [by left|]. split; lia.
Qed.
(** ** 0 exactly when nothing was reported; the value reported when there is one; 15 when there are several *)
Theorem C167_exit (l : list Z) :
  (exit_value 0 l = 0 <-> Forall (fun c => c = 0) l) /\
  (forall c, c <> 0 -> c ∈ l -> Forall (fun a => a = 0 \/ a = c) l -> exit_value 0 l = c) /\
  (forall c c', c <> 0 -> c' <> 0 -> c <> c' -> c ∈ l -> c' ∈ l -> exit_value 0 l = 15).
Proof.
  assert (H2 : forall c, c <> 0 -> c ∈ l -> Forall (fun a => a = 0 \/ a = c) l -> exit_value 0 l = c).
  { intros c Hc. induction l as [|a l' IH]; intros Hin HF; [by apply elem_of_nil in Hin|]. apply Forall_cons in HF as [HF1 HF2]. cbn. destruct (a =? 0) eqn:E.
    - apply IH; [|done]. apply elem_of_cons in Hin as [->|?]; [lia|done].
    - destruct HF1 as [->| ->]; [lia|]. by apply exit_value_zero. }
  assert (H3 : forall c c', c <> 0 -> c' <> 0 -> c <> c' -> c ∈ l -> c' ∈ l -> exit_value 0 l = 15).
  { intros c c' Hc Hc' Hn H H'. assert (Aux : forall l p, p <> 0 -> (exists a, a ∈ l /\ a <> 0 /\ a <> p) -> exit_value p l = 15).
    { clear. induction l as [|b l IH]; intros p Hp (a & Ha & H1 & H2); [by apply elem_of_nil in Ha|]. cbn. destruct (b =? 0) eqn:E.
      - apply IH; [done|]. exists a. apply elem_of_cons in Ha as [->|Ha]; [lia|done].
      - destruct (p =? 0) eqn:E2; [lia|]. cbn [negb andb]. destruct (p =? b) eqn:E3; cbn [negb]; [|done]. apply Z.eqb_eq in E3 as ->. apply IH; [done|]. exists a. apply elem_of_cons in Ha as [->|Ha]; done. }
    clear H2. induction l as [|b l' IH]; [by apply elem_of_nil in H|]. cbn. destruct (b =? 0) eqn:E.
    - apply IH; [apply elem_of_cons in H as [->|?]; [lia|done]|apply elem_of_cons in H' as [->|?]; [lia|done]].
    - cbn [negb andb]. apply Aux; [lia|]. destruct (decide (c = b)) as [->|Hcb].
      + exists c'. apply elem_of_cons in H' as [->|H']; [done|]. split; [done|]. split; [done|congruence].
      + exists c. apply elem_of_cons in H as [->|H]; [done|]. split; [done|]. split; done. }
  split; [|by split]. split.
  - intros H. rewrite Forall_forall. intros c Hc. destruct (decide (c = 0)) as [->|Hn]; [done|]. exfalso.
    destruct (decide (Forall (fun a => a = 0 \/ a = c) l)) as [HF|HF]; [rewrite (H2 c Hn Hc HF) in H; done|].
    apply not_Forall_Exists in HF; [|apply _]. apply Exists_exists in HF as (a & Ha & HF). cbn in HF. rewrite (H3 c a) in H; try done; intros ->; apply HF; [by left|by right].
  - intros HF. apply exit_value_zero. eapply Forall_impl; [exact HF|]. intros a ->. by left.
Qed.
(** * C168: an exit value of 0 means that the properties have been set *)
Lemma each_through2 {A} (f : A -> run -> run) l a (I J : run -> Prop) s : a ∈ l -> I s -> (forall b s, b ∈ l -> stopped s = false -> I s -> I (f b s)) -> (forall b s, b ∈ l -> stopped s = false -> J s -> J (f b s)) ->
  (forall s, stopped s = false -> I s -> stopped (f a s) = true \/ J (f a s)) -> stopped (each f l s) = true \/ J (each f l s).
Proof.
  intros Ha Hs HI HJ HIJ. apply elem_of_list_split in Ha as (l1 & l2 & ->). rewrite each_app. set (s1 := each f l1 s). assert (Hs1 : I s1) by (apply each_inv'; [done|]; intros b s' Hb; apply HI; apply elem_of_app; by left).
  destruct (stopped s1) eqn:E.
  - left. rewrite each_stopped by done. exact E.
  - change (each f (a :: l2) s1) with (each f l2 (andthen (f a) s1)). unfold andthen. rewrite E. destruct (HIJ s1 E Hs1) as [X|X]; [left; by rewrite each_stopped|right].
    apply each_inv'; [done|]. intros b s' Hb. apply HJ. apply elem_of_app. right. by right.
Qed.
Lemma bad_code now cs sel texts p s : p ∈ texts -> ((forall n v, split_on "="%char (lstrip p) <> [n; v]) \/ (exists n v, split_on "="%char (lstrip p) = [n; v] /\ n ∈ system_fields)) ->
  stopped (set_properties now cs sel texts s) = true \/ Exists (fun c => c <> 0) (codes (set_properties now cs sel texts s)).
Proof.
  intros Hp Hb. unfold set_properties. apply (each_through2 _ texts p (fun _ => True) (fun s => Exists (fun c => c <> 0) (codes s))); [done|done|done| |].
  - intros q s' _ _ H. destruct (split_on "="%char (lstrip q)) as [|n [|v [|? ?]]]; try (cbn; apply Exists_app; by left). case_bool_decide; [cbn; apply Exists_app; by left|].
    by rewrite (proj1 (set_property_rest now cs sel n v s')).
  - intros s' _ _. right. assert (X : forall c, c <> 0 -> Exists (fun c => c <> 0) (codes (code c s'))) by (intros c Hc; cbn; apply Exists_app; right; by constructor).
    destruct (split_on "="%char (lstrip p)) as [|n [|v [|? ?]]]; try (by apply X). destruct Hb as [Hb|(n' & v' & E & Hb)]; [by destruct (Hb n v)|]. injection E as -> ->. rewrite bool_decide_eq_true_2 by done. by apply X.
Qed.
Lemma no_exit s : exit_code s = 0 -> stopped s = false /\ ~ Exists (fun c => c <> 0) (codes s).
Proof.
  unfold exit_code. destruct (stopped s); [done|]. intros H. split; [done|]. apply C167_exit in H. intros (c & Hc & Hn)%Exists_exists. rewrite Forall_forall in H. by apply Hn, H.
Qed.
Lemma all_texts o : texts_of o = all_props o.
Proof. done. Qed.
Lemma second_sel now cs me o p : all_props o <> [] -> exists sel, second_part now cs me o p = andthen (set_properties now cs sel (all_props o)) p.1 /\
  sel = match p.2 with [] => in_hosts match o_hosts o with [] => [me] | l => l end | _ => in_ids p.2 end.
Proof. intros H. unfold second_part. destruct (all_props o); [done|]. eexists. split; [|reflexivity]. by destruct p.2. Qed.
(** ** A malformed -p, or one that names a column of the server, is reported *)
Theorem C167_property x now o d p : p ∈ o_props o -> ((forall n v, split_on "="%char (lstrip p) <> [n; v]) \/ (exists n v, split_on "="%char (lstrip p) = [n; v] /\ n ∈ server_columns)) ->
  exit_code (command x now o d) <> 0.
Proof.
  intros Hp Hb H. apply no_exit in H as [H1 H2]. unfold command in *. rewrite nodesetting_parts in *. assert (HI : p ∈ all_props o) by (apply elem_of_app; by left).
  destruct (second_sel now (cols x) (here x) o (first_part now (cols x) (defaults x) (here x) o d)) as (sel & E & _); [intros E; rewrite E in HI; by apply elem_of_nil in HI|]. rewrite E in *.
  set (s1 := (first_part now (cols x) (defaults x) (here x) o d).1) in *. unfold andthen in *. destruct (stopped s1) eqn:E1; [congruence|].
  destruct (bad_code now (cols x) sel (all_props o) p s1 HI Hb) as [X|X]; [rewrite X in H1; discriminate H1|by apply H2].
Qed.
Lemma seen_closed now cs df on d0 : closed now cs df (fun _ => True) on (fun s => rscs (cur s) = rscs (after d0 s)).
Proof.
  assert (HP : forall sel n v s, rscs (cur s) = rscs (after d0 s) -> rscs (cur (set_property now cs sel n v s)) = rscs (after d0 (set_property now cs sel n v s))).
  { intros sel n v s H. unfold set_property. case_bool_decide.
    - destruct (WalltimeModel.number v); [|done]. destruct (filter _ _) as [|? [|? ?]]; [done| |done]. by destruct (existsb _ _).
    - case_bool_decide; [|done]. by destruct (r_id <$> _). }
  assert (HS : forall sel texts s, rscs (cur s) = rscs (after d0 s) -> rscs (cur (set_properties now cs sel texts s)) = rscs (after d0 (set_properties now cs sel texts s))).
  { intros sel texts s H. apply (set_properties_inv now cs (fun _ => True) (fun s => rscs (cur s) = rscs (after d0 s))); [done|intros; by apply HP|done|done]. }
  constructor; try done.
  - intros sel n v s _ _ H. by apply HP.
  - intros w j s _ H. set (I := fun s => rscs (cur s) = rscs (after d0 s)). change (I s) in H. unfold maint1. destruct on.
    + unfold maintenance_on. destruct (filter _ _) as [|r [|? ?]]; [done| |done]. cbv zeta. apply (andthen_inv I); [apply (andthen_inv I); [apply (andthen_inv I)|]|].
      * exact H.
      * intros X. by apply HS.
      * intros X. reflexivity.
      * intros X. by destruct w.
    + unfold maintenance_off. destruct (filter _ _) as [|r [|? ?]]; [done| |done]. cbv zeta. apply (andthen_inv I); [apply (andthen_inv I)|].
      * reflexivity.
      * intros X. case_bool_decide; [done|]. by apply HS.
      * intros X. reflexivity.
Qed.
(** ** An exit value of 0: every property given a single value has it *)
Theorem C168_set x now o d i n v : unique d -> exists_in d i -> about x o d i -> ~ names o "id"%string -> ~ names o "network_address"%string -> gives o n v ->
  exit_code (command x now o d) = 0 -> val (after d (command x now o d)) i n = Some v.
Proof.
  intros HU HE Hab Hid Hna [(p & Hp & Ep) Hu] HX. apply no_exit in HX as [HX1 HX2]. apply rsc_of_exists in HE as [r Hr].
  unfold command in *. rewrite nodesetting_parts in *. rewrite all_texts in *.
  set (F := first_part now (cols x) (defaults x) (here x) o d) in *. destruct (second_sel now (cols x) (here x) o F) as (sel & E & Esel); [intros E; rewrite E in Hp; by apply elem_of_nil in Hp|].
  rewrite E in *. unfold andthen in *. destruct (stopped F.1) eqn:EF; [congruence|].
  assert (Hns : n ∉ system_fields). { intros Hs. destruct (bad_code now (cols x) sel (all_props o) p F.1 Hp) as [X|X]; [right; by exists n, v|rewrite X in HX1; discriminate HX1|by apply HX2]. }
  assert (Hidn : forall q m w, q ∈ all_props o -> split_on "="%char (lstrip q) = [m; w] -> m <> "id"%string /\ m <> "network_address"%string).
  { intros q m w Hq Eq. split.
    - apply (all_props_ok (fun m => m <> "id"%string) o) with q w; [|done|done|done]. intros m' Hm' ->. done.
    - apply (all_props_ok (fun m => m <> "network_address"%string) o) with q w; [|done|done|done]. intros m' Hm' ->. done. }
  (* the resource is still there, with its address *)
  set (K := fun d' => unique d' /\ exists r', rsc_of d' i = Some r' /\ r_addr r' = r_addr r).
  assert (D : dclosed now (cols x) (defaults x) (fun m => m <> "id"%string /\ m <> "network_address"%string) K).
  { constructor.
    - intros sel' m w s [Hm Hm'] _ (K1 & r' & K2 & K3). destruct (set_property_spec now (cols x) sel' m w i r' s Hm K1 K2) as [[_ ->]|(_ & _ & X)]; [by split; [|exists r']|].
      split; [eapply unique_ids; [apply (ps_ids _ _ _ _ _ _ _ _ X)|done]|]. eexists. split; [apply (ps_rsc _ _ _ _ _ _ _ _ X)|]. destruct (_ && _); [|done]. unfold r_addr. by rewrite set_val_ne.
    - intros sel' st s (K1 & r' & K2 & K3). destruct (next_state_spec sel' st i r' s K2) as (A1 & A2 & A3 & A4). split; [by eapply unique_ids|]. eexists. split; [exact A1|]. destruct (sel' r'); done.
    - intros st h s (K1 & r' & K2 & K3). destruct (add_one_spec now (defaults x) st h i r' s K1 K2) as (A1 & A2 & A3 & A4). split; [done|]. by exists r'.
    - intros j d' HK. exact HK.
    - intros j d' HK. exact HK. }
  assert (CL : closed now (cols x) (defaults x) (fun m => m <> "id"%string /\ m <> "network_address"%string) (match o_maint o with Some b => b | None => true end) (fun s => K (cur s) /\ K (after d s))) by (apply dclosed_closed; [exact D| | |]; by repeat split || intros m []).
  assert (K0 : K d) by (split; [done|by exists r]).
  assert (KF : K (cur F.1) /\ K (after d F.1)).
  { apply (first_closed now (cols x) (defaults x) _ _ _ (here x) o d CL); [|by split]. intros b Hb. by rewrite Hb. }
  assert (Hsel : forall r', r_id r' = i -> r_addr r' = r_addr r -> sel r' = true).
  { intros r' H1 H2. rewrite Esel. destruct Hab as (Hadd & Hab). unfold F, first_part. rewrite Hadd. destruct (o_resources o) as [|i0 ids]; cbn [snd].
    - destruct Hab as (r0 & Hr0 & Hh). rewrite Hr in Hr0. injection Hr0 as <-. unfold in_hosts. apply bool_decide_eq_true_2. by rewrite H2.
    - unfold in_ids. apply bool_decide_eq_true_2. by rewrite H1. }
  (* what is seen is what is committed *)
  assert (L : rscs (cur (set_properties now (cols x) sel (all_props o) F.1)) = rscs (after d (set_properties now (cols x) sel (all_props o) F.1))).
  { pose proof (seen_closed now (cols x) (defaults x) (match o_maint o with Some b => b | None => true end) d) as CS.
    assert (LF : rscs (cur F.1) = rscs (after d F.1)) by (apply (first_closed now (cols x) (defaults x) _ _ _ (here x) o d CS); [|done]; intros b Hb; by rewrite Hb).
    apply (set_properties_inv now (cols x) (fun _ => True) (fun s => rscs (cur s) = rscs (after d s))); [apply CS|apply CS|done|done]. }
  assert (J : stopped (set_properties now (cols x) sel (all_props o) F.1) = true \/ (K (cur (set_properties now (cols x) sel (all_props o) F.1)) /\ val (cur (set_properties now (cols x) sel (all_props o) F.1)) i n = Some v)).
  { unfold set_properties. apply (each_through2 _ (all_props o) p (fun s => K (cur s)) (fun s => K (cur s) /\ val (cur s) i n = Some v)); [done|by destruct KF| | |].
    - intros q s Hq _ HK. destruct (split_on "="%char (lstrip q)) as [|m [|w [|? ?]]] eqn:Eq; try done. case_bool_decide; [done|]. apply (dc_prop _ _ _ _ _ D); [by eapply Hidn|done|done].
    - intros q s Hq _ [HK HV]. destruct (split_on "="%char (lstrip q)) as [|m [|w [|? ?]]] eqn:Eq; try done. case_bool_decide; [done|]. destruct (Hidn q m w Hq Eq) as [Hm1 Hm2].
      split; [by apply (dc_prop _ _ _ _ _ D)|]. destruct HK as (K1 & r' & K2 & K3). destruct (set_property_spec now (cols x) sel m w i r' s Hm1 K1 K2) as [[_ ->]|(_ & _ & X)]; [done|].
      unfold val in *. rewrite (ps_rsc _ _ _ _ _ _ _ _ X). rewrite K2 in HV. destruct (_ && _); [|done]. destruct (decide (n = m)) as [<-|Hnm]; [|by rewrite set_val_ne]. rewrite set_val_eq. f_equal. by eapply Hu.
    - intros s Hs HK. rewrite Ep. rewrite bool_decide_eq_false_2 by done. destruct (Hidn p n v Hp Ep) as [Hm1 Hm2]. assert (HK' := HK). destruct HK' as (K1 & r' & K2 & K3).
      destruct (set_property_spec now (cols x) sel n v i r' s Hm1 K1 K2) as [[_ ->]|(_ & _ & X)]; [by left|right]. split; [by apply (dc_prop _ _ _ _ _ D)|].
      unfold val. rewrite (ps_rsc _ _ _ _ _ _ _ _ X). assert (Hid' : r_id r' = i) by (by apply rsc_of_id in K2 as [? _]). rewrite (Hsel r' Hid' K3). cbn [andb]. unfold differs. case_bool_decide; [done|]. apply set_val_eq. }
  destruct J as [J|[_ J]]; [rewrite J in HX1; discriminate HX1|]. unfold val, rsc_of in *. by rewrite <- L.
Qed.

(** * C169: the state asked for *)
Lemma next_state_at sel st i r s : rsc_of (cur s) i = Some r -> unique (cur s) -> sel r = true ->
  unique (cur (next_state sel st s)) /\ exists r', rsc_of (cur (next_state sel st s)) i = Some r' /\ r_val r' "next_state" = Some st /\ r_addr r' = r_addr r.
Proof.
  intros Hr HU Hs. destruct (next_state_spec sel st i r s Hr) as (A1 & _ & A3 & _). rewrite Hs in A1. split; [by eapply unique_ids|]. eexists. split; [exact A1|]. split; [|unfold r_addr; by rewrite !set_val_ne].
  rewrite set_val_ne by done. apply set_val_eq.
Qed.
(** ** Without -m, the next state of every resource the command is about is the one of -s, and nobody else's changes *)
Theorem C169_state x now o d i st : unique d -> exists_in d i -> ~ names o "id"%string -> about x o d i -> o_maint o = None -> o_state o = Some st ->
  val (after d (command x now o d)) i "next_state" = Some st.
Proof.
  intros HU HE Hid (Hadd & Hab) HM HS. apply rsc_of_exists in HE as [r Hr].
  set (K := fun d' => unique d' /\ exists r', rsc_of d' i = Some r' /\ r_val r' "next_state" = Some st).
  assert (HP : forall sel n v s, n <> "id"%string -> n ∉ system_fields -> K (cur s) /\ K (after d s) -> K (cur (set_property now (cols x) sel n v s)) /\ K (after d (set_property now (cols x) sel n v s))).
  { intros sel n v s Hn Hs [(K1 & r' & K2 & K3) KA]. assert (X : K (cur (set_property now (cols x) sel n v s))).
    { destruct (set_property_spec now (cols x) sel n v i r' s Hn K1 K2) as [[_ ->]|(_ & _ & X)]; [split; [done|by exists r']|].
      split; [eapply unique_ids; [apply (ps_ids _ _ _ _ _ _ _ _ X)|done]|]. eexists. split; [apply (ps_rsc _ _ _ _ _ _ _ _ X)|]. destruct (_ && _); [|done]. rewrite set_val_ne; [done|]. intros <-. apply Hs. by_dec. }
    split; [done|]. destruct (set_property_commits now (cols x) sel n v s Hn) as [[E _]|(l & E)]; unfold after; rewrite E; done. }
  assert (HF : K (cur (first_part now (cols x) (defaults x) (here x) o d).1) /\ K (after d (first_part now (cols x) (defaults x) (here x) o d).1)).
  { unfold first_part. rewrite Hadd, HM, HS. destruct (o_resources o) as [|i0 ids]; cbn [fst].
    - destruct Hab as (r0 & Hr0 & Hh). rewrite Hr in Hr0. injection Hr0 as <-. fold (hosts_of x o) in *. set (hs := hosts_of x o) in *. clearbody hs. cbn [cur]. unfold andthen at 1. cbn [stopped].
      set (I := fun s => stopped s = false /\ unique (cur s) /\ exists r', rsc_of (cur s) i = Some r' /\ r_addr r' = r_addr r).
      set (J := fun s => I s /\ K (cur s) /\ K (after d s)).
      assert (NI : forall h s, I s -> I (next_state (on_host h) st s)).
      { intros h s (I1 & I2 & r' & I3 & I4). split; [done|]. destruct (next_state_spec (on_host h) st i r' s I3) as (A1 & _ & A3 & _). split; [by eapply unique_ids|]. eexists. split; [exact A1|]. destruct (on_host h r'); done. }
      assert (X : stopped (each (fun h => next_state (on_host h) st) hs (mkRun d [] [] [] false)) = true \/ J (each (fun h => next_state (on_host h) st) hs (mkRun d [] [] [] false))).
      { apply (each_through2 _ hs (r_addr r) I J); [done|split; [done|split; [done|by exists r]]| | |].
        - intros h s _ _ HI. by apply NI.
        - intros h s _ _ (HI & _ & (K1 & r' & K2 & K3) & _) || intros h s _ _ (HI & (K1 & r' & K2 & K3) & _). split; [by apply NI|]. assert (X : K (cur (next_state (on_host h) st s))); [|by split].
          destruct (next_state_spec (on_host h) st i r' s K2) as (A1 & _ & A3 & _). split; [by eapply unique_ids|]. eexists. split; [exact A1|]. destruct (on_host h r'); [|done]. rewrite set_val_ne by done. apply set_val_eq.
        - intros s _ HI. right. split; [by apply NI|]. destruct HI as (I1 & I2 & r' & I3 & I4).
          destruct (next_state_at (on_host (r_addr r)) st i r' s I3 I2) as (B1 & r2 & B2 & B3 & B4); [unfold on_host; by apply bool_decide_eq_true_2|]. assert (X : K (cur (next_state (on_host (r_addr r)) st s))) by (split; [done|by exists r2]). by split. }
      destruct X as [X|((X1 & _) & X2 & X3)].
      { assert (Y : stopped (each (fun h => next_state (on_host h) st) hs (mkRun d [] [] [] false)) = false) by (apply (each_inv (fun s => stopped s = false)); done). congruence. }
      destruct (_ && _); [|done]. apply (each_inv (fun s => K (cur s) /\ K (after d s))); [done|]. intros h s _ Hs. exact Hs.
    - set (s0 := mkRun d [] [] [] false). apply (andthen_inv (fun s => K (cur s) /\ K (after d s))); [|done].
      destruct (next_state_at (in_ids (i0 :: ids)) st i r s0 Hr HU) as (B1 & r2 & B2 & B3 & _).
      { unfold in_ids. apply bool_decide_eq_true_2. apply rsc_of_id in Hr as [-> _]. exact Hab. }
      assert (X : K (cur (next_state (in_ids (i0 :: ids)) st s0))) by (split; [done|by exists r2]).
      assert (Y : forall b : bool, K (cur (if b then each (fun i => wait (inl i)) (i0 :: ids) (next_state (in_ids (i0 :: ids)) st s0) else next_state (in_ids (i0 :: ids)) st s0)) /\
        K (after d (if b then each (fun i => wait (inl i)) (i0 :: ids) (next_state (in_ids (i0 :: ids)) st s0) else next_state (in_ids (i0 :: ids)) st s0))).
      { intros [|]; [|by split]. apply (each_inv (fun s => K (cur s) /\ K (after d s))); [by split|]. intros h s _ Hs. exact Hs. }
      exact (Y (bool_decide (st ∈ ["Dead"; "Absent"]%string) && negb (o_no_wait o))). }
  assert (HC : K (cur (command x now o d)) /\ K (after d (command x now o d))).
  { unfold command. rewrite nodesetting_parts. set (F := first_part now (cols x) (defaults x) (here x) o d) in *. clearbody F. destruct (decide (all_props o = [])) as [E|E].
    - unfold second_part. by rewrite E.
    - destruct (second_sel now (cols x) (here x) o F E) as (sel & -> & _). apply (andthen_inv (fun s => K (cur s) /\ K (after d s))); [done|]. intros _.
      apply (set_properties_inv now (cols x) (fun n => n <> "id"%string) (fun s => K (cur s) /\ K (after d s))); [done|done| |done].
      apply all_props_ok; [|done]. intros m Hm ->. done. }
  destruct HC as [_ (_ & r' & X1 & X2)]. unfold val. by rewrite X1.
Qed.

(** * Concrete cases *)
Definition dflt (n : string) : option string :=
  if bool_decide (n = "available_upto"%string) then Some "2147483647"%string else if bool_decide (n = "last_available_upto"%string) then Some "0"%string else Some ""%string.
Definition site1 : site := mkSite ["network_address"; "state"; "next_state"; "next_finaud_decision"; "available_upto"; "last_available_upto"; "mem"; "drain"] dflt "frontend".
Definition rsc_on (i : Z) (h : string) : rsc := set_val (mkRsc i dflt) "network_address" h.
Definition db1 : db := mkDb [rsc_on 1 "n1"; rsc_on 2 "n1"; rsc_on 3 "n2"] [].
Definition for_ids (l : list Z) (m : option bool) (ps : list string) : opts := mkOpts l [] false None m None ps true.
Definition for_hosts (l : list string) (st : option string) : opts := mkOpts [] l false st None None [] false.
Ltac not_in := intros H; apply (bool_decide_eq_true_2 _) in H; vm_compute in H; discriminate.
Lemma db1_available : available site1 "2147483647" db1 1.
Proof.
  constructor.
  - split; by_dec.
  - split; [done|by_dec].
  - unfold unique. by_dec.
  - unfold exists_in. by_dec.
  - vm_compute. reflexivity.
  - left. vm_compute. reflexivity.
  - intros g Hg. by apply elem_of_nil in Hg.
Qed.
Lemma no_names o n : o_props o = [] -> ~ names o n.
Proof. intros E (p & v & Hp & _). rewrite E in Hp. by apply elem_of_nil in Hp. Qed.
Lemma one_name o p n v : o_props o = [p] -> split_on "="%char (lstrip p) = [n; v] -> forall m, names o m -> m = n.
Proof. intros E E2 m (q & w & Hq & E3). rewrite E in Hq. apply elem_of_list_singleton in Hq as ->. rewrite E2 in E3. by injection E3 as ->. Qed.
(** The hypotheses of C161 and C162 are met: the maintenance of a node and of one of its resources, a property set in between. *)
Definition hist1 : history := [(10, mkOpts [] ["n1"]%string false None (Some true) None [] true); (20, for_ids [1] None ["mem=4"]%string); (30, for_ids [1] (Some false) [])].
Lemma hist1_ok : ordered hist1 /\ plain hist1 /\ forall c, c ∈ hist1 -> dates_alone c.2.
Proof.
  assert (H : forall c, c ∈ hist1 -> forall n, names c.2 n -> n = "mem"%string).
  { intros c Hc n Hn. unfold hist1 in Hc. apply elem_of_cons in Hc as [->|Hc]; [by apply no_names in Hn|]. apply elem_of_cons in Hc as [->|Hc]; [eapply one_name; [| |exact Hn]; [reflexivity|vm_compute; reflexivity]|].
    apply elem_of_list_singleton in Hc as ->. by apply no_names in Hn. }
  split; [split; repeat constructor; cbn; lia|]. split.
  - intros c Hc Hn. specialize (H c Hc _ Hn). discriminate.
  - intros c Hc n Hn. rewrite (H c Hc n Hn). by_dec.
Qed.
Theorem C161_example : available site1 "2147483647" db1 1 /\ ordered hist1 /\ (forall c, c ∈ hist1 -> dates_alone c.2) /\
  about site1 (for_ids [1] (Some false) []) (replay site1 (take 2 hist1) db1) 1 /\ val (replay site1 (take 2 hist1) db1) 1 "available_upto" = Some "0"%string /\
  val (replay site1 hist1 db1) 1 "available_upto" = Some "2147483647"%string /\ val (replay site1 hist1 db1) 2 "available_upto" = Some "0"%string.
Proof.
  split; [exact db1_available|]. destruct hist1_ok as (H1 & _ & H3). split; [exact H1|]. split; [exact H3|]. split; [split; [done|]; cbn; by left|]. split; [|split]; vm_compute; reflexivity.
Qed.
Theorem C162_example : recorded 1 "maintenance" 25 (replay site1 hist1 db1) = ["on"%string] /\ recorded 1 "maintenance" 35 (replay site1 hist1 db1) = [] /\ recorded 1 "maintenance" 5 (replay site1 hist1 db1) = [].
Proof. split; [|split]; vm_compute; reflexivity. Qed.
Theorem C163_example : property_name "mem" /\ plain hist1 /\ recorded 1 "mem" 25 (replay site1 hist1 db1) = ["4"%string] /\ val (replay site1 (until 25 hist1) db1) 1 "mem" = Some "4"%string /\
  recorded 1 "available_upto" 25 (replay site1 hist1 db1) = ["0"%string] /\ recorded 1 "available_upto" 40 (replay site1 hist1 db1) = ["2147483647"%string].
Proof. split; [split; [by_dec|split; done]|]. split; [apply hist1_ok|]. split; [|split; [|split]]; vm_compute; reflexivity. Qed.
(** ** "Off" without "on" puts back the date of the last maintenance, whatever has been set since *)
Theorem C161_stale_refuted : ~ (forall x h d i now o u, available x u d i -> ordered h -> plain h -> 0 < now -> o_maint o = Some false -> o_props o = [] -> about x o (replay x h d) i ->
  recorded i "maintenance" now (replay x h d) = [] -> val (after (replay x h d) (command x now o (replay x h d))) i "available_upto" = val (replay x h d) i "available_upto").
Proof.
  intros H. set (h := [(10, for_ids [1] (Some true) []); (20, for_ids [1] (Some false) []); (30, for_ids [1] None ["available_upto=99"]%string)]).
  specialize (H site1 h db1 1 40 (for_ids [1] (Some false) []) "2147483647"%string db1_available).
  assert (X : val (after (replay site1 h db1) (command site1 40 (for_ids [1] (Some false) []) (replay site1 h db1))) 1 "available_upto" = val (replay site1 h db1) 1 "available_upto").
  { apply H.
    - split; unfold h; repeat constructor; cbn; lia.
    - intros c Hc Hn. unfold h in Hc. apply elem_of_cons in Hc as [->|Hc]; [by apply no_names in Hn|]. apply elem_of_cons in Hc as [->|Hc]; [by apply no_names in Hn|]. apply elem_of_list_singleton in Hc as ->.
      assert (E : "id"%string = "available_upto"%string); [|discriminate E]. eapply one_name; [| |exact Hn]; [reflexivity|vm_compute; reflexivity].
    - lia.
    - reflexivity.
    - reflexivity.
    - split; [reflexivity|]. cbn. by left.
    - vm_compute. reflexivity. }
  vm_compute in X. discriminate X.
Qed.
(** ** A command killed between two of its commits *)
Theorem C161_killed_refuted : ~ (forall x u d i now o d1 now' o', available x u d i -> 0 < now -> now <= now' -> o_maint o = Some true -> o_props o = [] -> about x o d i -> d1 ∈ commits (command x now o d) ->
  o_maint o' = Some false -> o_props o' = [] -> about x o' d1 i -> val (after d1 (command x now' o' d1)) i "available_upto" = Some u).
Proof.
  intros H. set (s := command site1 10 (for_ids [1] (Some true) []) db1). destruct (last (commits s)) as [d1|] eqn:E; [|vm_compute in E; discriminate E].
  assert (X : val (after d1 (command site1 20 (for_ids [1] (Some false) []) d1)) 1 "available_upto" = Some "2147483647"%string).
  { apply (H site1 "2147483647"%string db1 1 10 (for_ids [1] (Some true) []) d1 20 (for_ids [1] (Some false) []) db1_available); [lia|lia|reflexivity|reflexivity| | |reflexivity|reflexivity|].
    - split; [reflexivity|]. cbn. by left.
    - apply last_Some in E as [l E]. fold s. rewrite E. apply elem_of_app. right. by left.
    - split; [reflexivity|]. cbn. by left. }
  assert (Y : val (after d1 (command site1 20 (for_ids [1] (Some false) []) d1)) 1 "available_upto" = Some "0"%string).
  { assert (Z : (fun d1 => val (after d1 (command site1 20 (for_ids [1] (Some false) []) d1)) 1 "available_upto") <$> last (commits s) = Some (Some "0"%string)) by (vm_compute; reflexivity).
    rewrite E in Z. cbn [fmap option_fmap option_map] in Z. injection Z as Z. exact Z. }
  rewrite X in Y. discriminate Y.
Qed.
Theorem C162_killed_refuted : ~ (forall x u h d i now o d1, available x u d i -> ordered h -> (forall c, c ∈ h -> dates_alone c.2) -> 0 < now -> o_props o = [] -> d1 ∈ commits (command x now o (replay x h d)) ->
  (recorded i "maintenance" now d1 <> [] <-> val d1 i "available_upto" = Some "0"%string)).
Proof.
  intros H. set (h := [(10, for_ids [1] (Some true) [])]). set (s := command site1 20 (for_ids [1] (Some false) []) (replay site1 h db1)). destruct (last (commits s)) as [d1|] eqn:E; [|vm_compute in E; discriminate E].
  assert (X : recorded 1 "maintenance" 20 d1 <> [] <-> val d1 1 "available_upto" = Some "0"%string).
  { apply (H site1 "2147483647"%string h db1 1 20 (for_ids [1] (Some false) []) d1 db1_available).
    - split; unfold h; repeat constructor; cbn; lia.
    - intros c Hc n Hn. unfold h in Hc. apply elem_of_list_singleton in Hc as ->. by apply no_names in Hn.
    - lia.
    - reflexivity.
    - apply last_Some in E as [l E]. fold s. rewrite E. apply elem_of_app. right. by left. }
  assert (Z : (fun d1 => (recorded 1 "maintenance" 20 d1, val d1 1 "available_upto")) <$> last (commits s) = Some ([], Some "0"%string)) by (vm_compute; reflexivity).
  rewrite E in Z. cbn [fmap option_fmap option_map] in Z. injection Z as Z1 Z2. rewrite Z1, Z2 in X. destruct X as [_ X]. by apply X.
Qed.
Theorem C163_killed_refuted : ~ (forall x h d i n now o d1, unique d -> exists_in d i -> logs d = [] -> property_name n -> ordered h -> plain h -> 0 < now -> ~ names o "id"%string -> d1 ∈ commits (command x now o (replay x h d)) ->
  recorded i n now (replay x h d) <> [] -> exists v, recorded i n now d1 = [v] /\ val d1 i n = Some v).
Proof.
  intros H. set (h := [(10, for_ids [1] None ["mem=4"]%string)]). set (s := command site1 20 (for_ids [1] None ["mem=8"]%string) (replay site1 h db1)). destruct (last (commits s)) as [d1|] eqn:E; [|vm_compute in E; discriminate E].
  assert (X : exists v, recorded 1 "mem" 20 d1 = [v] /\ val d1 1 "mem" = Some v).
  { apply (H site1 h db1 1 "mem"%string 20 (for_ids [1] None ["mem=8"]%string) d1).
    - unfold unique. by_dec.
    - unfold exists_in. by_dec.
    - reflexivity.
    - split; [by_dec|split; done].
    - split; unfold h; repeat constructor; cbn; lia.
    - intros c Hc Hn. unfold h in Hc. apply elem_of_list_singleton in Hc as ->. assert (Y : "id"%string = "mem"%string); [|discriminate Y]. eapply one_name; [| |exact Hn]; [reflexivity|vm_compute; reflexivity].
    - lia.
    - intros Hn. assert (Y : "id"%string = "mem"%string); [|discriminate Y]. eapply one_name; [| |exact Hn]; [reflexivity|vm_compute; reflexivity].
    - apply last_Some in E as [l E]. fold s. rewrite E. apply elem_of_app. right. by left.
    - vm_compute. discriminate. }
  assert (Z : (fun d1 => recorded 1 "mem" 20 d1) <$> last (commits s) = Some []) by (vm_compute; reflexivity).
  rewrite E in Z. cbn [fmap option_fmap option_map] in Z. injection Z as Z. destruct X as (v & X & _). rewrite Z in X. discriminate X.
Qed.
(** ** The identifier of a resource can be set by -p: it is not protected *)
Theorem C164_id_refuted : ~ (forall x now o d i, unique d -> exists_in d i -> exists_in (after d (command x now o d)) i).
Proof.
  intros H. assert (X : exists_in (after db1 (command site1 10 (for_ids [3] None ["id=7"]%string) db1)) 3) by (apply H; [unfold unique|unfold exists_in]; by_dec).
  unfold exists_in in X. apply (bool_decide_eq_true_2 _) in X. vm_compute in X. discriminate.
Qed.
Theorem C164_example : ~ about site1 (for_hosts ["n1"]%string (Some "Absent"%string)) db1 3 /\ ~ names (for_hosts ["n1"]%string (Some "Absent"%string)) "id" /\
  val (after db1 (command site1 10 (for_hosts ["n1"]%string (Some "Absent"%string)) db1)) 3 "next_state" = Some ""%string /\
  val (after db1 (command site1 10 (for_hosts ["n1"]%string (Some "Absent"%string)) db1)) 2 "next_state" = Some "Absent"%string.
Proof.
  split; [|split; [by apply no_names|]].
  - intros (_ & r & Hr & Hh). assert (E : r_addr <$> rsc_of db1 3 = Some "n2"%string) by (vm_compute; reflexivity). rewrite Hr in E. injection E as E. rewrite E in Hh. cbn in Hh. apply elem_of_list_singleton in Hh. discriminate.
  - split; vm_compute; reflexivity.
Qed.
(** ** Of several hosts only the last one is waited for *)
Theorem C165_hosts_refuted : ~ (forall x now o d h r, o_add o = false -> o_resources o = [] -> h ∈ hosts_of x o -> r ∈ rscs d -> r_addr r = h -> o_no_wait o = false -> o_maint o = None -> o_props o = [] -> o_drain o = None ->
  o_state o = Some "Absent"%string -> inr h ∈ waits (command x now o d)).
Proof.
  intros H. assert (X : inr "n1"%string ∈ waits (command site1 10 (for_hosts ["n1"; "n2"]%string (Some "Absent"%string)) db1)).
  { apply (H site1 10 (for_hosts ["n1"; "n2"]%string (Some "Absent"%string)) db1 "n1"%string (rsc_on 1 "n1")); try reflexivity; [cbn; by left|cbn; by left]. }
  assert (Y : waits (command site1 10 (for_hosts ["n1"; "n2"]%string (Some "Absent"%string)) db1) = [inr "n2"%string; inr "n2"%string]) by (vm_compute; reflexivity).
  rewrite Y in X. apply elem_of_cons in X as [X|X]; [discriminate|]. apply elem_of_list_singleton in X. discriminate.
Qed.
Theorem C165_example : waits (command site1 10 (mkOpts [1; 3] [] false (Some "Dead"%string) None None [] false) db1) = [inl 1; inl 3] /\ inr "n1"%string ∈ waits (command site1 10 (for_hosts ["n1"]%string (Some "Absent"%string)) db1).
Proof. split; [vm_compute; reflexivity|]. assert (E : waits (command site1 10 (for_hosts ["n1"]%string (Some "Absent"%string)) db1) = [inr "n1"%string]) by (vm_compute; reflexivity). rewrite E. by left. Qed.
(** ** The hosts of a file keep their newline: nothing is done to them *)
Theorem C165_file_refuted : ~ (forall x now lines st d i r, unique d -> rsc_of d i = Some r -> r_addr r ∈ lines ->
  val (after d (command x now (for_hosts (file_hosts lines) (Some st)) d)) i "next_state" = Some st).
Proof.
  intros H. assert (E : exists r, rsc_of db1 1 = Some r) by (eexists; reflexivity). destruct E as [r Hr].
  assert (X : val (after db1 (command site1 10 (for_hosts (file_hosts ["n1"]%string) (Some "Absent"%string)) db1)) 1 "next_state" = Some "Absent"%string).
  { apply (H site1 10 ["n1"]%string "Absent"%string db1 1 r); [unfold unique; by_dec|exact Hr|]. assert (E : r_addr <$> rsc_of db1 1 = Some "n1"%string) by (vm_compute; reflexivity). rewrite Hr in E. injection E as E. rewrite E. by left. }
  vm_compute in X. discriminate X.
Qed.
(** ** --add with -p: only the last new resource has the properties *)
Theorem C166_properties_refuted : ~ (forall x now o d i n v, unique d -> o_add o = true -> gives o n v -> exit_code (command x now o d) = 0 -> exists_in (after d (command x now o d)) i -> ~ exists_in d i ->
  val (after d (command x now o d)) i n = Some v).
Proof.
  intros H. set (o := mkOpts [] ["n3"; "n4"]%string true None None None ["mem=4"]%string false).
  assert (X : val (after db1 (command site1 10 o db1)) 4 "mem" = Some "4"%string).
  { apply H.
    - unfold unique. by_dec.
    - reflexivity.
    - split; [exists "mem=4"%string; split; [by left|vm_compute; reflexivity]|]. intros p v' Hp E. cbn in Hp. apply elem_of_list_singleton in Hp as ->. vm_compute in E. by injection E as <-.
    - vm_compute. reflexivity.
    - unfold exists_in. apply (bool_decide_eq_true_1 _). vm_compute. reflexivity.
    - unfold exists_in. by_dec. }
  vm_compute in X. discriminate X.
Qed.
Theorem C166_example : (fun r => (r_id r, r_val r "network_address", r_val r "state")) <$> rscs (after db1 (command site1 10 (mkOpts [] ["n3"; "n4"]%string true (Some "Absent"%string) None None [] false) db1)) =
  [(1, Some "n1"%string, Some ""%string); (2, Some "n1"%string, Some ""%string); (3, Some "n2"%string, Some ""%string); (4, Some "n3"%string, Some "Absent"%string); (5, Some "n4"%string, Some "Absent"%string)].
Proof. vm_compute. reflexivity. Qed.
(** ** A resource or a host that does not exist is not reported by the exit value *)
Theorem C167_unknown_refuted : ~ (forall x now o d, exit_code (command x now o d) = 0 -> forall i, i ∈ o_resources o -> exists_in d i).
Proof.
  intros H. specialize (H site1 10 (mkOpts [9] [] false (Some "Absent"%string) None None [] true) db1 ltac:(vm_compute; reflexivity) 9 ltac:(cbn; by left)). unfold exists_in in H. apply (bool_decide_eq_true_2 _) in H. vm_compute in H. discriminate.
Qed.
Theorem C167_unknown_host_refuted : ~ (forall x now o d, exit_code (command x now o d) = 0 -> o_add o = false -> o_resources o = [] -> forall h, h ∈ o_hosts o -> exists r, r ∈ rscs d /\ r_addr r = h).
Proof.
  intros H. destruct (H site1 10 (for_hosts ["n9"]%string (Some "Absent"%string)) db1 ltac:(vm_compute; reflexivity) eq_refl eq_refl "n9"%string ltac:(cbn; by left)) as (r & Hr & E).
  assert (X : "n9"%string ∈ r_addr <$> rscs db1) by (apply elem_of_list_fmap; by exists r). apply (bool_decide_eq_true_2 _) in X. vm_compute in X. discriminate.
Qed.
Theorem C167_example : exit_code (command site1 10 (for_ids [1] None ["state=Dead"; "mem=4"]%string) db1) = 8 /\ exit_code (command site1 10 (for_ids [1] None ["state=Dead"; "mem"]%string) db1) = 15 /\
  exit_code (command site1 10 (for_ids [1] None ["gpu=4"]%string) db1) = 1 /\ exit_code (command site1 10 (for_ids [1] None ["mem=4"]%string) db1) = 0.
Proof. split; [|split; [|split]]; vm_compute; reflexivity. Qed.
Theorem C168_example : about site1 (for_ids [1; 3] None ["mem=4"; "drain=YES"]%string) db1 3 /\ gives (for_ids [1; 3] None ["mem=4"; "drain=YES"]%string) "mem" "4" /\
  exit_code (command site1 10 (for_ids [1; 3] None ["mem=4"; "drain=YES"]%string) db1) = 0.
Proof.
  split; [split; [reflexivity|]; cbn; right; by left|]. split; [|vm_compute; reflexivity]. split; [exists "mem=4"%string; split; [by left|vm_compute; reflexivity]|].
  intros p v' Hp E. cbn in Hp. apply elem_of_cons in Hp as [->|Hp]; [vm_compute in E; by injection E as <-|]. apply elem_of_list_singleton in Hp as ->. vm_compute in E. discriminate E.
Qed.
Theorem C169_example : about site1 (for_hosts ["n2"; "n1"]%string (Some "Absent"%string)) db1 2 /\ ~ names (for_hosts ["n2"; "n1"]%string (Some "Absent"%string)) "id" /\
  val db1 2 "next_state" = Some ""%string /\ val (after db1 (command site1 10 (for_hosts ["n2"; "n1"]%string (Some "Absent"%string)) db1)) 2 "next_state" = Some "Absent"%string.
Proof.
  split; [|split; [by apply no_names|split; vm_compute; reflexivity]]. split; [reflexivity|]. cbn [o_resources for_hosts]. exists (rsc_on 2 "n1"). split; [reflexivity|]. cbn [o_hosts for_hosts].
  assert (E : r_addr (rsc_on 2 "n1") = "n1"%string) by (vm_compute; reflexivity). rewrite E. right. by left.
Qed.
Print Assumptions C163_log.
Print Assumptions C161_date.
Print Assumptions C162_log.
Print Assumptions C164_others.
Print Assumptions C164_server.
Print Assumptions C165_resources.
Print Assumptions C165_host_partial.
Print Assumptions C166_add.
Print Assumptions C167_exit.
Print Assumptions C167_property.
Print Assumptions C168_set.
Print Assumptions C169_state.
Print Assumptions C161_example.
Print Assumptions C162_example.
Print Assumptions C163_example.
Print Assumptions C161_stale_refuted.
Print Assumptions C161_killed_refuted.
Print Assumptions C162_killed_refuted.
Print Assumptions C163_killed_refuted.
Print Assumptions C164_id_refuted.
Print Assumptions C164_example.
Print Assumptions C165_hosts_refuted.
Print Assumptions C165_example.
Print Assumptions C165_file_refuted.
Print Assumptions C166_properties_refuted.
Print Assumptions C166_example.
Print Assumptions C167_unknown_refuted.
Print Assumptions C167_unknown_host_refuted.
Print Assumptions C167_example.
Print Assumptions C168_example.
Print Assumptions C169_example.
