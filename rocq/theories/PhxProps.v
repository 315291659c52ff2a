(** C170-C173: oar_phoenix. *)
From Verif Require Import Base PhxModel PhxSpec.

(** * The dictionary *)
Lemma get_del n m s : get n (del m s) = if decide (n = m) then None else get n s.
Proof.
  unfold get, del. induction s as [|[k x] s IH]; [by case_decide|]. rewrite filter_cons. cbn [fst]. destruct (decide (k <> m)) as [H|H].
  - rewrite !filter_cons. cbn [fst]. destruct (decide (k = n)) as [->|N]; [by rewrite decide_False|exact IH].
  - rewrite IH. destruct (decide (k = m)) as [->|]; [|done]. destruct (decide (n = m)) as [->|N]; [done|]. rewrite filter_cons. cbn [fst]. rewrite decide_False by congruence. done.
Qed.
Lemma get_app n s s' : get n (s ++ s') = match get n s with Some m => Some m | None => get n s' end.
Proof. unfold get. rewrite filter_app. by destruct (filter _ s). Qed.
Lemma get_put n m x s : get n (put m x s) = if decide (n = m) then Some x else get n s.
Proof.
  unfold put. rewrite get_app, get_del. unfold get at 2. rewrite filter_cons. cbn [fst]. destruct (decide (n = m)) as [->|N]; [by rewrite decide_True|]. destruct (get n s); [done|]. by rewrite decide_False.
Qed.
Lemma get_clean n b s : get n (clean b s) = if decide (n ∈ b) then get n s else None.
Proof.
  unfold get, clean. induction s as [|[k x] s IH]; [by case_decide|]. rewrite filter_cons. cbn [fst]. destruct (decide (k ∈ b)) as [H|H].
  - rewrite !filter_cons. cbn [fst]. destruct (decide (k = n)) as [->|N]; [by rewrite decide_True|exact IH].
  - rewrite IH. destruct (decide (n ∈ b)) as [H'|H']; [|done]. rewrite filter_cons. cbn [fst]. rewrite decide_False by (by intros ->). done.
Qed.
(** * The choice of the nodes *)
Lemma pick_in want max c b n : n ∈ pick want max c b -> n ∈ b /\ want n = true.
Proof.
  revert c. induction b as [|a b IH]; intros c H; cbn in H; [by apply elem_of_nil in H|]. destruct (want a) eqn:E; apply elem_of_app in H as [H|H].
  - apply elem_of_list_singleton in H as ->. split; [by left|done].
  - destruct (max <=? c + 1); [by apply elem_of_nil in H|]. apply IH in H as [? ?]. split; [by right|done].
  - by apply elem_of_nil in H.
  - destruct (max <=? c); [by apply elem_of_nil in H|]. apply IH in H as [? ?]. split; [by right|done].
Qed.
Lemma pick_NoDup want max c b : NoDup b -> NoDup (pick want max c b).
Proof.
  revert c. induction b as [|a b IH]; intros c H; [constructor|]. apply NoDup_cons in H as [H1 H2]. cbn. destruct (want a); cbn [app].
  - apply NoDup_cons. split; [|destruct (_ <=? _); [constructor|by apply IH]]. destruct (_ <=? _); [apply not_elem_of_nil|]. intros H. by apply pick_in in H as [H _].
  - destruct (_ <=? _); [constructor|by apply IH].
Qed.
Lemma pick_length want max c b : c < max -> Z.of_nat (length (pick want max c b)) = Z.min (max - c) (Z.of_nat (length (filter (fun n => want n = true) b))).
Proof.
  revert c. induction b as [|a b IH]; intros c H; [cbn; lia|]. cbn [pick]. rewrite filter_cons. destruct (want a) eqn:E.
  - rewrite decide_True by done. cbn [app length]. destruct (max <=? c + 1) eqn:E2; cbn [length]; [lia|]. rewrite !Nat2Z.inj_succ, IH by lia. lia.
  - rewrite decide_False by done. cbn [app]. destruct (max <=? c) eqn:E2; [lia|]. by apply IH.
Qed.
(** * A reboot of some nodes *)
Lemma dates_cons k n e l : dates k n (e :: l) = (if decide (e.1.2 = k /\ e.2 = n) then [e.1.1] else []) ++ dates k n l.
Proof. unfold dates. cbn. by destruct (decide _). Qed.
Lemma dates_app k n l l' : dates k n (l ++ l') = dates k n l ++ dates k n l'.
Proof. unfold dates. apply omap_app. Qed.
Definition marked (k : kind) (t : Z) : mark := match k with soft => Soft t | hard => Hard t end.
Lemma reboot_spec k dur n nodes : (forall n, 0 <= dur n) -> forall now s now' s' e, NoDup nodes -> reboot k dur nodes now s = (now', s', e) ->
  now <= now' /\ (forall k', k' <> k -> dates k' n e = []) /\
  (n ∈ nodes -> exists t, now <= t /\ get n s' = Some (marked k t) /\ dates k n e = [t]) /\ (n ∉ nodes -> get n s' = get n s /\ dates k n e = []) /\
  (fun x => x.2) <$> e = nodes /\ Forall (fun x => x.1.2 = k) e.
Proof.
  intros Hd. induction nodes as [|a nodes IH]; intros now s now' s' e HN E; cbn in E.
  - injection E as <- <- <-. split; [lia|]. split; [done|]. split; [by intros ?%elem_of_nil|]. done.
  - apply NoDup_cons in HN as [HN1 HN2]. destruct (reboot k dur nodes (now + dur a) _) as [[n1 s1] e1] eqn:E1. injection E as <- <- <-. destruct (IH _ _ _ _ _ HN2 E1) as (A1 & A2 & A3 & A4 & A5 & A6). specialize (Hd a).
    split; [lia|]. split; [|split; [|split; [|split]]].
    + intros k' Hk. rewrite dates_cons. cbn [fst snd]. rewrite decide_False by (by intros [? _]). by apply A2.
    + intros H. destruct (decide (n = a)) as [->|Hn].
      * destruct (A4 HN1) as [B1 B2]. exists now. split; [lia|]. rewrite B1, get_put, decide_True by done. split; [by destruct k|]. rewrite dates_cons. cbn [fst snd]. rewrite decide_True by done. by rewrite B2.
      * apply elem_of_cons in H as [->|H]; [done|]. destruct (A3 H) as (t & B1 & B2 & B3). exists t. split; [lia|]. split; [done|]. rewrite dates_cons. cbn [fst snd]. rewrite decide_False by (by intros [_ ?]). done.
    + intros H. apply not_elem_of_cons in H as [Hn H]. destruct (A4 H) as [B1 B2]. rewrite B1, get_put, decide_False by done. split; [done|]. rewrite dates_cons. cbn [fst snd]. rewrite decide_False by (intros [_ ?]; congruence). done.
    + rewrite fmap_cons. cbn. by rewrite A5.
    + constructor; done.
Qed.
(** * One run, seen from one node *)
Record one_run (c : conf) (n : string) (r : prun) (s s' : status) (e : list event) : Prop := {
  or_soft : get n s = None -> dates hard n e = [] /\ (dates soft n e = [] /\ get n s' = None \/ exists t, dates soft n e = [t] /\ get n s' = Some (Soft t)) \/
    (exists t t', dates soft n e = [t] /\ dates hard n e = [t'] /\ get n s' = Some (Hard t') /\ t + soft_timeout c < t');
  or_wait : forall t, get n s = Some (Soft t) -> dates soft n e = [] /\ (dates hard n e = [] /\ get n s' = Some (Soft t) \/ exists t', dates hard n e = [t'] /\ get n s' = Some (Hard t') /\ t + soft_timeout c < t');
  or_hard : forall t, get n s = Some (Hard t) -> dates soft n e = [] /\ dates hard n e = [] /\ get n s' = Some (Hard t) }.
Lemma run_spec c n r s s' e : once r -> takes_time r -> broken r n -> phoenix c (p_start r) (p_dur r) (p_rows r) s = (s', e) -> one_run c n r s s' e.
Proof.
  intros HN HT (st & nx & HB) E. unfold phoenix in E. set (b := (fun x => x.1.1) <$> p_rows r) in *. assert (Hb : n ∈ b) by (apply elem_of_list_fmap; by exists (n, st, nx)).
  destruct (reboot soft (p_dur r) (to_soft (max_reboots c) (clean b s) b) (p_start r) (clean b s)) as [[now s1] e1] eqn:E1.
  destruct (reboot hard (p_dur r) (to_hard (max_reboots c) (soft_timeout c) now s1 b) now s1) as [[now2 s2] e2] eqn:E2. injection E as <- <-.
  destruct (reboot_spec soft (p_dur r) n _ HT _ _ _ _ _ ltac:(by apply pick_NoDup) E1) as (A1 & A2 & A3 & A4 & _). specialize (A2 hard ltac:(done)).
  destruct (reboot_spec hard (p_dur r) n _ HT _ _ _ _ _ ltac:(by apply pick_NoDup) E2) as (B1 & B2 & B3 & B4 & _). specialize (B2 soft ltac:(done)).
  assert (G : get n (clean b s) = get n s) by (by rewrite get_clean, decide_True). rewrite G in A4.
  assert (S1 : n ∈ to_soft (max_reboots c) (clean b s) b -> get n s = None).
  { intros H. apply pick_in in H as [_ H]. rewrite G in H. by destruct (get n s). }
  assert (S2 : n ∈ to_hard (max_reboots c) (soft_timeout c) now s1 b -> exists t, get n s1 = Some (Soft t) /\ t + soft_timeout c < now).
  { intros H. apply pick_in in H as [_ H]. destruct (get n s1) as [[t|t]|]; [|done|done]. exists t. split; [done|lia]. }
  constructor; rewrite ?dates_app, ?A2, ?B2, ?app_nil_r; cbn [app].
  - intros HG. destruct (decide (n ∈ to_hard (max_reboots c) (soft_timeout c) now s1 b)) as [D2|D2].
    + right. destruct (S2 D2) as (t & X1 & X2). destruct (B3 D2) as (t' & Y1 & Y2 & Y3). destruct (decide (n ∈ to_soft (max_reboots c) (clean b s) b)) as [D1|D1].
      * destruct (A3 D1) as (t1 & Z1 & Z2 & Z3). rewrite X1 in Z2. injection Z2 as ->. exists t1, t'. repeat (split; [done|]). cbn in *. lia.
      * destruct (A4 D1) as [Z1 _]. congruence.
    + destruct (B4 D2) as [Y1 Y2]. left. split; [done|]. rewrite Y1. destruct (decide (n ∈ to_soft (max_reboots c) (clean b s) b)) as [D1|D1].
      * destruct (A3 D1) as (t1 & Z1 & Z2 & Z3). right. by exists t1.
      * destruct (A4 D1) as [Z1 Z2]. left. split; congruence.
  - intros t HG. assert (D1 : n ∉ to_soft (max_reboots c) (clean b s) b) by (intros D1; apply S1 in D1; congruence). destruct (A4 D1) as [Z1 Z2]. split; [done|].
    destruct (decide (n ∈ to_hard (max_reboots c) (soft_timeout c) now s1 b)) as [D2|D2].
    + right. destruct (S2 D2) as (t0 & X1 & X2). destruct (B3 D2) as (t' & Y1 & Y2 & Y3). exists t'. repeat (split; [done|]). rewrite Z1, HG in X1. injection X1 as ->. lia.
    + destruct (B4 D2) as [Y1 Y2]. left. split; [done|]. congruence.
  - intros t HG. assert (D1 : n ∉ to_soft (max_reboots c) (clean b s) b) by (intros D1; apply S1 in D1; congruence). destruct (A4 D1) as [Z1 Z2].
    assert (D2 : n ∉ to_hard (max_reboots c) (soft_timeout c) now s1 b) by (intros D2; apply S2 in D2 as (t0 & X1 & _); congruence). destruct (B4 D2) as [Y1 Y2]. split; [done|]. split; [done|]. congruence.
Qed.
Lemma runs_cons c r h s : runs c (r :: h) s = let '(s1, e1) := phoenix c (p_start r) (p_dur r) (p_rows r) s in let '(s2, e2) := runs c h s1 in (s2, e1 ++ e2).
Proof. done. Qed.
(** ** As long as it stays broken, a node is rebooted softly at most once, then hard at most once, after the timeout *)
Theorem C170_once c h s n : get n s = None -> Forall (fun r => once r /\ takes_time r /\ broken r n) h ->
  (dates soft n (reboots c h s) = [] /\ dates hard n (reboots c h s) = []) \/
  exists t, dates soft n (reboots c h s) = [t] /\ (dates hard n (reboots c h s) = [] \/ exists t', dates hard n (reboots c h s) = [t'] /\ t + soft_timeout c < t').
Proof.
  assert (H2 : forall h s t, get n s = Some (Hard t) -> Forall (fun r => once r /\ takes_time r /\ broken r n) h -> dates soft n (reboots c h s) = [] /\ dates hard n (reboots c h s) = []).
  { clear. induction h as [|r h IH]; intros s t HG HF; [done|]. apply Forall_cons in HF as [(F1 & F2 & F3) HF]. unfold reboots. rewrite runs_cons. destruct (phoenix _ _ _ _ s) as [s1 e1] eqn:E1.
    destruct (or_hard _ _ _ _ _ _ (run_spec c n r s s1 e1 F1 F2 F3 E1) t HG) as (A1 & A2 & A3). specialize (IH s1 t A3 HF). unfold reboots in IH. destruct (runs c h s1) as [s2 e2]. cbn [snd] in *. rewrite !dates_app, A1, A2. done. }
  assert (H1 : forall h s t, get n s = Some (Soft t) -> Forall (fun r => once r /\ takes_time r /\ broken r n) h -> dates soft n (reboots c h s) = [] /\
    (dates hard n (reboots c h s) = [] \/ exists t', dates hard n (reboots c h s) = [t'] /\ t + soft_timeout c < t')).
  { clear -H2. induction h as [|r h IH]; intros s t HG HF; [split; [done|by left]|]. apply Forall_cons in HF as [(F1 & F2 & F3) HF]. unfold reboots. rewrite runs_cons. destruct (phoenix _ _ _ _ s) as [s1 e1] eqn:E1.
    destruct (or_wait _ _ _ _ _ _ (run_spec c n r s s1 e1 F1 F2 F3 E1) t HG) as (A1 & [(A2 & A3)|(t' & A2 & A3 & A4)]).
    - specialize (IH s1 t A3 HF). unfold reboots in IH. destruct (runs c h s1) as [s2 e2]. cbn [snd] in *. rewrite !dates_app, A1, A2. done.
    - specialize (H2 h s1 t' A3 HF). unfold reboots in H2. destruct (runs c h s1) as [s2 e2]. cbn [snd] in *. rewrite !dates_app, A1, A2. destruct H2 as [-> ->]. split; [done|]. right. by exists t'. }
  revert s. induction h as [|r h IH]; intros s HG HF; [by left|]. apply Forall_cons in HF as [(F1 & F2 & F3) HF]. unfold reboots. rewrite runs_cons. destruct (phoenix _ _ _ _ s) as [s1 e1] eqn:E1.
  destruct (or_soft _ _ _ _ _ _ (run_spec c n r s s1 e1 F1 F2 F3 E1) HG) as [(A1 & [(A2 & A3)|(t & A2 & A3)])|(t & t' & A1 & A2 & A3 & A4)].
  - specialize (IH s1 A3 HF). unfold reboots in IH. destruct (runs c h s1) as [s2 e2]. cbn [snd] in *. rewrite !dates_app, A1, A2. done.
  - specialize (H1 h s1 t A3 HF). unfold reboots in H1. destruct (runs c h s1) as [s2 e2]. cbn [snd] in *. rewrite !dates_app, A1, A2. destruct H1 as [-> H1]. right. exists t. split; [done|]. exact H1.
  - specialize (H2 h s1 t' A3 HF). unfold reboots in H2. destruct (runs c h s1) as [s2 e2]. cbn [snd] in *. rewrite !dates_app, A1, A2. destruct H2 as [-> ->]. right. exists t. split; [done|]. right. by exists t'.
Qed.
(** ** A node that is not broken is not rebooted, and is forgotten *)
Lemma reboot_in k dur nodes : forall now s now' s' e x, reboot k dur nodes now s = (now', s', e) -> x ∈ e -> x.2 ∈ nodes /\ x.1.2 = k.
Proof.
  induction nodes as [|a nodes IH]; intros now s now' s' e x E H; cbn in E; [injection E as <- <- <-; by apply elem_of_nil in H|].
  destruct (reboot k dur nodes (now + dur a) _) as [[n1 s1] e1] eqn:E1. injection E as <- <- <-. apply elem_of_cons in H as [->|H]; [split; [by left|done]|]. destruct (IH _ _ _ _ _ _ E1 H). split; [by right|done].
Qed.
Lemma reboot_get k dur nodes n : forall now s now' s' e, reboot k dur nodes now s = (now', s', e) -> n ∉ nodes -> get n s' = get n s.
Proof.
  induction nodes as [|a nodes IH]; intros now s now' s' e E H; cbn in E; [by injection E as <- <- <-|]. apply not_elem_of_cons in H as [H1 H2].
  destruct (reboot k dur nodes (now + dur a) _) as [[n1 s1] e1] eqn:E1. injection E as <- <- <-. rewrite (IH _ _ _ _ _ E1 H2), get_put, decide_False by done. done.
Qed.
Theorem C173_repaired c r s n : ~ broken r n -> (forall k, dates k n (reboots c [r] s) = []) /\ get n (runs c [r] s).1 = None.
Proof.
  intros HB. unfold reboots. cbn [runs]. destruct (phoenix c (p_start r) (p_dur r) (p_rows r) s) as [s' e] eqn:E. cbn [fst snd]. rewrite app_nil_r. unfold phoenix in E. set (b := (fun x => x.1.1) <$> p_rows r) in *.
  assert (Hb : n ∉ b). { intros H. apply elem_of_list_fmap in H as ([[? st] nx] & -> & H). apply HB. by exists st, nx. }
  destruct (reboot soft (p_dur r) (to_soft (max_reboots c) (clean b s) b) (p_start r) (clean b s)) as [[now s1] e1] eqn:E1.
  destruct (reboot hard (p_dur r) (to_hard (max_reboots c) (soft_timeout c) now s1 b) now s1) as [[now2 s2] e2] eqn:E2. injection E as <- <-.
  assert (D1 : n ∉ to_soft (max_reboots c) (clean b s) b) by (intros H; by apply pick_in in H as [H _]). assert (D2 : n ∉ to_hard (max_reboots c) (soft_timeout c) now s1 b) by (intros H; by apply pick_in in H as [H _]). split.
  - intros k. destruct (dates k n (e1 ++ e2)) as [|t l] eqn:ED; [done|]. exfalso. assert (H : t ∈ dates k n (e1 ++ e2)) by (rewrite ED; by left). unfold dates in H. apply elem_of_list_omap in H as (x & Hx & H).
    destruct (decide _) as [[_ Y]|]; [|done]. apply elem_of_app in Hx as [Hx|Hx]; [apply (reboot_in _ _ _ _ _ _ _ _ _ E1) in Hx as [Hx _]|apply (reboot_in _ _ _ _ _ _ _ _ _ E2) in Hx as [Hx _]]; rewrite Y in Hx; done.
  - rewrite (reboot_get _ _ _ n _ _ _ _ _ E2 D2), (reboot_get _ _ _ n _ _ _ _ _ E1 D1), get_clean, decide_False by done. done.
Qed.
(** ** The number of reboots of each kind in a run *)
Lemma reboot_events k dur nodes : forall now s now' s' e, reboot k dur nodes now s = (now', s', e) -> length (filter (fun x : event => x.1.2 = k) e) = length nodes /\ forall k', k' <> k -> filter (fun x : event => x.1.2 = k') e = [].
Proof.
  induction nodes as [|a nodes IH]; intros now s now' s' e E; cbn in E; [by injection E as <- <- <-|].
  destruct (reboot k dur nodes (now + dur a) _) as [[n1 s1] e1] eqn:E1. injection E as <- <- <-. destruct (IH _ _ _ _ _ E1) as [A1 A2]. split.
  - rewrite filter_cons_True by done. cbn [length]. by rewrite A1.
  - intros k' Hk. rewrite filter_cons_False by (cbn; congruence). by apply A2.
Qed.
Theorem C171_bound c r s k : 1 <= max_reboots c -> Z.of_nat (length (filter (fun x : event => x.1.2 = k) (reboots c [r] s))) <= max_reboots c.
Proof.
  intros HM. unfold reboots. cbn [runs]. destruct (phoenix c (p_start r) (p_dur r) (p_rows r) s) as [s' e] eqn:E. cbn [fst snd]. rewrite app_nil_r. unfold phoenix in E. set (b := (fun x => x.1.1) <$> p_rows r) in *.
  destruct (reboot soft (p_dur r) (to_soft (max_reboots c) (clean b s) b) (p_start r) (clean b s)) as [[now s1] e1] eqn:E1.
  destruct (reboot hard (p_dur r) (to_hard (max_reboots c) (soft_timeout c) now s1 b) now s1) as [[now2 s2] e2] eqn:E2. injection E as <- <-. rewrite filter_app, app_length, Nat2Z.inj_add.
  destruct (reboot_events _ _ _ _ _ _ _ _ E1) as [A1 A2]. destruct (reboot_events _ _ _ _ _ _ _ _ E2) as [B1 B2]. destruct k.
  - rewrite A1, (B2 soft) by done. unfold to_soft. rewrite pick_length by lia. cbn [length]. lia.
  - rewrite B1, (A2 hard) by done. unfold to_hard. rewrite pick_length by lia. cbn [length]. lia.
Qed.
(** ** Every broken node is rebooted in the end *)
Definition untreated (nodes : list string) (s : status) : list string := filter (fun n => get n s = None) nodes.
Lemma filter_length_le {A} (P Q : A -> Prop) `{Pd : forall x, Decision (P x)} `{Qd : forall x, Decision (Q x)} (l : list A) : (forall x, x ∈ l -> P x -> Q x) -> (length (filter P l) <= length (filter Q l))%nat.
Proof.
  induction l as [|a l IH]; intros H; [done|]. rewrite !filter_cons. assert (IH' := IH ltac:(intros x Hx; apply H; by right)). destruct (decide (P a)) as [Ha|Ha].
  - rewrite decide_True by (apply H; [by left|done]). cbn. lia.
  - destruct (decide (Q a)); cbn; lia.
Qed.
Lemma list_filter_iff' {A} (P Q : A -> Prop) `{Pd : forall x, Decision (P x)} `{Qd : forall x, Decision (Q x)} (l : list A) : (forall x, x ∈ l -> P x <-> Q x) -> filter P l = filter Q l.
Proof.
  induction l as [|a l IH]; intros H; [done|]. rewrite !filter_cons, (IH ltac:(intros x Hx; apply H; by right)). assert (Ha := H a ltac:(by left)). destruct (decide (P a)), (decide (Q a)); tauto.
Qed.
Lemma filter_minus {A} `{EqDecision A} (P : A -> Prop) `{Pd : forall x, Decision (P x)} (l p : list A) : NoDup l -> NoDup p -> (forall x, x ∈ p -> x ∈ l /\ P x) ->
  (length (filter (fun x => P x /\ x ∉ p) l) + length p = length (filter P l))%nat.
Proof.
  intros HL. revert p. induction l as [|a l IH]; intros p HP HI.
  - destruct p as [|x p]; [done|]. destruct (HI x ltac:(by left)) as [H _]. by apply elem_of_nil in H.
  - apply NoDup_cons in HL as [HL1 HL2]. destruct (decide (a ∈ p)) as [Hap|Hap].
    + rewrite filter_cons_False by (by intros [_ ?]). rewrite (filter_cons_True _ _ _ (proj2 (HI a Hap))). cbn [length].
      assert (HL3 := IH HL2 (filter (fun x => x <> a) p)). rewrite <- HL3; [|by apply NoDup_filter|].
      * assert (E : filter (fun x => P x /\ x ∉ p) l = filter (fun x => P x /\ x ∉ filter (fun x => x <> a) p) l).
        { apply list_filter_iff'. intros x Hx. split; intros [X1 X2]; (split; [done|]); intros X; apply X2; [by apply elem_of_list_filter in X as [_ X]|]. apply elem_of_list_filter. split; [|done]. intros ->. done. }
        rewrite E. assert (EL : length p = S (length (filter (fun x => x <> a) p))); [|lia].
        clear -HP Hap. induction p as [|x p IHp]; [by apply elem_of_nil in Hap|]. apply NoDup_cons in HP as [H1 H2]. rewrite filter_cons. destruct (decide (x <> a)) as [N|N].
        -- cbn [length]. f_equal. apply IHp; [done|]. apply elem_of_cons in Hap as [->|?]; done.
        -- cbn [length]. f_equal. destruct (decide (x = a)) as [->|]; [|done]. clear -H1. induction p as [|y p IH]; [done|]. apply not_elem_of_cons in H1 as [? ?]. rewrite filter_cons_True by congruence. cbn [length]. f_equal. by apply IH.
      * intros x Hx. apply elem_of_list_filter in Hx as [Hx1 Hx2]. destruct (HI x Hx2) as [X1 X2]. split; [|done]. apply elem_of_cons in X1 as [->|?]; done.
    + assert (HI' : forall x, x ∈ p -> x ∈ l /\ P x) by (intros x Hx; destruct (HI x Hx) as [X1 X2]; split; [|done]; apply elem_of_cons in X1 as [->|?]; done).
      rewrite !filter_cons. destruct (decide (P a)) as [Pa|Pa].
      * rewrite decide_True by done. cbn [length]. rewrite <- (IH HL2 p HP HI'). lia.
      * rewrite decide_False by (by intros [? _]). by apply IH.
Qed.
Lemma run_gets c r s s' e n : once r -> takes_time r -> broken r n -> phoenix c (p_start r) (p_dur r) (p_rows r) s = (s', e) ->
  (get n s' = None <-> get n s = None /\ n ∉ to_soft (max_reboots c) (clean ((fun x => x.1.1) <$> p_rows r) s) ((fun x => x.1.1) <$> p_rows r)) /\ (get n s = None -> get n s' <> None -> dates soft n e <> []).
Proof.
  intros HN HT HB E. pose proof (run_spec c n r s s' e HN HT HB E) as R. destruct HB as (st & nx & HB). unfold phoenix in E. set (b := (fun x => x.1.1) <$> p_rows r) in *.
  assert (Hb : n ∈ b) by (apply elem_of_list_fmap; by exists (n, st, nx)). assert (G : get n (clean b s) = get n s) by (by rewrite get_clean, decide_True).
  destruct (reboot soft (p_dur r) (to_soft (max_reboots c) (clean b s) b) (p_start r) (clean b s)) as [[now s1] e1] eqn:E1.
  destruct (reboot hard (p_dur r) (to_hard (max_reboots c) (soft_timeout c) now s1 b) now s1) as [[now2 s2] e2] eqn:E2. injection E as <- <-.
  destruct (reboot_spec soft (p_dur r) n _ HT _ _ _ _ _ ltac:(by apply pick_NoDup) E1) as (_ & _ & A3 & A4 & _).
  destruct (reboot_spec hard (p_dur r) n _ HT _ _ _ _ _ ltac:(by apply pick_NoDup) E2) as (_ & B2 & B3 & B4 & _). specialize (B2 soft ltac:(done)). rewrite G in A4. split; [split|].
  - intros H. destruct (decide (n ∈ to_hard (max_reboots c) (soft_timeout c) now s1 b)) as [D|D]; [destruct (B3 D) as (t & _ & X & _); congruence|]. destruct (B4 D) as [B _].
    destruct (decide (n ∈ to_soft (max_reboots c) (clean b s) b)) as [D1|D1]; [destruct (A3 D1) as (t & _ & X & _); congruence|]. destruct (A4 D1) as [A _]. split; [congruence|done].
  - intros [H1 H2]. destruct (A4 H2) as [A _]. destruct (decide (n ∈ to_hard (max_reboots c) (soft_timeout c) now s1 b)) as [D|D]; [|destruct (B4 D) as [B _]; congruence].
    apply pick_in in D as [_ D]. rewrite A, H1 in D. done.
  - intros H1 H2. destruct (or_soft _ _ _ _ _ _ R H1) as [(_ & [(_ & ?)|(t & X & _)])|(t & t' & X & _)]; [done|rewrite X; done|rewrite X; done].
Qed.
Lemma told_broken nodes r n : told nodes r -> n ∈ nodes <-> broken r n.
Proof.
  intros HT. unfold told in HT. rewrite <- HT. unfold broken. rewrite elem_of_list_fmap. split.
  - intros ([[? st] nx] & -> & H). by exists st, nx.
  - intros (st & nx & H). by exists (n, st, nx).
Qed.
Lemma run_untreated c r s nodes : 1 <= max_reboots c -> told nodes r -> NoDup nodes -> takes_time r ->
  Z.of_nat (length (untreated nodes (runs c [r] s).1)) = Z.max 0 (Z.of_nat (length (untreated nodes s)) - max_reboots c).
Proof.
  intros HM HT HN HD. cbn [runs]. destruct (phoenix c (p_start r) (p_dur r) (p_rows r) s) as [s' e] eqn:E. cbn [fst].
  assert (HO : once r) by (unfold once; unfold told in HT; by rewrite HT). set (b := (fun x => x.1.1) <$> p_rows r). set (p := to_soft (max_reboots c) (clean b s) b).
  assert (E1 : untreated nodes s' = filter (fun n => get n s = None /\ n ∉ p) nodes).
  { apply list_filter_iff'. intros n Hn. apply (told_broken nodes r n HT) in Hn. by apply (run_gets c r s s' e n HO HD Hn E). }
  assert (HP : forall n, n ∈ p -> n ∈ nodes /\ get n s = None).
  { intros n Hn. apply pick_in in Hn as [H1 H2]. rewrite get_clean, decide_True in H2 by done. split; [by rewrite <- HT|]. by destruct (get n s). }
  pose proof (filter_minus (fun n => get n s = None) nodes p HN ltac:(by apply pick_NoDup) HP) as HL. rewrite E1. unfold untreated.
  assert (HC : Z.of_nat (length p) = Z.min (max_reboots c) (Z.of_nat (length (filter (fun n => get n s = None) nodes)))).
  { unfold p, to_soft. rewrite pick_length by lia. rewrite Z.sub_0_r. f_equal. f_equal.
    assert (EQ : filter (fun n => match get n (clean b s) with Some _ => false | None => true end = true) b = filter (fun n => get n s = None) b).
    { apply list_filter_iff'. intros n Hn. rewrite get_clean, decide_True by done. by destruct (get n s). }
    rewrite EQ. apply Permutation_length. unfold told in HT. fold b in HT. by rewrite HT. }
  lia.
Qed.
Lemma runs_app1 c r h s : (runs c (r :: h) s).1 = (runs c h (runs c [r] s).1).1 /\ (runs c (r :: h) s).2 = (runs c [r] s).2 ++ (runs c h (runs c [r] s).1).2.
Proof. rewrite !runs_cons. destruct (phoenix _ _ _ _ s) as [s1 e1]. cbn [runs fst]. destruct (runs c h s1). cbn. by rewrite app_nil_r. Qed.
Theorem C172_progress c h s nodes n : 1 <= max_reboots c -> NoDup nodes -> Forall (fun r => told nodes r /\ takes_time r) h ->
  Z.of_nat (length nodes) <= max_reboots c * Z.of_nat (length h) -> n ∈ nodes -> get n s = None -> dates soft n (reboots c h s) <> [].
Proof.
  intros HM HN HF HL Hn HG. assert (HU : Z.of_nat (length (untreated nodes s)) <= max_reboots c * Z.of_nat (length h)).
  { assert ((length (untreated nodes s) <= length nodes)%nat) by (apply filter_length). lia. }
  clear HL. revert s HG HU. induction h as [|r h IH]; intros s HG HU.
  - exfalso. cbn in HU. assert (length (untreated nodes s) = 0)%nat as X by lia. apply nil_length_inv in X. assert (Y : n ∈ untreated nodes s) by (by apply elem_of_list_filter). rewrite X in Y. by apply elem_of_nil in Y.
  - apply Forall_cons in HF as [[F1 F2] HF]. unfold reboots. rewrite (proj2 (runs_app1 c r h s)), dates_app. destruct (get n (runs c [r] s).1) as [m|] eqn:EG.
    + cbn [runs] in *. destruct (phoenix c (p_start r) (p_dur r) (p_rows r) s) as [s' e] eqn:E. cbn [fst snd] in *. rewrite app_nil_r. intros [X _]%app_eq_nil. revert X.
      apply (run_gets c r s s' e n); [unfold once; unfold told in F1; by rewrite F1|done|by apply (told_broken nodes r n F1)|done|done|by rewrite EG].
    + intros [_ X]%app_eq_nil. revert X. apply IH; [done|done|]. rewrite (run_untreated c r s nodes HM F1 HN F2). cbn [length] in HU. lia.
Qed.
(** * Concrete cases *)
Definition no_time (_ : string) : Z := 0.
Definition row (n : string) : string * string * string := (n, "Suspected"%string, "UnChanged"%string).
Definition c1 : conf := mkConf 20 300.
Definition nodes_at (t : Z) (l : list string) : prun := mkPrun t no_time (row <$> l).
Theorem C170_example : let h := [nodes_at 1000 ["n1"; "n2"]%string; nodes_at 1200 ["n1"; "n2"]%string; nodes_at 1301 ["n2"; "n1"]%string; nodes_at 9000 ["n1"]%string] in
  Forall (fun r => once r /\ takes_time r /\ broken r "n1"%string) h /\ dates soft "n1" (reboots c1 h []) = [1000] /\ dates hard "n1" (reboots c1 h []) = [1301].
Proof.
  cbv zeta. split; [|split; vm_compute; reflexivity].
  assert (X : forall t l, NoDup l -> "n1"%string ∈ l -> once (nodes_at t l) /\ takes_time (nodes_at t l) /\ broken (nodes_at t l) "n1"%string).
  { intros t l H1 H2. split; [|split].
    - unfold once. cbn [p_rows nodes_at]. rewrite <- list_fmap_compose. assert (E : (fun x => x.1.1) ∘ row <$> l = l) by (rewrite <- (list_fmap_id l) at 2; by apply list_fmap_ext). by rewrite E.
    - intros n. done.
    - exists "Suspected"%string, "UnChanged"%string. cbn [p_rows nodes_at]. apply elem_of_list_fmap. by exists "n1"%string. }
  repeat (apply Forall_cons; split; [apply X; by_dec|]). constructor.
Qed.
(** ** A node with two next states is listed twice, and rebooted twice *)
Theorem C170_twice_refuted : ~ (forall c r s n, get n s = None -> NoDup (p_rows r) -> takes_time r -> (length (dates soft n (reboots c [r] s)) <= 1)%nat).
Proof.
  intros H. specialize (H c1 (mkPrun 1000 no_time [("n1", "Suspected", "UnChanged"); ("n1", "Suspected", "Absent")]%string) [] "n1"%string eq_refl ltac:(cbn [p_rows]; by_dec) ltac:(done)). vm_compute in H. lia.
Qed.
(** ** A run that is killed begins again *)
Theorem C170_killed_refuted : ~ (forall c r r' k s n, get n s = None -> once r -> once r' -> takes_time r -> takes_time r' -> (length (dates soft n (killed c k r s ++ reboots c [r'] s)) <= 1)%nat).
Proof.
  intros H. specialize (H c1 (nodes_at 1000 ["n1"]%string) (nodes_at 1010 ["n1"]%string) 1%nat [] "n1"%string eq_refl ltac:(unfold once; by_dec) ltac:(unfold once; by_dec) ltac:(done) ltac:(done)). vm_compute in H. lia.
Qed.
(** ** A hard reboot without asking again whether the node is broken *)
Theorem C170_asked_refuted : ~ (forall c r s n t t', get n s = None -> once r -> takes_time r -> dates soft n (reboots c [r] s) = [t] -> dates hard n (reboots c [r] s) = [t'] -> False).
Proof.
  intros H. apply (H c1 (mkPrun 1000 (fun _ => 60) (row <$> ["n1"; "n2"; "n3"; "n4"; "n5"; "n6"]%string)) [] "n1"%string 1000 1360 eq_refl); [unfold once; by_dec|done|vm_compute; reflexivity|vm_compute; reflexivity].
Qed.
(** ** The limit counts soft and hard reboots apart, and 0 is not a limit *)
Theorem C171_total_refuted : ~ (forall c r s, 1 <= max_reboots c -> once r -> Z.of_nat (length (reboots c [r] s)) <= max_reboots c).
Proof.
  intros H. specialize (H (mkConf 1 300) (nodes_at 2000 ["n1"; "n2"]%string) [("n1"%string, Soft 1000)] ltac:(cbn; lia) ltac:(unfold once; by_dec)). vm_compute in H. by apply H.
Qed.
Theorem C171_zero_refuted : ~ (forall c r s, 0 <= max_reboots c -> once r -> Z.of_nat (length (filter (fun x : event => x.1.2 = soft) (reboots c [r] s))) <= max_reboots c).
Proof.
  intros H. specialize (H (mkConf 0 300) (nodes_at 2000 ["n1"; "n2"]%string) [] ltac:(cbn; lia) ltac:(unfold once; by_dec)). vm_compute in H. by apply H.
Qed.
Theorem C171_example : length (reboots (mkConf 2 300) [nodes_at 1000 ["n1"; "n2"; "n3"]%string] []) = 2%nat.
Proof. vm_compute. reflexivity. Qed.
(** ** Nodes that break later can go first for ever *)
Theorem C172_starve_refuted : ~ (forall c s n, 1 <= max_reboots c -> get n s = None -> exists k, forall h, length h = k -> Forall (fun r => once r /\ takes_time r /\ broken r n) h -> dates soft n (reboots c h s) <> []).
Proof.
  intros H. destruct (H (mkConf 1 300) [] "n1"%string ltac:(cbn; lia) eq_refl) as (k & Hk).
  (* a and b break in turn, and come before n1 *)
  set (other := fun b : bool => nodes_at 0 (if b then ["a"; "n1"] else ["b"; "n1"])%string).
  assert (HO : forall b, once (other b) /\ takes_time (other b) /\ broken (other b) "n1"%string).
  { intros b. split; [unfold once; destruct b; by_dec|]. split; [done|]. exists "Suspected"%string, "UnChanged"%string. destruct b; cbn; right; by left. }
  pose (go := fix go (b : bool) (j : nat) {struct j} : list prun := match j with O => [] | S j' => other b :: go (negb b) j' end).
  assert (HL : forall j b, length (go b j) = j) by (induction j as [|j IH]; intros b; [done|cbn; by rewrite IH]).
  assert (HA : forall j b, Forall (fun r => once r /\ takes_time r /\ broken r "n1"%string) (go b j)) by (induction j as [|j IH]; intros b; [constructor|constructor; [apply HO|apply IH]]).
  apply (Hk (go true k) (HL k true) (HA k true)). clear Hk.
  assert (HS : forall (j : nat) (b : bool) (s : status), get "n1" s = None -> get (if b then "a" else "b")%string s = None -> dates soft "n1" (reboots (mkConf 1 300) (go b j) s) = []).
  { induction j as [|j IH]; intros b s G1 G2; [done|]. change (go b (S j)) with (other b :: go (negb b) j). unfold reboots. rewrite (proj2 (runs_app1 _ _ _ s)), dates_app.
    assert (E : (runs (mkConf 1 300) [other b] s).2 = [(0, soft, if b then "a" else "b")%string] /\ get "n1" (runs (mkConf 1 300) [other b] s).1 = None /\ get (if negb b then "a" else "b")%string (runs (mkConf 1 300) [other b] s).1 = None).
    { cbn [runs]. unfold phoenix. cbn [p_start p_dur p_rows other nodes_at max_reboots soft_timeout].
      assert (EB : (fun r => r.1.1) <$> (row <$> (if b then ["a"; "n1"] else ["b"; "n1"])%string) = (if b then ["a"; "n1"] else ["b"; "n1"])%string) by (by destruct b). rewrite EB. set (l := (if b then ["a"; "n1"] else ["b"; "n1"])%string).
      assert (ES : to_soft 1 (clean l s) l = [(if b then "a" else "b")%string]).
      { unfold to_soft, l. destruct b; cbn [pick]; rewrite get_clean, decide_True, G2 by by_dec; reflexivity. }
      rewrite ES. cbn [reboot]. set (s1 := put _ _ _).
      assert (GN : get "n1" s1 = None) by (unfold s1; rewrite get_put, decide_False, get_clean by (by destruct b); case_decide; done).
      assert (EH : to_hard 1 300 (0 + no_time (if b then "a" else "b")%string) s1 l = []).
      { unfold to_hard, l. destruct b; cbn [pick]; unfold s1 at 1; rewrite get_put, decide_True by done; cbn; rewrite GN; reflexivity. }
      rewrite EH. cbn [reboot app snd fst]. split; [done|]. split; [done|]. unfold s1. rewrite get_put, decide_False by (by destruct b). rewrite get_clean, decide_False; [done|]. unfold l. destruct b; by_dec. }
    destruct E as (E1 & E2 & E3). rewrite E1. cbn [app]. rewrite dates_cons. rewrite decide_False by (cbn; intros [_ X]; destruct b; discriminate X). cbn [app]. apply (IH (negb b)); done. }
  apply HS; reflexivity.
Qed.
Theorem C172_example : let nodes := ["n1"; "n2"; "n3"]%string in let h := [nodes_at 1000 ["n2"; "n1"; "n3"]%string; nodes_at 1100 ["n1"; "n2"; "n3"]%string] in
  dates soft "n3" (reboots (mkConf 2 300) h []) = [1100] /\ Z.of_nat (length nodes) <= 2 * Z.of_nat (length h) /\ told nodes (nodes_at 1000 ["n2"; "n1"; "n3"]%string).
Proof. cbv zeta. split; [vm_compute; reflexivity|]. split; [cbn; lia|]. unfold told. cbn. apply perm_swap. Qed.
Theorem C173_example : ~ broken (nodes_at 2000 ["n2"]%string) "n1"%string /\ runs c1 [nodes_at 2000 ["n2"]%string] [("n1"%string, Soft 1000)] = ([("n2"%string, Soft 2000)], [(2000, soft, "n2"%string)]).
Proof. split; [|vm_compute; reflexivity]. intros (st & nx & H). cbn in H. apply elem_of_list_singleton in H. discriminate. Qed.
Print Assumptions C170_once.
Print Assumptions C173_repaired.
Print Assumptions C171_bound.
Print Assumptions C172_progress.
Print Assumptions C170_example.
Print Assumptions C170_twice_refuted.
Print Assumptions C170_killed_refuted.
Print Assumptions C170_asked_refuted.
Print Assumptions C171_total_refuted.
Print Assumptions C171_zero_refuted.
Print Assumptions C171_example.
Print Assumptions C172_starve_refuted.
Print Assumptions C172_example.
Print Assumptions C173_example.
