(** Energy saving: properties C109 to C116. *)
From Verif Require Import Base EnergyModel EnergyProofs.

Lemma fold_max_spec : forall (l : list Z) x, x <= fold_left Z.max l x /\ (forall y, y ∈ l -> y <= fold_left Z.max l x) /\
  (fold_left Z.max l x = x \/ fold_left Z.max l x ∈ l).
Proof.
  induction l as [|y l IH]; intros x; cbn [fold_left]; [split; [lia|]; split; [intros y Hy; by apply elem_of_nil in Hy|by left]|].
  destruct (IH (Z.max x y)) as (H1 & H2 & H3). split; [lia|]. split.
  - intros z [->|Hz]%elem_of_cons; [lia|by apply H2].
  - destruct H3 as [H3|H3]; [|right; by right]. destruct (Z.max_spec x y) as [[_ E]|[_ E]]; rewrite H3, E; [right; left|by left].
Qed.
Lemma fold_min_spec : forall (l : list Z) x, fold_left Z.min l x <= x /\ (forall y, y ∈ l -> fold_left Z.min l x <= y) /\
  (fold_left Z.min l x = x \/ fold_left Z.min l x ∈ l).
Proof.
  induction l as [|y l IH]; intros x; cbn [fold_left]; [split; [lia|]; split; [intros y Hy; by apply elem_of_nil in Hy|by left]|].
  destruct (IH (Z.min x y)) as (H1 & H2 & H3). split; [lia|]. split.
  - intros z [->|Hz]%elem_of_cons; [lia|by apply H2].
  - destruct H3 as [H3|H3]; [|right; by right]. destruct (Z.min_spec x y) as [[_ E]|[_ E]]; rewrite H3, E; [by left|right; left].
Qed.
Lemma list_max_spec (l : list Z) : match list_max l with None => l = [] | Some m => m ∈ l /\ forall x, x ∈ l -> x <= m end.
Proof.
  destruct l as [|x l]; [done|]. cbn. destruct (fold_max_spec l x) as (H1 & H2 & H3). split.
  - destruct H3 as [->|H3]; [left|by right].
  - intros y [->|Hy]%elem_of_cons; [done|by apply H2].
Qed.
Lemma list_min_spec (l : list Z) : match list_min l with None => l = [] | Some m => m ∈ l /\ forall x, x ∈ l -> m <= x end.
Proof.
  destruct l as [|x l]; [done|]. cbn. destruct (fold_min_spec l x) as (H1 & H2 & H3). split.
  - destruct H3 as [->|H3]; [left|by right].
  - intros y [->|Hy]%elem_of_cons; [done|by apply H2].
Qed.

(** ** C109: which nodes are put to sleep *)
(** Some job planned on the node starts at [s]. *)
Definition planned_on (d : edb) (n : string) (s : Z) : Prop :=
  exists p r, p ∈ e_gantt d /\ r ∈ e_rows d /\ e_node r = n /\ e_id r ∈ l_res p /\ l_start p = s.
(** A resource that may be switched off: available until some date, which is not the greatest. *)
Definition switchable (r : resource) : Prop :=
  e_state r = "Alive"%string /\ e_node r <> EmptyString /\ e_type r = "default"%string /\ 0 < e_upto r < 2147483647.
Lemma can_halt_switchable r : can_halt r <-> switchable r.
Proof. unfold can_halt, switchable, never_halt. tauto. Qed.
Definition may_sleep (d : edb) (now it st : Z) (n : string) : Prop :=
  (exists r, r ∈ e_rows d /\ switchable r /\ e_node r = n) /\
  (forall s, planned_on d n s -> now + st < s) /\
  (forall r, r ∈ e_rows d -> switchable r -> e_node r = n -> e_last r < now - it) /\
  (forall w, (n, w) ∈ e_wakes d -> w < now - it).
Lemma next_job_spec d n : match next_job d n with None => forall s, ~ planned_on d n s
  | Some m => planned_on d n m /\ forall s, planned_on d n s -> m <= s end.
Proof.
  unfold next_job. assert (H : forall s, s ∈ l_start <$> base.filter (fun p => on_node d n p = true) (e_gantt d) <-> planned_on d n s).
  { intros s. rewrite elem_of_list_fmap. split.
    - intros (p & -> & Hp). apply elem_of_list_filter in Hp as [Ho Hp]. unfold on_node in Ho. apply existsb_exists in Ho as (r & Hr & Ho).
      apply elem_of_list_In in Hr. apply andb_true_iff in Ho as [H1 H2]. apply bool_decide_eq_true in H1, H2. exists p, r. done.
    - intros (p & r & Hp & Hr & H1 & H2 & <-). exists p. split; [done|]. apply elem_of_list_filter. split; [|done].
      apply existsb_exists. exists r. split; [by apply elem_of_list_In|]. rewrite !bool_decide_eq_true_2 by done. done. }
  pose proof (list_min_spec (l_start <$> base.filter (fun p => on_node d n p = true) (e_gantt d))) as Hm. destruct (list_min _) as [m|].
  - destruct Hm as [H1 H2]. split; [by apply H|]. intros s Hs. apply H2. by apply H.
  - intros s Hs. apply H in Hs. rewrite Hm in Hs. by apply elem_of_nil in Hs.
Qed.
Lemma last_wake_spec d n : match last_wake d n with None => forall w, (n, w) ∉ e_wakes d
  | Some m => (n, m) ∈ e_wakes d /\ forall w, (n, w) ∈ e_wakes d -> w <= m end.
Proof.
  unfold last_wake. assert (H : forall w, w ∈ snd <$> base.filter (fun x => fst x = n) (e_wakes d) <-> (n, w) ∈ e_wakes d).
  { intros w. rewrite elem_of_list_fmap. split.
    - intros ([a b] & -> & Hp). apply elem_of_list_filter in Hp as [Ho Hp]. cbn in Ho. subst a. done.
    - intros Hw. exists (n, w). split; [done|]. by apply elem_of_list_filter. }
  pose proof (list_max_spec (snd <$> base.filter (fun x => fst x = n) (e_wakes d))) as Hm. destruct (list_max _) as [m|].
  - destruct Hm as [H1 H2]. split; [by apply H|]. intros s Hs. apply H2. by apply H.
  - intros s Hs. apply H in Hs. rewrite Hm in Hs. by apply elem_of_nil in Hs.
Qed.
Lemma idle_nodes_spec d date n m : (n, m) ∈ idle_nodes d date <->
  (exists r, r ∈ e_rows d /\ can_halt r /\ e_node r = n) /\ n ∉ busy_nodes d date /\
  list_max (e_last <$> base.filter (fun r => e_node r = n) (base.filter can_halt (e_rows d))) = Some m.
Proof.
  unfold idle_nodes. rewrite elem_of_list_omap. split.
  - intros (n' & Hn' & H). destruct (list_max _) as [m'|] eqn:E; [|done]. case_bool_decide as Hb; [done|]. injection H as -> ->.
    split; [|done]. unfold uniq in Hn'. apply elem_of_remove_dups, elem_of_list_fmap in Hn' as (r & -> & Hr).
    apply elem_of_list_filter in Hr as [? ?]. eauto.
  - intros ((r & Hr & Hc & Hn) & Hb & E). exists n. split.
    + unfold uniq. apply elem_of_remove_dups, elem_of_list_fmap. exists r. split; [done|]. by apply elem_of_list_filter.
    + rewrite E. by rewrite bool_decide_eq_false_2 by done.
Qed.
Theorem C109_sleep : forall c d now it st n, idle_time c = Some it -> sleep_time c = Some st -> 0 <= st ->
  sched_sleep_cmd c || (internal c && es_sleep_cmd c) = true ->
  n ∈ fst (nodes_energy_saving c d now) <-> may_sleep d now it st n.
Proof.
  intros c d now it st n Hit Hst Hpos Hcmd. unfold nodes_energy_saving. rewrite Hit, Hst, Hcmd. cbn [fst]. cbv zeta. rewrite elem_of_list_fmap. split.
  - intros ([n' m] & -> & H). apply elem_of_list_filter in H as [H Hi]. cbn [fst snd] in *. apply idle_nodes_spec in Hi as (Hr & Hb & Hm).
    apply andb_true_iff in H as [H H3]. apply andb_true_iff in H as [H1 H2]. apply Z.ltb_lt in H1.
    split; [destruct Hr as (r & H4 & H5%can_halt_switchable & H6); by exists r|]. split; [|split].
    + intros s Hs. pose proof (next_job_spec d n') as Hn. destruct (next_job d n') as [s0|]; [|by apply Hn in Hs].
      apply Z.ltb_lt in H2. apply Hn in Hs. lia.
    + intros r Hin Hc%can_halt_switchable Hn. pose proof (list_max_spec (e_last <$> base.filter (fun r => e_node r = n') (base.filter can_halt (e_rows d)))) as Hx.
      rewrite Hm in Hx. destruct Hx as [_ Hx]. assert (e_last r <= m); [|lia]. apply Hx. apply elem_of_list_fmap. exists r. split; [done|].
      apply elem_of_list_filter. split; [done|]. by apply elem_of_list_filter.
    + intros w Hw. pose proof (last_wake_spec d n') as Hn. destruct (last_wake d n') as [w0|]; [|by apply Hn in Hw].
      apply Z.ltb_lt in H3. apply Hn in Hw. lia.
  - intros (Hr & Hs & Hl & Hw).
    assert (Hr' : exists r, r ∈ e_rows d /\ can_halt r /\ e_node r = n) by (destruct Hr as (r & H4 & H5%can_halt_switchable & H6); by exists r). clear Hr. rename Hr' into Hr.
    destruct (list_max (e_last <$> base.filter (fun r => e_node r = n) (base.filter can_halt (e_rows d)))) as [m|] eqn:Em.
    2: { exfalso. destruct Hr as (r & Hr & Hc & Hn). pose proof (list_max_spec (e_last <$> base.filter (fun r => e_node r = n) (base.filter can_halt (e_rows d)))) as Hx.
      rewrite Em in Hx. apply fmap_nil_inv in Hx. assert (Hin : r ∈ base.filter (fun r => e_node r = n) (base.filter can_halt (e_rows d))).
      { apply elem_of_list_filter. split; [done|]. by apply elem_of_list_filter. }
      rewrite Hx in Hin. by apply elem_of_nil in Hin. }
    exists (n, m). split; [done|]. apply elem_of_list_filter. split.
    + cbn [fst snd]. rewrite !andb_true_iff. split; [split|].
      * apply Z.ltb_lt. pose proof (list_max_spec (e_last <$> base.filter (fun r => e_node r = n) (base.filter can_halt (e_rows d)))) as Hx.
        rewrite Em in Hx. destruct Hx as [Hx _]. apply elem_of_list_fmap in Hx as (r & -> & Hin). apply elem_of_list_filter in Hin as [H1 Hin].
        apply elem_of_list_filter in Hin as [H2%can_halt_switchable H3]. by apply Hl.
      * pose proof (next_job_spec d n) as Hn. destruct (next_job d n) as [s0|]; [|done]. destruct Hn as [Hn _]. apply Hs in Hn. lia.
      * pose proof (last_wake_spec d n) as Hn. destruct (last_wake d n) as [w0|]; [|done]. destruct Hn as [Hn _]. apply Hw in Hn. lia.
    + apply idle_nodes_spec. split; [done|]. split; [|done]. intros Hb. unfold busy_nodes in Hb. apply elem_of_list_bind in Hb as (p & Hb & Hp).
      apply elem_of_list_fmap in Hb as (r & Hn & Hb). apply elem_of_list_filter in Hp as [Hp1 Hp2]. apply elem_of_list_filter in Hb as [(Hb1 & _ & _) Hb2].
      specialize (Hs (l_start p)). assert (now + st < l_start p); [|lia]. apply Hs. by exists p, r.
Qed.
Theorem C109_only_if_configured : forall c d now n, n ∈ fst (nodes_energy_saving c d now) ->
  sched_sleep_cmd c || (internal c && es_sleep_cmd c) = true /\ idle_time c <> None /\ sleep_time c <> None.
Proof.
  intros c d now n. unfold nodes_energy_saving. cbn [fst]. destruct (idle_time c), (sleep_time c); try (intros H; by apply elem_of_nil in H).
  destruct (_ || _); [done|]. intros H. by apply elem_of_nil in H.
Qed.
(** A resource that is never to be switched off (available_upto at its maximum) is, if another resource of its node
    may be. *)
Definition all_on : econf := mkEconf true true false false false (Some 600) (Some 300) 60.
Theorem C109_always_on_refuted : exists c d now r, r ∈ e_rows d /\ e_state r = "Alive"%string /\ e_upto r = 2147483647 /\
  e_node r ∈ fst (nodes_energy_saving c d now).
Proof.
  exists all_on, (mkEdb [mkRes 1 "n1" "Alive" "default" never_halt 0; mkRes 2 "n1" "Alive" "default" 100000 0] [] []), 10000,
    (mkRes 1 "n1" "Alive" "default" never_halt 0).
  split; [left|]. split; [done|]. split; [done|]. by_dec.
Qed.
Definition small_edb : edb :=
  mkEdb [mkRes 1 "n1" "Alive" "default" 100000 0; mkRes 2 "n2" "Alive" "default" 100000 0; mkRes 3 "n3" "Absent" "default" 100000 0;
         mkRes 4 "n4" "Alive" "default" 100000 9900]
        [mkPlan 10100 [2] 3600 "Waiting"; mkPlan 10050 [3] 3600 "Waiting"] [("n5"%string, 5)].
Example C109_example : nodes_energy_saving all_on small_edb 10000 = (["n1"], ["n3"])%string.
Proof. vm_compute. reflexivity. Qed.

(** ** C110: which nodes are woken up *)
Theorem C110_wake : forall c d now n, sched_sleep_cmd c || (internal c && es_wake_cmd c) = true ->
  n ∈ snd (nodes_energy_saving c d now) <->
  exists p r, p ∈ e_gantt d /\ r ∈ e_rows d /\ e_node r = n /\ e_id r ∈ l_res p /\ l_state p = "Waiting"%string /\
    l_start p <= now + wakeup_time c /\ e_state r = "Absent"%string /\ e_type r = "default"%string /\ n <> EmptyString /\
    l_start p + l_wall p <= e_upto r.
Proof.
  intros c d now n Hc. unfold nodes_energy_saving. cbn [snd]. rewrite Hc. unfold to_wake, uniq. rewrite elem_of_remove_dups, elem_of_list_bind. split.
  - intros (p & H & Hp). apply elem_of_list_filter in Hp as [[H1 H2] Hp]. apply elem_of_list_fmap in H as (r & -> & Hr).
    apply elem_of_list_filter in Hr as [(H3 & H4 & H5 & H6 & H7) Hr]. by exists p, r.
  - intros (p & r & Hp & Hr & <- & H1 & H2 & H3 & H4 & H5 & H6 & H7). exists p. split.
    + apply elem_of_list_fmap. exists r. split; [done|]. by apply elem_of_list_filter.
    + by apply elem_of_list_filter.
Qed.
(** The same node is never both halted and woken up, when the time to wake up is at most the time to sleep. *)
Theorem C110_not_both_partial : forall c d now it st n, idle_time c = Some it -> sleep_time c = Some st -> 0 <= st -> wakeup_time c <= st ->
  n ∈ fst (nodes_energy_saving c d now) -> n ∉ snd (nodes_energy_saving c d now).
Proof.
  intros c d now it st n Hit Hst Hpos Hle Hh Hw. pose proof (C109_only_if_configured c d now n Hh) as [Hcmd _].
  apply (C109_sleep c d now it st n Hit Hst Hpos Hcmd) in Hh as (_ & Hs & _).
  destruct (sched_sleep_cmd c || (internal c && es_wake_cmd c)) eqn:E.
  - apply (C110_wake c d now n E) in Hw as (p & r & Hp & Hr & Hn & Hi & _ & Hl & _). specialize (Hs (l_start p)).
    assert (now + st < l_start p); [|lia]. apply Hs. by exists p, r.
  - unfold nodes_energy_saving in Hw. cbn [snd] in Hw. rewrite E in Hw. by apply elem_of_nil in Hw.
Qed.
Theorem C110_both_refuted : exists c d now n, n ∈ fst (nodes_energy_saving c d now) /\ n ∈ snd (nodes_energy_saving c d now).
Proof.
  exists (mkEconf true true false false false (Some 600) (Some 60) 900),
    (mkEdb [mkRes 1 "n1" "Alive" "default" 100000 0; mkRes 2 "n1" "Absent" "default" 100000 0] [mkPlan 10500 [2] 3600 "Waiting"] []), 10000, "n1"%string.
  split; by_dec.
Qed.
(** With a wake-up command but no sleep command for the nodes, no node is ever woken up: the wrong option is tested. *)
Theorem C110_wake_command_refuted : forall c d now, sched_wake_cmd c = true -> sched_sleep_cmd c = false -> internal c = false ->
  snd (nodes_energy_saving c d now) = [].
Proof. intros c d now _ H1 H2. unfold nodes_energy_saving. cbn [snd]. by rewrite H1, H2. Qed.

(** ** Greta: executions *)
(** States reached from the first one, by cycles that succeed and by restarts. *)
Inductive reach (c : gconf) : greta -> Prop :=
| r_start : reach c start
| r_cycle g st cmd nodes v g' o : reach c g -> cycle c g st cmd nodes v = Ok (inr (g', o)) -> reach c g'
| r_restart g : reach c g -> reach c (restart g).
Lemma reach_Inv c g : reach c g -> Inv g.
Proof. induction 1 as [|g st cmd nodes v g' o _ IH E|g _ IH]; [apply Inv_start|by eapply f_inv, cycle_spec|by apply Inv_restart]. Qed.
(** A sequence of cycles whose views satisfy [P], with the commands launched, in order. *)
Inductive steps (c : gconf) (P : list string -> view -> Prop) : greta -> list (string * string) -> greta -> Prop :=
| s_refl g : steps c P g [] g
| s_cycle g st cmd nodes v g1 o cs g2 : P nodes v -> cycle c g st cmd nodes v = Ok (inr (g1, o)) -> steps c P g1 cs g2 -> steps c P g (o_cmds o ++ cs) g2
| s_restart g cs g2 : steps c P (restart g) cs g2 -> steps c P g cs g2.

(** A computation that gives a list of (commands, changes) for a list of inputs. *)
Fixpoint run_cycles (c : gconf) (g : greta) (l : list ((nat -> option Z) * string * list string * view)) : option (greta * list outcome) :=
  match l with
  | [] => Some (g, [])
  | (st, cmd, nodes, v) :: l' =>
      match cycle c g st cmd nodes v with
      | Ok (inr (g', o)) => match run_cycles c g' l' with Some (g2, os) => Some (g2, o :: os) | None => None end
      | _ => None
      end
  end.
Lemma run_cycles_reach c : forall l g g' os, reach c g -> run_cycles c g l = Some (g', os) -> reach c g'.
Proof.
  induction l as [|[[[st cmd] nodes] v] l IH]; intros g g' os Hg E; cbn [run_cycles] in E; [by injection E as <- <-|].
  destruct (cycle c g st cmd nodes v) as [[ch|[g1 o]]|e] eqn:E1; [done| |done]. destruct (run_cycles c g1 l) as [[g2 os2]|] eqn:E2; [|done].
  injection E as <- <-. eapply IH; [|exact E2]. by eapply r_cycle.
Qed.

(** A node that is up. *)
Definition up (v : view) (n : string) : Prop := exists r, r ∈ v_rows v /\ n_node r = n /\ n_state r = "Alive"%string.
Lemma up_alive v n : up v n <-> n ∈ alive_nodes v.
Proof.
  unfold up, alive_nodes. rewrite elem_of_list_fmap. split.
  - intros (r & Hr & <- & Ha). exists r. split; [done|]. by apply elem_of_list_filter.
  - intros (r & -> & Hr). apply elem_of_list_filter in Hr as [? ?]. by exists r.
Qed.

(** ** C111: the minimum number of idle nodes *)
(** The nodes of a property that are up, or about to be, and have no job. *)
Definition idle_of (v : view) (p : string) : list string :=
  remove_dups (n_node <$> base.filter (fun r => v_sel v p r = true /\ (n_state r = "Alive"%string \/ n_next r = "Alive"%string) /\ n_node r ∉ v_busy v) (v_rows v)).
Definition uniform (v : view) : Prop := forall r r', r ∈ v_rows v -> r' ∈ v_rows v -> n_node r = n_node r' -> n_state r = n_state r' /\ n_next r = n_next r'.
Lemma elem_of_triples v p x : x ∈ triples v p <-> exists r, r ∈ v_rows v /\ v_sel v p r = true /\ x = (n_node r, n_state r, n_next r).
Proof.
  unfold triples. rewrite elem_of_remove_dups, elem_of_list_fmap. split.
  - intros (r & -> & Hr). apply elem_of_list_filter in Hr as [? ?]. eauto.
  - intros (r & Hr & Hs & ->). exists r. split; [done|]. by apply elem_of_list_filter.
Qed.
Lemma elem_of_idle_of v p n : n ∈ idle_of v p <-> exists r, r ∈ v_rows v /\ v_sel v p r = true /\ n_node r = n /\
  (n_state r = "Alive"%string \/ n_next r = "Alive"%string) /\ n ∉ v_busy v.
Proof.
  unfold idle_of. rewrite elem_of_remove_dups, elem_of_list_fmap. split.
  - intros (r & -> & Hr). apply elem_of_list_filter in Hr as [(? & ? & ?) ?]. by exists r.
  - intros (r & Hr & Hs & <- & Ha & Hb). exists r. split; [done|]. by apply elem_of_list_filter.
Qed.
Lemma alive3_spec x : alive3 x = true <-> snd (fst x) = "Alive"%string \/ snd x = "Alive"%string.
Proof. unfold alive3. rewrite orb_true_iff, !bool_decide_eq_true. done. Qed.
Lemma map_NoDup_on {A B} (f : A -> B) (l : list A) : NoDup l -> (forall x y, x ∈ l -> y ∈ l -> f x = f y -> x = y) -> NoDup (map f l).
Proof.
  induction l as [|x l IH]; intros Hn Hi; [constructor|]. apply NoDup_cons in Hn as [H1 H2]. cbn [map]. apply NoDup_cons. split.
  - intros Hc. apply elem_of_list_fmap in Hc as (y & Hy & Hin). apply H1. rewrite (Hi x y); [done|left|by right|done].
  - apply IH; [done|]. intros a b Ha Hb. apply Hi; by right.
Qed.
Lemma keep_idle v pm : uniform v -> k_idle (fst (keep_one v [] pm [])) = Z.of_nat (length (idle_of v (fst pm))).
Proof.
  intros Hu. unfold keep_one. cbn [fst k_idle]. f_equal. apply Permutation_length. apply NoDup_Permutation.
  - apply NoDup_filter. apply map_NoDup_on; [apply NoDup_filter, NoDup_remove_dups|].
    intros [[a b] x] [[a' b'] x'] Hx Hy Heq. cbn in Heq. subst a'. apply elem_of_list_filter in Hx as [_ Hx]. apply elem_of_list_filter in Hy as [_ Hy].
    apply elem_of_triples in Hx as (r & Hr & _ & Hx). apply elem_of_triples in Hy as (r' & Hr' & _ & Hy). injection Hx as -> -> ->. injection Hy as Hn -> ->.
    destruct (Hu r r' Hr Hr' Hn) as [-> ->]. done.
  - apply NoDup_remove_dups.
  - intros n. rewrite elem_of_list_filter, elem_of_idle_of. split.
    + intros [Hb Hn]. apply elem_of_list_fmap in Hn as (x & -> & Hx). apply elem_of_list_filter in Hx as [Ha Hx].
      apply elem_of_triples in Hx as (r & Hr & Hs & ->). apply alive3_spec in Ha. cbn in *. by exists r.
    + intros (r & Hr & Hs & <- & Ha & Hb). split; [done|]. apply elem_of_list_fmap. exists (n_node r, n_state r, n_next r). split; [done|].
      apply elem_of_list_filter. split; [by apply alive3_spec|]. apply elem_of_triples. eauto.
Qed.
Lemma elem_of_keep_nodes v pm n : n ∈ k_nodes (fst (keep_one v [] pm [])) <-> exists r, r ∈ v_rows v /\ v_sel v (fst pm) r = true /\ n_node r = n.
Proof.
  unfold keep_one. cbn [fst k_nodes]. split.
  - intros H. apply elem_of_list_fmap in H as (x & -> & Hx). apply elem_of_triples in Hx as (r & Hr & Hs & ->). by exists r.
  - intros (r & Hr & Hs & <-). apply elem_of_list_fmap. exists (n_node r, n_state r, n_next r). split; [done|]. apply elem_of_triples. eauto.
Qed.
Lemma filter_split_length {A} (P : A -> Prop) {Pdec : forall x, Decision (P x)} (l : list A) :
  (length (base.filter P l) + length (base.filter (fun x => ~ P x) l) = length l)%nat.
Proof. induction l as [|x l IH]; [done|]. rewrite !filter_cons. destruct (decide (P x)), (decide (~ P x)); try done; cbn [length]; lia. Qed.
Theorem C111_keepalive_partial : forall c g st cmd nodes v g' o p m, reach c g -> cycle c g st cmd nodes v = Ok (inr (g', o)) ->
  (p, m) ∈ g_keep c -> uniform v ->
  Z.min m (Z.of_nat (length (idle_of v p))) <=
  Z.of_nat (length (base.filter (fun n => ("HALT"%string, n) ∉ o_cmds o) (idle_of v p))).
Proof.
  intros c g st cmd nodes v g' o p m Hg E Hp Hu. pose proof (cycle_spec _ _ _ _ _ _ _ _ (reach_Inv _ _ Hg) E) as F.
  pose proof (f_keep _ _ _ _ _ _ _ _ F p m Hp) as Hk. cbv zeta in Hk. rewrite keep_idle in Hk by done. cbn [fst] in Hk.
  pose proof (filter_split_length (fun n => ("HALT"%string, n) ∉ o_cmds o) (idle_of v p)) as Hs.
  assert (Hle : (length (base.filter (fun n : string => ~ (("HALT"%string, n) ∉ o_cmds o)) (idle_of v p)) <=
                 length (map snd (halts (k_nodes (fst (keep_one v [] (p, m) []))) (o_cmds o))))%nat).
  { apply submseteq_length. apply NoDup_submseteq; [apply NoDup_filter, NoDup_remove_dups|]. intros n Hn. apply elem_of_list_filter in Hn as [H1 H2].
    apply dec_stable in H1. apply elem_of_list_fmap. exists ("HALT"%string, n). split; [done|]. unfold halts. apply elem_of_list_filter. split; [|done]. split; [done|].
    cbn [snd]. apply elem_of_keep_nodes. apply elem_of_idle_of in H2 as (r & Hr & Hsel & Hn & _). by exists r. }
  rewrite map_length in Hle. lia.
Qed.
Definition none : nat -> option Z := fun _ => None.
Definition cmds_of (r : option (greta * list outcome)) : list (list (string * string)) := match r with Some (_, os) => map o_cmds os | None => [] end.
(** Down nodes of the property that may be woken up. *)
Definition sleeping (v : view) (p n : string) : Prop :=
  (exists r, r ∈ v_rows v /\ n_node r = n /\ v_sel v p r = true) /\
  (forall r, r ∈ v_rows v -> n_node r = n -> v_sel v p r = true -> n_state r <> "Alive"%string /\ n_next r <> "Alive"%string) /\
  exists r, r ∈ v_rows v /\ n_node r = n /\ n_state r = "Absent"%string /\ v_now v < n_upto r.
Lemma sleeping_wakeable v p n : sleeping v p n <-> n ∈ wakeable_of v p /\ n ∈ can_wake v.
Proof.
  unfold sleeping, wakeable_of, can_wake, uniq. cbv zeta. rewrite elem_of_list_filter, elem_of_remove_dups, elem_of_list_fmap.
  assert (Ha : (n ∉ base.filter (fun n => n ∈ v_busy v) (map (fun x => fst (fst x)) (base.filter (fun x => alive3 x = true) (triples v p))) /\
    n ∉ base.filter (fun n => n ∉ v_busy v) (map (fun x => fst (fst x)) (base.filter (fun x => alive3 x = true) (triples v p)))) <->
    forall r, r ∈ v_rows v -> n_node r = n -> v_sel v p r = true -> n_state r <> "Alive"%string /\ n_next r <> "Alive"%string).
  { rewrite !elem_of_list_filter. assert (Hx : n ∈ map (fun x => fst (fst x)) (base.filter (fun x => alive3 x = true) (triples v p)) <->
      exists r, r ∈ v_rows v /\ n_node r = n /\ v_sel v p r = true /\ (n_state r = "Alive"%string \/ n_next r = "Alive"%string)).
    { split.
      - intros H. apply elem_of_list_fmap in H as (x & -> & H). apply elem_of_list_filter in H as [H1 H2]. apply alive3_spec in H1.
        apply elem_of_triples in H2 as (r & Hr & Hs & ->). by exists r.
      - intros (r & Hr & <- & Hs & H). apply elem_of_list_fmap. exists (n_node r, n_state r, n_next r). split; [done|]. apply elem_of_list_filter.
        split; [by apply alive3_spec|]. apply elem_of_triples. eauto. }
    split.
    - intros [H1 H2] r Hr Hn Hs. destruct (decide (n ∈ v_busy v)) as [Hb|Hb].
      + split; intros H; apply H1; (split; [done|]); apply Hx; exists r; auto.
      + split; intros H; apply H2; (split; [done|]); apply Hx; exists r; auto.
    - intros H. split; intros [_ (r & Hr & Hn & Hs & [Hc|Hc])%Hx]; destruct (H r Hr Hn Hs); done. }
  rewrite Ha. split.
  - intros ((r & Hr & Hn & Hs) & H2 & (r2 & Hr2 & Hn2 & H3 & H4)). split; [split; [done|]|].
    + apply elem_of_list_fmap. exists (n_node r, n_state r, n_next r). split; [done|]. apply elem_of_triples. eauto.
    + exists r2. split; [done|]. by apply elem_of_list_filter.
  - intros [[H2 H1] (r2 & -> & Hr2)]. apply elem_of_list_filter in Hr2 as [[H3 H4] Hr2]. split; [|split; [done|by exists r2]].
    apply elem_of_list_fmap in H1 as (x & Hn & Hx). apply elem_of_triples in Hx as (r & Hr & Hs & ->). by exists r.
Qed.
(** If a sleeping node of the property is left alone, enough nodes are idle or on their way: [w] of them are sleeping
    and have a command in progress or to come, or are woken up in this cycle. *)
Theorem C111_wakes_partial : forall c g st cmd nodes v g' o p m n, reach c g -> cycle c g st cmd nodes v = Ok (inr (g', o)) ->
  (p, m) ∈ g_keep c -> uniform v -> sleeping v p n ->
  n ∉ map fst (running g) -> n ∉ map fst (remind g) -> n ∉ nodes -> ("WAKEUP"%string, n) ∉ o_cmds o ->
  exists w, NoDup w /\ m <= Z.of_nat (length (idle_of v p)) + Z.of_nat (length w) /\
    forall x, x ∈ w -> sleeping v p x /\ (x ∈ map fst (running g) \/ x ∈ map fst (remind g) \/ x ∈ nodes \/ ("WAKEUP"%string, x) ∈ o_cmds o).
Proof.
  intros c g st cmd nodes v g' o p m n Hg E Hp Hu Hn H1 H2 H3 H4. pose proof (cycle_spec _ _ _ _ _ _ _ _ (reach_Inv _ _ Hg) E) as F.
  destruct (f_kw _ _ _ _ _ _ _ _ F p m Hp) as (l1 & l2 & El & Hw & Hc). rewrite keep_idle in Hc by done. cbn [fst] in Hc.
  apply sleeping_wakeable in Hn as [Hn1 Hn2]. rewrite El in Hn1. destruct Hc as [->|Hc].
  - exfalso. rewrite app_nil_r in Hn1. destruct (Hw n Hn1 Hn2) as [?|[?|[?|?]]]; done.
  - assert (Hnd : NoDup (wakeable_of v p)).
    { unfold wakeable_of. cbv zeta. apply NoDup_filter. apply map_NoDup_on; [apply NoDup_remove_dups|].
      intros [[a b] x] [[a' b'] x'] Hx Hy Heq. cbn in Heq. subst a'.
      apply elem_of_triples in Hx as (r & Hr & _ & Hx). apply elem_of_triples in Hy as (r' & Hr' & _ & Hy). injection Hx as -> -> ->. injection Hy as Hnn -> ->.
      destruct (Hu r r' Hr Hr' Hnn) as [-> ->]. done. }
    exists (base.filter (fun x => x ∈ can_wake v) l1). split; [apply NoDup_filter; rewrite El in Hnd; by apply NoDup_app in Hnd as [? _]|]. split; [done|].
    intros x Hx. apply elem_of_list_filter in Hx as [Hx1 Hx2]. split; [|by apply Hw]. apply sleeping_wakeable. split; [|done]. rewrite El. apply elem_of_app. by left.
Qed.
(** No node is woken up without a reason. *)
Theorem C111_wakes_only : forall c g st cmd nodes v g' o n, reach c g -> cycle c g st cmd nodes v = Ok (inr (g', o)) ->
  ("WAKEUP"%string, n) ∈ o_cmds o -> uniform v ->
  (cmd = "WAKEUP"%string /\ n ∈ nodes) \/ (exists t, dfind n (remind g) = Some ("WAKEUP"%string, t)) \/
  exists p m, (p, m) ∈ g_keep c /\ Z.of_nat (length (idle_of v p)) < m /\ sleeping v p n.
Proof.
  intros c g st cmd nodes v g' o n Hg E Hn Hu. pose proof (cycle_spec _ _ _ _ _ _ _ _ (reach_Inv _ _ Hg) E) as F.
  destruct (f_kwonly _ _ _ _ _ _ _ _ F n Hn) as [?|[?|(p & m & Hp & Hi & Hw)]]; [by left|right; by left|]. right. right. exists p, m. split; [done|].
  rewrite keep_idle in Hi by done. split; [done|]. by apply sleeping_wakeable.
Qed.
Definition asleep : view := mkView [mkNrow "n1" "Alive" "UnChanged" 100000; mkNrow "n2" "Absent" "UnChanged" 100000; mkNrow "n3" "Absent" "UnChanged" 100000] [] (fun _ _ => true) 1000.
Example C111_wakes_example : cmds_of (run_cycles (mkGconf [(1, 900)] [("true"%string, 2)] 60) start [(none, "CHECK"%string, [], asleep)]) = [[("WAKEUP", "n2")]]%string.
Proof. vm_compute. reflexivity. Qed.
(** Without the hypothesis on the rows: a node whose resources have two different next states counts twice. *)
Definition one_state : view := mkView [mkNrow "n1" "Alive" "UnChanged" 100000; mkNrow "n2" "Alive" "UnChanged" 100000] [] (fun _ _ => true) 1000.
Definition two_states : view := mkView [mkNrow "n1" "Alive" "UnChanged" 100000; mkNrow "n1" "Alive" "Suspected" 100000] [] (fun _ _ => true) 1000.
Definition keep1 : gconf := mkGconf [(1, 900)] [("true"%string, 1)] 60.
Example C111_example : cmds_of (run_cycles keep1 start [(none, "HALT"%string, ["n1"; "n2"]%string, one_state)]) = [[("HALT", "n1")]]%string.
Proof. vm_compute. reflexivity. Qed.
Lemma one_state_uniform : uniform one_state.
Proof.
  intros r r' Hr Hr' _. cbn [one_state v_rows] in *.
  repeat (apply elem_of_cons in Hr as [->|Hr]; [|]); try by apply elem_of_nil in Hr.
  all: repeat (apply elem_of_cons in Hr' as [->|Hr']; [done|]); by apply elem_of_nil in Hr'.
Qed.
Theorem C111_refuted : exists c st cmd nodes v g' o p m, cycle c start st cmd nodes v = Ok (inr (g', o)) /\ (p, m) ∈ g_keep c /\
  m = 1 /\ idle_of v p = ["n1"%string] /\ ("HALT"%string, "n1"%string) ∈ o_cmds o.
Proof.
  set (r := cycle keep1 start none "HALT" ["n1"%string] two_states).
  assert (H : exists g' o, r = Ok (inr (g', o)) /\ o_cmds o = [("HALT", "n1")]%string).
  { assert (Hb : match r with Ok (inr (_, o)) => bool_decide (o_cmds o = [("HALT", "n1")]%string) | _ => false end = true) by (vm_compute; reflexivity).
    destruct r as [[ch|[g' o]]|e]; [done| |done]. exists g', o. split; [done|]. by apply bool_decide_eq_true in Hb. }
  destruct H as (g' & o & E & Ho). exists keep1, none, "HALT"%string, ["n1"%string], two_states, g', o, "true"%string, 1.
  split; [exact E|]. split; [left|]. split; [done|]. split; [vm_compute; reflexivity|]. rewrite Ho. left.
Qed.

(** ** C112: one command at a time on a node *)
Theorem C112_one_at_a_time : forall c g st cmd nodes v g' o, reach c g -> cycle c g st cmd nodes v = Ok (inr (g', o)) ->
  NoDup (map snd (o_cmds o)) /\
  forall k n, (k, n) ∈ o_cmds o -> (k = "HALT"%string \/ k = "WAKEUP"%string) /\
    forall j t, execs g !! j = Some (n, "HALT"%string, t) -> st j = None -> g_window c < v_now v - t.
Proof.
  intros c g st cmd nodes v g' o Hg E. pose proof (cycle_spec _ _ _ _ _ _ _ _ (reach_Inv _ _ Hg) E) as F.
  split; [by eapply f_once|]. intros k n Hk. split; [by eapply f_kind|]. intros j t Hj Hs. by eapply f_busy.
Qed.
Lemma timeout_loop_in m n : forall ks acc, (forall k, k ∈ ks -> exists t, zfind k m = Some t) ->
  timeout_loop m n ks acc = acc \/ exists k, k ∈ ks /\ zfind k m = Some (timeout_loop m n ks acc).
Proof.
  induction ks as [|k ks IH]; intros acc H; cbn [timeout_loop]; [by left|]. destruct (n <? k); [by left|].
  destruct (H k ltac:(left)) as [t Ht]. rewrite Ht. cbn [default from_option id]. destruct (IH t) as [->|(k' & Hk & E)].
  - intros k' Hk'. apply H. by right.
  - right. exists k. split; [left|exact Ht].
  - right. exists k'. split; [by right|exact E].
Qed.
Lemma elem_of_insert_z x y l : x ∈ insert_z y l <-> x = y \/ x ∈ l.
Proof.
  induction l as [|z l IH]; cbn [insert_z]; [by rewrite elem_of_list_singleton, elem_of_nil; tauto|]. destruct (y <=? z); [by rewrite elem_of_cons|].
  rewrite !elem_of_cons, IH. tauto.
Qed.
Lemma elem_of_sorted x l : x ∈ foldr insert_z [] l <-> x ∈ l.
Proof. induction l as [|y l IH]; [done|]. cbn [foldr]. rewrite elem_of_insert_z, IH, elem_of_cons. done. Qed.
Lemma zfind_key k (m : list (Z * Z)) : k ∈ map fst m <-> exists t, zfind k m = Some t.
Proof.
  induction m as [|[a b] m IH]; cbn [zfind map fst]; [split; [intros H; by apply elem_of_nil in H|by intros [t H]]|]. rewrite elem_of_cons.
  destruct (Z.eqb_spec a k) as [->|Hn]; [split; [eauto|by left]|]. rewrite <- IH. split; [intros [->|?]; [done|done]|by right].
Qed.
Lemma zfind_value k t (m : list (Z * Z)) : zfind k m = Some t -> (k, t) ∈ m.
Proof.
  induction m as [|[a b] m IH]; cbn [zfind]; [done|]. destruct (Z.eqb_spec a k) as [->|Hn]; [intros [= ->]; left|]. intros H. right. by apply IH.
Qed.
Lemma get_timeout_value m n t : get_timeout m n = Ok t -> t ∈ map snd m.
Proof.
  unfold get_timeout. destruct (zfind 1 m) as [t1|] eqn:E; [|done]. intros [= <-].
  destruct (timeout_loop_in m n (foldr insert_z [] (map fst m)) t1) as [->|(k & _ & Hk)].
  - intros k Hk. apply (proj1 (elem_of_sorted _ _)) in Hk. exact (proj1 (zfind_key _ _) Hk).
  - change t1 with (snd (1, t1)). apply elem_of_list_fmap_1. by apply zfind_value.
  - match type of Hk with _ = Some ?x => change x with (snd (k, x)) end. apply elem_of_list_fmap_1. by apply zfind_value.
Qed.
(** After a WAKEUP, as long as the node is not up and the timeout is not over, nothing is launched on the node. *)
Theorem C112_while_booting : forall c g st cmd nodes v g' o n, reach c g -> cycle c g st cmd nodes v = Ok (inr (g', o)) ->
  ("WAKEUP"%string, n) ∈ o_cmds o ->
  exists d, d ∈ map snd (g_timeouts c) /\
    forall cs g2, steps c (fun _ v2 => ~ up v2 n /\ v_now v2 <= v_now v + d) g' cs g2 -> n ∉ map snd cs.
Proof.
  intros c g st cmd nodes v g' o n Hg E Hn. pose proof (cycle_spec _ _ _ _ _ _ _ _ (reach_Inv _ _ Hg) E) as F.
  destruct (f_wake _ _ _ _ _ _ _ _ F n Hn) as (d0 & Hd & Hr). destruct (get_timeout (g_timeouts c) d0) as [d|e] eqn:Ed.
  2: { unfold get_timeout in Ed. destruct (zfind 1 _); [done|]. by injection Ed as <-. }
  exists d. split; [by eapply get_timeout_value|]. cbn [from_ok] in Hr. set (lim := v_now v + d) in *. clearbody lim.
  assert (Hh : n ∉ halting (execs g')).
  { intros Hc. destruct (i_link _ (f_inv _ _ _ _ _ _ _ _ F) _ Hc) as [t Ht]. congruence. }
  pose proof (f_inv _ _ _ _ _ _ _ _ F) as HI. clear -Hr Hh HI. intros cs g2 Hs. revert HI Hr Hh.
  induction Hs as [g|g st cmd nodes v2 g1 o2 cs g2 [Ha Ht] E2 Hs IH|g cs g2 Hs IH]; intros HI Hr Hh.
  - cbn. apply not_elem_of_nil.
  - pose proof (cycle_spec _ _ _ _ _ _ _ _ HI E2) as F2.
    assert (Hov : ~ over v2 n ("WAKEUP"%string, lim)). { intros [_ [H|H]]; [by apply Ha, up_alive|]. cbn in H. lia. }
    pose proof (f_stay _ _ _ _ _ _ _ _ F2 _ _ Hh Hr Hov) as Hno. rewrite map_app, elem_of_app. intros [?|Hc]; [done|]. revert Hc. apply IH.
    + by eapply f_inv.
    + by eapply f_same.
    + by eapply f_execs.
  - apply IH; [by apply Inv_restart|done|]. cbn. apply not_elem_of_nil.
Qed.
(** A command is not launched only once: one that had to wait is launched again whenever nothing runs on its node. *)
Theorem C112_waiting_for_ever_refuted : forall c g cs g2 n t, reach c g -> dfind n (remind g) = Some ("WAKEUP"%string, t) ->
  steps c (fun nodes _ => n ∉ nodes) g cs g2 ->
  dfind n (remind g2) = Some ("WAKEUP"%string, t) /\
  forall st cmd nodes v g3 o, n ∉ nodes -> cycle c g2 st cmd nodes v = Ok (inr (g3, o)) -> dfind n (running g2) = None -> ("WAKEUP"%string, n) ∈ o_cmds o.
Proof.
  intros c g cs g2 n t Hg Hr Hs. apply reach_Inv in Hg. induction Hs as [g|g st cmd nodes v2 g1 o2 cs g2 Hn E2 Hs IH|g cs g2 Hs IH].
  - split; [done|]. intros st cmd nodes v g3 o Hn E Hrun. pose proof (cycle_spec _ _ _ _ _ _ _ _ Hg E) as F. by eapply f_relaunch.
  - pose proof (cycle_spec _ _ _ _ _ _ _ _ Hg E2) as F. apply IH; [by eapply f_inv|]. rewrite (f_remsame _ _ _ _ _ _ _ _ F) by done. done.
  - apply IH; [by apply Inv_restart|done].
Qed.
(** One request for each command; the node is woken up again although it is up, and again. *)
Definition keep0 : gconf := mkGconf [(1, 900)] [] 60.
Definition view_of (s : string) (busy : list string) (now : Z) : view := mkView [mkNrow "n1" s "UnChanged" 100000] busy (fun _ _ => true) now.
Definition ended : nat -> option Z := fun _ => Some 0.
Example C112_example :
  cmds_of (run_cycles keep0 start [(none, "HALT"%string, ["n1"%string], view_of "Alive" [] 1000); (none, "WAKEUP"%string, ["n1"%string], view_of "Absent" [] 1010);
    (ended, "CHECK"%string, [], view_of "Absent" [] 1020); (ended, "CHECK"%string, [], view_of "Alive" [] 1100); (ended, "CHECK"%string, [], view_of "Alive" [] 1200)])
  = [[("HALT", "n1")]; []; [("WAKEUP", "n1")]; [("WAKEUP", "n1")]; [("WAKEUP", "n1")]]%string.
Proof. vm_compute. reflexivity. Qed.

(** ** C113: a node with a job is not halted *)
Theorem C113_busy_halted_refuted : exists c g st v g' o n, reach c g /\ cycle c g st "CHECK" [] v = Ok (inr (g', o)) /\
  n ∈ v_busy v /\ up v n /\ ("HALT"%string, n) ∈ o_cmds o.
Proof.
  set (r := run_cycles keep0 start [(none, "WAKEUP"%string, ["n1"%string], view_of "Absent" [] 1000); (none, "HALT"%string, ["n1"%string], view_of "Absent" [] 1010)]).
  assert (Hr : exists g os, r = Some (g, os)).
  { assert (Hb : match r with Some _ => true | None => false end = true) by (vm_compute; reflexivity). destruct r as [[g os]|]; [eauto|done]. }
  destruct Hr as (g & os & Hr).
  set (r2 := match r with Some (g, _) => cycle keep0 g ended "CHECK" [] (view_of "Alive" ["n1"%string] 1100) | None => Err EKey end).
  assert (H2 : exists g' o, r2 = Ok (inr (g', o)) /\ o_cmds o = [("HALT", "n1")]%string).
  { assert (Hb : match r2 with Ok (inr (_, o)) => bool_decide (o_cmds o = [("HALT", "n1")]%string) | _ => false end = true) by (vm_compute; reflexivity).
    destruct r2 as [[ch|[g' o]]|e]; [done| |done]. exists g', o. split; [done|]. by apply bool_decide_eq_true in Hb. }
  destruct H2 as (g' & o & E & Ho). unfold r2 in E. rewrite Hr in E.
  exists keep0, g, ended, (view_of "Alive" ["n1"%string] 1100), g', o, "n1"%string. split; [eapply run_cycles_reach; [apply r_start|exact Hr]|].
  split; [exact E|]. split; [by_dec|]. split; [apply up_alive; by_dec|]. rewrite Ho. left.
Qed.

(** ** C114: a node that was halted can be woken up again *)
Theorem C114_stuck_refuted : forall c g n, reach c g -> is_halt (running g) n -> n ∉ halting (execs g) ->
  forall cs g2, steps c (fun _ _ => True) g cs g2 -> n ∉ map snd cs /\ is_halt (running g2) n.
Proof.
  intros c g n Hg Hr Hh cs g2 Hs. apply reach_Inv in Hg. revert Hg Hr Hh.
  induction Hs as [g|g st cmd nodes v2 g1 o2 cs g2 _ E2 Hs IH|g cs g2 Hs IH]; intros HI Hr Hh.
  - split; [apply not_elem_of_nil|done].
  - pose proof (cycle_spec _ _ _ _ _ _ _ _ HI E2) as F2. destruct Hr as [t Hr].
    assert (Hov : ~ over v2 n ("HALT"%string, t)). { intros [H _]. done. }
    pose proof (f_stay _ _ _ _ _ _ _ _ F2 _ _ Hh Hr Hov) as Hno.
    destruct IH as [I1 I2]; [by eapply f_inv|exists t; by eapply f_same|by eapply f_execs|]. split; [|done].
    rewrite map_app, elem_of_app. tauto.
  - apply IH; [by apply Inv_restart|done|]. cbn. apply not_elem_of_nil.
Qed.
(** Such a state is reached when the halt command fails, and when Greta is restarted while one runs. *)
Definition failed : nat -> option Z := fun _ => Some 1.
Definition stuck_b (g : greta) (n : string) : bool :=
  match dfind n (running g) with Some (c, _) => bool_decide (c = "HALT"%string) | None => false end && negb (bool_decide (n ∈ halting (execs g))).
Lemma stuck_b_spec g n : stuck_b g n = true -> is_halt (running g) n /\ n ∉ halting (execs g).
Proof.
  unfold stuck_b. intros [H1 H2]%andb_true_iff. destruct (dfind n (running g)) as [[c t]|] eqn:E; [|done]. apply bool_decide_eq_true in H1. subst c.
  apply negb_true_iff, bool_decide_eq_false in H2. split; [by exists t|done].
Qed.
Theorem C114_failed_command : exists c g, reach c g /\ is_halt (running g) "n1" /\ "n1"%string ∉ halting (execs g).
Proof.
  set (r := run_cycles keep0 start [(none, "HALT"%string, ["n1"%string], view_of "Alive" [] 1000); (failed, "CHECK"%string, [], view_of "Absent" [] 1010)]).
  assert (Hr : exists g os, r = Some (g, os) /\ stuck_b g "n1" = true).
  { assert (Hb : match r with Some (g, _) => stuck_b g "n1" | None => false end = true) by (vm_compute; reflexivity). destruct r as [[g os]|]; [eauto|done]. }
  destruct Hr as (g & os & Hr & Hst). exists keep0, g. split; [eapply run_cycles_reach; [apply r_start|exact Hr]|]. by apply stuck_b_spec.
Qed.
Theorem C114_restart : forall c g st cmd nodes v g' o n, reach c g -> cycle c g st cmd nodes v = Ok (inr (g', o)) -> ("HALT"%string, n) ∈ o_cmds o ->
  is_halt (running (restart g')) n /\ n ∉ halting (execs (restart g')).
Proof.
  intros c g st cmd nodes v g' o n Hg E Hn. pose proof (cycle_spec _ _ _ _ _ _ _ _ (reach_Inv _ _ Hg) E) as F. split; [|apply not_elem_of_nil].
  destruct (f_new _ _ _ _ _ _ _ _ F _ _ Hn) as [t Ht]. by exists t.
Qed.
(** What holds: a node on which nothing is recorded as running is woken up as soon as it is asked for. *)
Theorem C114_woken_partial : forall c g st nodes v g' o n, reach c g -> cycle c g st "WAKEUP" nodes v = Ok (inr (g', o)) ->
  n ∈ nodes -> dfind n (running g) = None -> ("WAKEUP"%string, n) ∈ o_cmds o.
Proof. intros c g st nodes v g' o n Hg E Hn Hr. pose proof (cycle_spec _ _ _ _ _ _ _ _ (reach_Inv _ _ Hg) E) as F. by eapply f_asked. Qed.
Example C114_example : cmds_of (run_cycles keep0 start [(none, "HALT"%string, ["n1"%string], view_of "Alive" [] 1000); (ended, "WAKEUP"%string, ["n1"%string], view_of "Absent" [] 1100)])
  = [[("HALT", "n1")]; [("WAKEUP", "n1")]]%string /\
  cmds_of (run_cycles keep0 start [(none, "HALT"%string, ["n1"%string], view_of "Alive" [] 1000); (failed, "WAKEUP"%string, ["n1"%string], view_of "Absent" [] 1100);
    (ended, "WAKEUP"%string, ["n1"%string], view_of "Absent" [] 90000)])
  = [[("HALT", "n1")]; []; []]%string.
Proof. split; vm_compute; reflexivity. Qed.

(** ** C115: Greta goes on, and failures are reported *)
Theorem C115_goes_on : forall c g st cmd nodes v, reach c g -> zfind 1 (g_timeouts c) <> None -> exists r, cycle c g st cmd nodes v = Ok r.
Proof. intros c g st cmd nodes v Hg Ht. apply cycle_ok; [by eapply reach_Inv|done]. Qed.
Theorem C115_suspected : forall c g st cmd nodes v g' o n, reach c g -> cycle c g st cmd nodes v = Ok (inr (g', o)) ->
  ((exists t, dfind n (running g) = Some ("WAKEUP"%string, t) /\ ~ up v n /\ t < v_now v) -> (n, "Suspected"%string) ∈ o_changes o) /\
  ((exists j k t z, execs g !! j = Some (n, k, t) /\ st j = Some z /\ z <> 0) -> (n, "Suspected"%string) ∈ o_changes o) /\
  ((n, "Suspected"%string) ∈ o_changes o ->
     (exists j k t z, execs g !! j = Some (n, k, t) /\ st j = Some z /\ z <> 0) \/
     (exists j t, execs g !! j = Some (n, "HALT"%string, t) /\ st j = None /\ g_window c < v_now v - t) \/
     (exists t, dfind n (running g) = Some ("WAKEUP"%string, t) /\ ~ up v n /\ t < v_now v)) /\
  (("HALT"%string, n) ∈ o_cmds o -> (n, "Absent"%string) ∈ o_changes o).
Proof.
  intros c g st cmd nodes v g' o n Hg E. pose proof (cycle_spec _ _ _ _ _ _ _ _ (reach_Inv _ _ Hg) E) as F. split; [|split; [|split]].
  - intros (t & H1 & H2 & H3). eapply f_late; [done| |done|done]. intros Hc. by apply H2, up_alive.
  - intros (j & k & t & z & H1 & H2 & H3). by eapply f_failed.
  - intros H. apply (f_suspected _ _ _ _ _ _ _ _ F) in H as [H|[H|(t & H1 & H2 & H3)]]; [by left|right; by left|]. right. right. exists t. split; [done|].
    split; [|done]. intros Hc. by apply H2, up_alive.
  - by eapply f_absent.
Qed.
(** Any other command ends Greta, after it has already changed states, and what was to be launched is not. *)
Theorem C115_unknown_command_refuted : exists c g v ch, reach c g /\ cycle c g none "REBOOT" ["n1"%string] v = Ok (inl ch).
Proof.
  exists keep0, start, (view_of "Alive" [] 1000). set (r := cycle keep0 start none "REBOOT" ["n1"%string] (view_of "Alive" [] 1000)).
  assert (Hb : match r with Ok (inl _) => true | _ => false end = true) by (vm_compute; reflexivity).
  destruct r as [[ch|[g' o]]|e]; [|done|done]. exists ch. split; [apply r_start|done].
Qed.

(** ** C116: the timeouts *)
(** The timeout is the one of the greatest number that is at most [n]. *)
Definition best_key (m : list (Z * Z)) (n k : Z) : Prop := k ∈ map fst m /\ k <= n /\ forall k', k' ∈ map fst m -> k' <= n -> k' <= k.
Lemma insert_z_sorted x l : Sorted Z.le l -> Sorted Z.le (insert_z x l).
Proof.
  induction l as [|y l IH]; intros H; cbn [insert_z]; [by repeat constructor|]. destruct (Z.leb_spec x y) as [Hx|Hx]; [constructor; [done|]; by constructor|].
  inversion H as [|? ? H1 H2]; subst. constructor; [by apply IH|]. destruct l as [|z l]; cbn [insert_z]; [constructor; lia|].
  destruct (x <=? z); constructor; [lia|]. by inversion H2.
Qed.
Lemma sorted_sorted l : Sorted Z.le (foldr insert_z [] l).
Proof. induction l as [|x l IH]; [constructor|]. cbn [foldr]. by apply insert_z_sorted. Qed.
Lemma timeout_loop_spec m n : forall ks acc, StronglySorted Z.le ks -> (forall k, k ∈ ks -> exists t, zfind k m = Some t) ->
  ((forall k, k ∈ ks -> n < k) /\ timeout_loop m n ks acc = acc) \/
  exists k, k ∈ ks /\ k <= n /\ (forall k', k' ∈ ks -> k' <= n -> k' <= k) /\ zfind k m = Some (timeout_loop m n ks acc).
Proof.
  induction ks as [|k ks IH]; intros acc Hs H; cbn [timeout_loop]; [left; split; [intros k Hk; by apply elem_of_nil in Hk|done]|].
  apply StronglySorted_inv in Hs as [Hs Hk]. rewrite Forall_forall in Hk. destruct (Z.ltb_spec n k) as [Hlt|Hle].
  - left. split; [|done]. intros k' [->|Hk']%elem_of_cons; [done|]. apply Hk in Hk'. lia.
  - right. destruct (H k ltac:(left)) as [t Ht]. rewrite Ht. cbn [default from_option id]. destruct (IH t Hs) as [[H1 ->]|(k' & H1 & H2 & H3 & H4)].
    + intros k' Hk'. apply H. by right.
    + exists k. split; [left|]. split; [done|]. split; [|done]. intros k' [->|Hk']%elem_of_cons Hn; [done|]. apply H1 in Hk'. lia.
    + exists k'. split; [by right|]. split; [done|]. split; [|done]. intros k2 [->|Hk2]%elem_of_cons Hn; [by apply Hk|by apply H3].
Qed.
Theorem C116_timeout : forall m n t, 1 <= n -> get_timeout m n = Ok t -> exists k, best_key m n k /\ zfind k m = Some t.
Proof.
  intros m n t Hn. unfold get_timeout. destruct (zfind 1 m) as [t1|] eqn:E1; [|done]. intros [= <-].
  destruct (timeout_loop_spec m n (foldr insert_z [] (map fst m)) t1) as [[H _]|(k & H1 & H2 & H3 & H4)].
  - apply Sorted_StronglySorted; [intros x y z; lia|apply sorted_sorted].
  - intros k Hk. apply (proj1 (elem_of_sorted _ _)) in Hk. exact (proj1 (zfind_key _ _) Hk).
  - exfalso. assert (n < 1); [|lia]. apply H. apply elem_of_sorted. apply zfind_key. eauto.
  - exists k. split; [|done]. apply (proj1 (elem_of_sorted _ _)) in H1. split; [done|]. split; [done|]. intros k' Hk'. apply H3. exact (proj2 (elem_of_sorted _ _) Hk').
Qed.
Theorem C116_defined : forall m n, (exists t, get_timeout m n = Ok t) <-> exists t, (1, t) ∈ m.
Proof.
  intros m n. unfold get_timeout. split.
  - intros [t H]. destruct (zfind 1 m) as [t1|] eqn:E; [|done]. exists t1. by apply zfind_value.
  - intros [t H]. assert (Hk : 1 ∈ map fst m) by (change 1 with (fst (1, t)); by apply elem_of_list_fmap_1). apply zfind_key in Hk as [t1 ->]. eauto.
Qed.
(** Couples that do not begin at 1: each cycle fails. *)
Theorem C116_first_couple_refuted : forall c g st cmd nodes v, reach c g -> zfind 1 (g_timeouts c) = None -> cycle c g st cmd nodes v = Err EKey.
Proof.
  intros c g st cmd nodes v Hg Ht. destruct (reach_Inv _ _ Hg) as [A B C D]. unfold cycle.
  destruct (check_execs_spec (g_window c) (v_now v) st (execs g) 0 (running g) A C D) as (k & run' & ch & E & _). rewrite E. cbn [rbind].
  destruct (keep_all v (map fst run') (g_keep c) []) as [ks todo]. destruct (expire v run' nodes) as [[run2 ns] ch2].
  destruct (receive cmd ns run2 (remembered run2 (remind g) todo) (remind g)) as [todo' rem']. unfold get_timeout. by rewrite Ht.
Qed.
(** A wrong couple is not ignored: Greta does not start. *)
Lemma fill_words_wrong : forall l prev m, Wrong ∈ l -> exists e, fill_words l prev m = Err e.
Proof.
  induction l as [|w l IH]; intros prev m H; [by apply elem_of_nil in H|]. destruct w as [n t|]; cbn [fill_words]; [|eauto].
  apply elem_of_cons in H as [H|H]; [done|by apply IH].
Qed.
Theorem C116_wrong_couple_refuted : forall l, Wrong ∈ l -> exists e, fill_timeouts (inr l) = Err e.
Proof. intros l H. unfold fill_timeouts. destruct (fill_words_wrong l false [] H) as [e ->]. by exists e. Qed.
(** Without a wrong couple the timeouts are those of the option, the last one for each number. *)
Lemma zfind_zset k k' t m : zfind k (zset k' t m) = if k' =? k then Some t else zfind k m.
Proof.
  induction m as [|[a b] m IH]; cbn [zset zfind]; [done|]. destruct (Z.eqb_spec a k') as [->|Hn]; cbn [zfind]; [by destruct (k' =? k)|].
  rewrite IH. destruct (Z.eqb_spec a k), (Z.eqb_spec k' k); congruence.
Qed.
Lemma fill_words_right : forall l prev m, Wrong ∉ l -> exists m', fill_words l prev m = Ok m' /\
  forall k, (forall t, Couple k t ∉ l) -> zfind k m' = zfind k m.
Proof.
  induction l as [|w l IH]; intros prev m H; cbn [fill_words]; [by exists m|]. apply not_elem_of_cons in H as [H1 H2]. destruct w as [n t|]; [|done].
  destruct (IH true (zset n t m) H2) as (m' & E & Hm). exists m'. split; [done|]. intros k Hk. rewrite Hm.
  - rewrite zfind_zset. destruct (Z.eqb_spec n k) as [->|]; [|done]. exfalso. apply (Hk t). left.
  - intros t' Hc. apply (Hk t'). by right.
Qed.
Theorem C116_couples : forall l l1 k t l2, Wrong ∉ l -> l = l1 ++ Couple k t :: l2 -> (forall t', Couple k t' ∉ l2) ->
  exists m, fill_timeouts (inr l) = Ok m /\ zfind k m = Some t.
Proof.
  intros l l1 k t l2 Hw -> Hl.
  assert (H : forall l1 prev m, Wrong ∉ l1 ++ Couple k t :: l2 -> exists m', fill_words (l1 ++ Couple k t :: l2) prev m = Ok m' /\ zfind k m' = Some t).
  { clear l1 Hw. induction l1 as [|w l1 IH]; intros prev m Hw; cbn [app fill_words].
    - apply not_elem_of_cons in Hw as [_ Hw]. destruct (fill_words_right l2 true (zset k t m) Hw) as (m' & E & Hm). exists m'. split; [done|].
      rewrite Hm by done. rewrite zfind_zset. by rewrite Z.eqb_refl.
    - cbn [app] in Hw. apply not_elem_of_cons in Hw as [H1 H2]. destruct w as [n t'|]; [|done]. by apply IH. }
  destruct (H l1 false [] Hw) as (m & E & Hm). unfold fill_timeouts. rewrite E. cbn [rbind]. exists m. destruct m as [|x m]; [done|]. done.
Qed.
Example C116_example : fill_timeouts (inr [Couple 1 500; Couple 11 1000; Couple 21 2000]) = Ok [(1, 500); (11, 1000); (21, 2000)] /\
  get_timeout [(1, 500); (11, 1000); (21, 2000)] 15 = Ok 1000 /\ get_timeout [(11, 1000); (21, 2000)] 15 = Err EKey.
Proof. split; [|split]; vm_compute; reflexivity. Qed.
Print Assumptions C109_sleep.
Print Assumptions C109_only_if_configured.
Print Assumptions C109_always_on_refuted.
Print Assumptions C110_wake.
Print Assumptions C110_not_both_partial.
Print Assumptions C110_both_refuted.
Print Assumptions C110_wake_command_refuted.
Print Assumptions C111_keepalive_partial.
Print Assumptions C111_refuted.
Print Assumptions C112_one_at_a_time.
Print Assumptions C112_while_booting.
Print Assumptions C112_waiting_for_ever_refuted.
Print Assumptions C113_busy_halted_refuted.
Print Assumptions C114_stuck_refuted.
Print Assumptions C114_failed_command.
Print Assumptions C114_restart.
Print Assumptions C114_woken_partial.
Print Assumptions C115_goes_on.
Print Assumptions C115_suspected.
Print Assumptions C115_unknown_command_refuted.
Print Assumptions C116_timeout.
Print Assumptions C116_defined.
Print Assumptions C116_first_couple_refuted.
Print Assumptions C116_wrong_couple_refuted.
Print Assumptions C116_couples.
Print Assumptions C111_wakes_partial.
Print Assumptions C111_wakes_only.
