(** C144: the running best-effort jobs in the plan.  call_internal_scheduler, oar/kao/meta_sched.py:759-770, and
    gantt_init_with_running_jobs, 176-186. *)
From Verif Require Import Base SlotModel SlotSpec SlotProofs SlotJobs SlotOps SlotCheck SlotProps LoadModel LoadProps.

(** meta_sched.py:176-186: the first loading leaves the best-effort jobs out. *)
Definition first_loading (env : qenv) (idstr : Z -> string) (sec now : Z) (q : bool) (jobs : list job) (sss : slotsets) : res slotsets :=
  if bool_decide (jobs = []) then Ok sss else set_slots_with_prev env idstr sec now true false q sss jobs.
(** 764-770: the active queues of a priority group; the best-effort jobs are placed when they are alone. *)
Definition before_group (env : qenv) (idstr : Z -> string) (sec now : Z) (q : bool) (queues : list string) (jobs : list job) (sss : slotsets) : res slotsets :=
  match queues with
  | [n] => if bool_decide (n = "besteffort"%string) then set_slots_with_prev env idstr sec now false true q sss jobs else Ok sss
  | _ => Ok sss
  end.

(** Specification: the jobs considered hold no container and are not inside one, by increasing start. *)
Definition ordinary (jobs : list job) : Prop :=
  Forall job_ok jobs /\ Forall (fun j => 0 <= walltime j) jobs /\
  Forall (fun j => has_type "container" j = false /\ type_value "inner" (jtypes j) = None) jobs /\
  StronglySorted (fun a b => start_time a <= start_time b) jobs.
Definition besteffort (j : job) : Prop := has_type "besteffort" j = true.
(** [ss'] is [ss] where the jobs satisfying [P] have taken their resources (the second at which a job ends may be
    counted or not, see C04). *)
Definition taken_by (P : job -> Prop) (jobs : list job) (ss ss' : slotset) : Prop :=
  (forall t r, free_at ss' t r -> free_at ss t r /\ forall j, j ∈ jobs -> P j -> start_time j <= t < start_time j + walltime j -> r ∉ res_set j) /\
  (forall t r, free_at ss t r -> (forall j, j ∈ jobs -> P j -> start_time j <= t <= start_time j + walltime j -> r ∉ res_set j) -> free_at ss' t r).

Lemma sorted_filter (P : job -> Prop) `{!forall x, Decision (P x)} l : StronglySorted (fun a b => start_time a <= start_time b) l ->
  StronglySorted (fun a b => start_time a <= start_time b) (filter P l).
Proof.
  induction 1 as [|a l Hl IH Ha]; [constructor|]. rewrite filter_cons. destruct (decide (P a)); [|done]. constructor; [done|].
  rewrite Forall_forall in *. intros x Hx. apply elem_of_list_filter in Hx as [_ Hx]. by apply Ha.
Qed.
Definition is_be (j : job) : bool := has_type "besteffort" j.
Lemma load_some (fb ob : bool) env idstr sec now q jobs : forall sss todo,
  Forall (fun j => has_type "container" j = false /\ type_value "inner" (jtypes j) = None) jobs ->
  load_containers env idstr sec now fb ob q jobs sss todo =
  Ok (sss, todo ++ ((fun j => ("default"%string, j)) <$> filter (fun j => (negb fb && is_be j) || (negb ob && negb (is_be j)) = true) jobs)).
Proof.
  induction jobs as [|j jobs IH]; intros sss todo H; cbn [load_containers].
  - cbn. by rewrite app_nil_r.
  - apply Forall_cons in H as [(H1 & H3) H]. fold (is_be j). rewrite filter_cons.
    destruct (decide ((negb fb && is_be j) || (negb ob && negb (is_be j)) = true)) as [E|E].
    + rewrite E, H1, H3. cbn [rbind default]. rewrite IH by done. rewrite fmap_cons, <- app_assoc. done.
    + apply not_true_is_false in E. rewrite E. by rewrite IH.
Qed.
Lemma load_taken (fb ob : bool) (P : job -> Prop) env idstr sec now q jobs ss : WF ss -> ordinary jobs ->
  (forall j, P j <-> (negb fb && is_be j) || (negb ob && negb (is_be j)) = true) ->
  exists ss', set_slots_with_prev env idstr sec now fb ob q [("default"%string, ss)] jobs = Ok [("default"%string, ss')] /\ WF ss' /\ taken_by P jobs ss ss'.
Proof.
  intros HW (Hok & Hw & Hp & Hs) HP.
  set (l := filter (fun j => (negb fb && is_be j) || (negb ob && negb (is_be j)) = true) jobs).
  assert (Hin : forall j, j ∈ l <-> P j /\ j ∈ jobs) by (intros j; unfold l; rewrite elem_of_list_filter, HP; done).
  destruct (insert_jobs_free env l ss HW) as (ss' & E & HW' & _ & _ & H1 & H2).
  - rewrite Forall_forall in *. intros j Hj. apply Hok. by apply Hin.
  - rewrite Forall_forall in *. intros j Hj. apply Hw. by apply Hin.
  - by apply sorted_filter.
  - exists ss'. split; [|split; [done|]].
    + unfold set_slots_with_prev. rewrite load_some by done. cbn [app rbind load_jobs]. fold l. rewrite jobs_of_default, E. done.
    + split.
      * intros t r Hf. apply H1 in Hf as [Hf Hj]. split; [done|]. intros j Hj1 Hj2. apply Hj. by apply Hin.
      * intros t r Hf Hj. apply H2; [done|]. intros j Hj1. apply Hin in Hj1 as [? ?]. by apply Hj.
Qed.
Theorem C144_left_out env idstr sec now q jobs ss : WF ss -> ordinary jobs ->
  exists ss', first_loading env idstr sec now q jobs [("default"%string, ss)] = Ok [("default"%string, ss')] /\ WF ss' /\
    taken_by (fun j => ~ besteffort j) jobs ss ss'.
Proof.
  intros HW Ho. unfold first_loading. case_bool_decide as E.
  - subst. exists ss. split; [done|]. split; [done|]. split; [|done]. intros t r H. split; [done|]. intros j Hj. by apply elem_of_nil in Hj.
  - apply load_taken; [done|done|]. intros j. unfold besteffort. fold (is_be j). destruct (is_be j); cbn; split; try done; by intros [].
Qed.
Theorem C144_alone env idstr sec now q jobs ss : WF ss -> ordinary jobs ->
  exists ss', before_group env idstr sec now q ["besteffort"%string] jobs [("default"%string, ss)] = Ok [("default"%string, ss')] /\ WF ss' /\
    taken_by besteffort jobs ss ss'.
Proof.
  intros HW Ho. unfold before_group. rewrite bool_decide_eq_true_2 by done. apply load_taken; [done|done|].
  intros j. unfold besteffort. fold (is_be j). destruct (is_be j); cbn; done.
Qed.
(** When another active queue has the same priority, the resources of the running best-effort jobs are offered to the
    waiting best-effort jobs too. *)
Theorem C144_together_refuted env idstr sec now q queues jobs sss : queues <> ["besteffort"%string] ->
  before_group env idstr sec now q queues jobs sss = Ok sss.
Proof. intros H. unfold before_group. destruct queues as [|n [|m l]]; try done. case_bool_decide; [subst; done|done]. Qed.
Definition ex_be : job := mkJob 3 5 20 (range 1 2) false None None 0 None "" "u" "besteffort" "p" [("besteffort"%string, ""%string)].
Definition ex_normal : job := mkJob 4 10 20 (range 3 4) false None None 0 None "" "u" "default" "p" [].
Theorem C144_example : WF SlotProps.ex_ss /\ ordinary [ex_be; ex_normal] /\ besteffort ex_be /\ ~ besteffort ex_normal.
Proof.
  split; [exact SlotProps.ex_ss_WF|]. split; [|split; [done|done]].
  split; [|split; [|split]]; repeat constructor; cbn; try lia; try done.
  all: intros [H|H]; vm_compute in H; discriminate.
Qed.
Print Assumptions C144_left_out.
Print Assumptions C144_alone.
Print Assumptions C144_together_refuted.
Print Assumptions C144_example.
