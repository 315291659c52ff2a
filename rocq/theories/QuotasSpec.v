(** What quota rules mean.  Nothing here refers to the rule tree or to the check. *)
From Verif Require Import Base SlotModel SlotSpec QuotasModel.

(** A counter key stands for the jobs it matches, "*" matching anything. *)
Definition comp_match (k v : string) : Prop := k = "*"%string \/ k = v.
Definition key_match (k : qkey) (j : job) : Prop :=
  let '(q, p, t, u) := k in
  comp_match q (jqueue j) /\ comp_match p (jproject j) /\
  (t = "*"%string \/ t ∈ (fst <$> jtypes j)) /\ comp_match u (juser j).
Global Instance key_match_dec k j : Decision (key_match k j).
Proof. destruct k as [[[q p] t] u]. unfold key_match, comp_match. apply _. Defined.

Definition add3 (x y : Z * Z * Z) : Z * Z * Z :=
  let '(a, b, c) := x in let '(a', b', c') := y in (a + a', b + b', c + c').

(** What a job consumes: its resources among the default ones, one job, its resource-seconds. *)
Definition consumption (env : qenv) (j : job) : Z * Z * Z :=
  let n := Z.of_nat (size (res_set j ∩ default_itvs env)) in (n, 1, n * walltime j).

(** Total consumption of the jobs a key matches. *)
Fixpoint consumed (env : qenv) (jobs : list job) (k : qkey) : Z * Z * Z :=
  match jobs with
  | [] => (0, 0, 0)
  | j :: jobs' => if bool_decide (key_match k j) then add3 (consumption env j) (consumed env jobs' k) else consumed env jobs' k
  end.

(** "*" is not the name of a queue, project or user. *)
Definition named (j : job) : Prop :=
  jqueue j <> "*"%string /\ jproject j <> "*"%string /\ juser j <> "*"%string.

(** Which key a level of the rules selects for the value [v], among the keys seen at that level:
    the value itself, else "/", else "*". *)
Definition pick (seen : string -> Prop) (v k : string) : Prop :=
  (seen v /\ k = v) \/
  (~ seen v /\ seen "/"%string /\ k = "/"%string) \/
  (~ seen v /\ ~ seen "/"%string /\ seen "*"%string /\ k = "*"%string).

(** The rule of key (kq, kp, kt, ku) and limits [r] is the one a job is subject to: queue first,
    then project, then type (only the first type of the job, or of the configuration), then user. *)
Definition selects (rs : rules) (job_types : list string) (j : job) (k : qkey) (r : rule) : Prop :=
  let '(kq, kp, kt, ku) := k in
  (k, r) ∈ rs /\
  pick (fun q => exists p t u r, ((q, p, t, u), r) ∈ rs) (jqueue j) kq /\
  pick (fun p => exists t u r, ((kq, p, t, u), r) ∈ rs) (jproject j) kp /\
  (exists t0, head ((fst <$> jtypes j) ++ job_types) = Some t0 /\
     pick (fun t => exists u r, ((kq, kp, t, u), r) ∈ rs) t0 kt) /\
  pick (fun u => exists r, ((kq, kp, kt, u), r) ∈ rs) (juser j) ku.

(** "/" stands for the job's own value: the counter a rule is about. *)
Definition instance (k : qkey) (j : job) : qkey :=
  let '(kq, kp, kt, ku) := k in
  let own (x v : string) := if decide (x = "/"%string) then v else x in
  (own kq (jqueue j), own kp (jproject j), kt, own ku (juser j)).

(** A rule set as read from the configuration: a dictionary (distinct keys), no empty string. *)
Definition proper_rules (rs : rules) : Prop :=
  NoDup rs.*1 /\
  Forall (fun e : qkey * rule => let '(q, p, t, u) := e.1 in
            q <> ""%string /\ p <> ""%string /\ t <> ""%string /\ u <> ""%string) rs.

(** [within lim n]: n respects the limit (-1 and below: no limit). *)
Definition within (lim n : Z) : Prop := lim <= -1 \/ n <= lim.
Definition within_rule (r : rule) (x : Z * Z * Z) : Prop :=
  let '(nr, nj, nt) := x in within (lim_res r) nr /\ within (lim_jobs r) nj /\ within (lim_time r) nt.

Definition nonneg (c : counters) : Prop :=
  forall k, let '(a, b, d) := cget c k in 0 <= a /\ 0 <= b /\ 0 <= d.

Definition key_type (k : qkey) : string := let '(_, _, t, _) := k in t.
