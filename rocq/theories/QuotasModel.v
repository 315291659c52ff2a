(** Model of the quota rules: oar/kao/quotas.py:538-794.  Pure transcription, no proofs.
    (The counters and Quotas.update are in SlotModel.) *)
From Verif Require Import Base SlotModel.

(** A rule's limits [nb_resources, nb_jobs, resource*seconds]; -1 means no limit
    (quotas.py:425-446). *)
Record rule := mkRule { lim_res : Z; lim_jobs : Z; lim_time : Z }.

(** A rule set: a dict (queue, project, job type, user) -> limits, in insertion order. *)
Notation rules := (list (qkey * rule)).

(** The nested dictionaries built from a rule set. *)
Notation tree1 := (gmap string rule).
Notation tree2 := (gmap string (gmap string rule)).
Notation tree3 := (gmap string (gmap string (gmap string rule))).
Notation tree := (gmap string (gmap string (gmap string (gmap string rule)))).

(** Quotas.init_rule_tree, quotas.py:612-638 (one rule). *)
Definition tree_add (t : tree) (e : qkey * rule) : tree :=
  let '((q, p, ty, u), r) := e in
  let t3 := default ∅ (t !! q) in
  let t2 := default ∅ (t3 !! p) in
  let t1 := default ∅ (t2 !! ty) in
  <[ q := <[ p := <[ ty := <[ u := r ]> t1 ]> t2 ]> t3 ]> t.

Definition init_rule_tree (rs : rules) : tree := fold_left tree_add rs ∅.

(** get_item, quotas.py:654-662. *)
Definition get_item {A} (d : gmap string A) (v : string) : option string :=
  if bool_decide (is_Some (d !! v)) then Some v
  else if bool_decide (is_Some (d !! "/"%string)) then Some "/"%string
  else if bool_decide (is_Some (d !! "*"%string)) then Some "*"%string
  else None.

(** [if key:] on a string or None. *)
Definition truthy (k : option string) : option string :=
  match k with Some s => if bool_decide (s = ""%string) then None else Some s | None => None end.

Definition subst_key (k v : string) : string := if bool_decide (k = "/"%string) then v else k.

(** Quotas.find_applicable_rule, quotas.py:640-705: the rule, the counter key it is checked
    against and the rule's own key; None when no rule is found.  Only the first of the job's
    types is tried (the loop of quotas.py:681-685 breaks at once). *)
Definition find_applicable (job_types : list string) (t : tree) (j : job) : option (rule * qkey * qkey) :=
  match truthy (get_item t (jqueue j)) with
  | None => None
  | Some kq =>
      let t3 := default ∅ (t !! kq) in
      match truthy (get_item t3 (jproject j)) with
      | None => None
      | Some kp =>
          let t2 := default ∅ (t3 !! kp) in
          match truthy (match (fst <$> jtypes j) ++ job_types with ty :: _ => get_item t2 ty | [] => None end) with
          | None => None
          | Some kt =>
              let t1 := default ∅ (t2 !! kt) in
              match truthy (get_item t1 (juser j)) with
              | None => None
              | Some ku =>
                  match t1 !! ku with
                  | None => None
                  | Some r =>
                      Some (r, (subst_key kq (jqueue j), subst_key kp (jproject j), kt, subst_key ku (juser j)),
                            (kq, kp, kt, ku))
                  end
              end
          end
      end
  end.

(** Outcome of a check: accepted, or which limit was exceeded, and its value. *)
Inductive verdict := QOk | QRes (n : Z) | QJobs (n : Z) | QTime (n : Z).

(** Quotas.check, quotas.py:707-746. *)
Definition q_check (job_types : list string) (t : tree) (c : counters) (j : job) : verdict :=
  match find_applicable job_types t j with
  | None => QOk
  | Some (r, k, _) =>
      match c !! k with
      | None => QOk
      | Some (nr, nj, nt) =>
          if (-1 <? lim_res r) && (lim_res r <? nr) then QRes (lim_res r)
          else if (-1 <? lim_jobs r) && (lim_jobs r <? nj) then QJobs (lim_jobs r)
          else if (-1 <? lim_time r) && (lim_time r <? nt) then QTime (lim_time r)
          else QOk
      end
  end.

(** Quotas.combine, quotas.py:604-610: [self.combine(other)]. *)
Definition comb (s v : Z * Z * Z) : Z * Z * Z :=
  let '(a, b, d) := s in let '(a', b', d') := v in (Z.max a a', Z.max b b', d + d').
Definition q_combine (self other : counters) : counters :=
  merge (fun s v => match v with
                    | None => s
                    | Some v => Some (comb (default ZERO3 s) v)
                    end) self other.

(** The rule sets: the default one and those of the calendar by number; an empty rule set
    given to the Quotas constructor is replaced by the default one (quotas.py:538-545).  The
    number -1 stands for the default rules. *)
Record qconf := mkQconf { q_env : qenv; q_default : rules; q_rules : Z -> rules }.
Definition conf_rules (cf : qconf) (id : Z) : rules :=
  match q_rules cf id with [] => q_default cf | rs => rs end.

(** slots_quotas, an ordered dict rules id -> counters: quotas.py:757-771. *)
Fixpoint sq_add (id : Z) (c : counters) (l : list (Z * counters)) : list (Z * counters) :=
  match l with
  | [] => [(id, q_combine ∅ c)]
  | (i, d) :: l' => if i =? id then (i, q_combine d c) :: l' else (i, d) :: sq_add id c l'
  end.

(** quotas.py:760-779: walk the slots of the window. *)
Fixpoint sq_loop (fuel : nat) (m : gmap Z slot) (sd right_ : Z) (l : list (Z * counters)) : res (list (Z * counters)) :=
  match fuel with
  | O => Err EFuel
  | S f =>
      s <-- dget sd m ;;
      c <-- attr (quotas (cont s)) ;;
      let l := sq_add (quotas_rules_id (cont s)) c l in
      if sd =? right_ then Ok l else sq_loop f m (next s) right_ l
  end.

(** quotas.py:781-787; the job carries neither res_set nor walltime yet, so Quotas.update uses
    the number of resources and the duration given. *)
Fixpoint sq_check (cf : qconf) (j : job) (nb dur : Z) (l : list (Z * counters)) : verdict :=
  match l with
  | [] => QOk
  | (id, c) :: l' =>
      let types := q_job_types (q_env cf) in
      let c := q_update_with types (jqueue j) (jproject j) (juser j) (fst <$> jtypes j) nb dur c in
      match q_check types (init_rule_tree (conf_rules cf id)) c j with
      | QOk => sq_check cf j nb dur l'
      | v => v
      end
  end.

(** Quotas.check_slots_quotas, quotas.py:748-787. *)
Definition check_slots_quotas (cf : qconf) (m : gmap Z slot) (left_ right_ : Z) (j : job) (nb dur : Z) : res verdict :=
  l <-- sq_loop (S (size m)) m left_ right_ [] ;;
  Ok (sq_check cf j nb dur l).
