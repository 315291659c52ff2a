(** SQL conditions put together by OAR: property C100.
    A condition is a text handed to the database.  OAR puts texts side by side:
    - the -p options of a script, " AND ".join, oar/lib/submission.py:129-130;
    - the condition of the job and that an administrator adds: "(" + p + ") AND " + admin,
      submission.py:930-941 and 1148-1159;
    - the condition of the job and that of a group: p + " AND " + g, submission.py:820-834 and
      oar/lib/job_handling.py:345-360. *)
From Verif Require Import Base.

(** A condition as the database reads it: comparisons (kept as texts), AND, OR, and parentheses.  NOT and
    BETWEEN, whose AND is not a connective, are left out. *)
Inductive item := Atom (s : string) | And | Or | Par (l : list item).
Definition cond := list item.

(** What it means: AND binds tighter than OR.  [v] tells which comparisons hold of a resource; None: syntax
    error.  [o]: some earlier term of the disjunction holds; [a]: the factors read in this term all hold. *)
Fixpoint item_means (v : string -> bool) (i : item) : option bool :=
  match i with
  | Atom s => Some (v s)
  | Par l =>
      (fix operand (l : list item) (o a : bool) : option bool :=
         match l with
         | [] => None
         | i :: l' => match item_means v i with
                      | None => None
                      | Some b => match l' with
                                  | [] => Some (o || (a && b))
                                  | And :: l'' => operand l'' o (a && b)
                                  | Or :: l'' => operand l'' (o || (a && b)) true
                                  | _ => None
                                  end
                      end
         end) l false true
  | _ => None
  end.
Definition means (v : string -> bool) (l : cond) : option bool := item_means v (Par l).

(** The three combinations; the empty text is no condition. *)
Definition script_condition (l : list cond) : cond :=
  match l with [] => [] | c :: l' => c ++ concat ((fun d => And :: d) <$> l') end.
Definition admin_condition (p : cond) (admin : cond) : cond :=
  match p with [] => admin | _ => [Par p; And] ++ admin end.
Definition group_condition (p g : cond) : cond :=
  match p, g with [], _ => g | _, [] => p | _, _ => p ++ And :: g end.

(** ** Properties *)
Fixpoint run (v : string -> bool) (l : list item) (o a : bool) : option bool :=
  match l with
  | [] => None
  | i :: l' => match item_means v i with
               | None => None
               | Some b => match l' with
                           | [] => Some (o || (a && b))
                           | And :: l'' => run v l'' o (a && b)
                           | Or :: l'' => run v l'' (o || (a && b)) true
                           | _ => None
                           end
               end
  end.
Lemma means_run v l : means v l = run v l false true.
Proof.
  unfold means. cbn [item_means].
  assert (H : forall n (l : list item) o a, (length l <= n)%nat ->
    (fix operand (l : list item) (o a : bool) : option bool :=
         match l with
         | [] => None
         | i :: l' => match item_means v i with
                      | None => None
                      | Some b => match l' with
                                  | [] => Some (o || (a && b))
                                  | And :: l'' => operand l'' o (a && b)
                                  | Or :: l'' => operand l'' (o || (a && b)) true
                                  | _ => None
                                  end
                      end
         end) l o a = run v l o a).
  { induction n as [|n IH]; intros l' o a Hl; destruct l' as [|i l']; [done|cbn in Hl; lia|done|].
    cbn [run]. destruct (item_means v i) as [b|]; [|done]. destruct l' as [|[s| | |p] l'']; try done.
    - apply IH. cbn in Hl. lia.
    - apply IH. cbn in Hl. lia. }
  by apply (H (length l)).
Qed.
(** No OR outside parentheses. *)
Definition conjunctive (l : cond) : Prop := Or ∉ l.

Lemma run_acc v : forall n (l : cond) o a b, (length l <= n)%nat -> conjunctive l ->
  run v l false true = Some b -> run v l o a = Some (o || (a && b)).
Proof.
  assert (G : forall n (l : cond) a b, (length l <= n)%nat -> conjunctive l -> run v l false a = Some b ->
              forall o a', run v l o (a' && a) = Some (o || (a' && b))).
  { induction n as [|n IH]; intros l a b Hl Hc H o a'; destruct l as [|i l']; [done|cbn in Hl; lia|done|].
    cbn [run] in H |- *. destruct (item_means v i) as [c|]; [|done]. destruct l' as [|[s| | |p] l'']; try done.
    - injection H as <-. cbn [orb]. by rewrite <- andb_assoc.
    - rewrite <- andb_assoc. apply IH; [cbn in Hl; lia| |done]. intros ?. apply Hc. by do 2 right.
    - exfalso. apply Hc. right. left. }
  intros n l o a b Hl Hc H. specialize (G n l true b Hl Hc H o a). by rewrite andb_true_r in G.
Qed.
Lemma run_app_and v (g : cond) c : conjunctive g -> means v g = Some c ->
  forall n (l : cond) o a b, (length l <= n)%nat -> conjunctive l ->
  run v l o a = Some b -> run v (l ++ And :: g) o a = Some (o || (b && c)).
Proof.
  intros Hg Hc. rewrite means_run in Hc. induction n as [|n IH]; intros l o a b Hl Hcl H;
    destruct l as [|i l']; [done|cbn in Hl; lia|done|].
  cbn [run app] in H |- *. destruct (item_means v i) as [d|]; [|done]. destruct l' as [|[s| | |p] l'']; try done.
  - injection H as <-. cbn [app]. rewrite (run_acc v (length g) g _ _ c) by done. f_equal. by destruct o, a, d, c.
  - cbn [app]. apply IH; [cbn in Hl; lia| |done]. intros ?. apply Hcl. by do 2 right.
  - exfalso. apply Hcl. right. left.
Qed.
(** Both conditions apply when neither has an OR outside parentheses. *)
Theorem C100_group_partial : forall v p g a b, conjunctive p -> conjunctive g ->
  means v p = Some a -> means v g = Some b -> means v (group_condition p g) = Some (a && b).
Proof.
  intros v p g a b Hp Hg Ha Hb. assert (p <> []) by (intros ->; done). assert (g <> []) by (intros ->; done).
  assert (group_condition p g = p ++ And :: g) as -> by (by destruct p, g).
  rewrite means_run in Ha |- *. rewrite (run_app_and v g b Hg Hb (length p) p false true a) by done. done.
Qed.
(** A user's condition never lets a job escape that of the administrator: the user's text is in parentheses. *)
Theorem C100_admin : forall v p admin a b, conjunctive admin ->
  means v p = Some a -> means v admin = Some b -> means v (admin_condition p admin) = Some (a && b).
Proof.
  intros v p g a b Hg Ha Hb. assert (p <> []) by (intros ->; done).
  assert (admin_condition p g = [Par p] ++ And :: g) as -> by (by destruct p).
  rewrite means_run. rewrite (run_app_and v g b Hg Hb 1 [Par p] false true a); [done|done| |].
  - intros H'. apply elem_of_list_singleton in H'. done.
  - cbn [run]. unfold means in Ha. rewrite Ha. by destruct a.
Qed.
Theorem C100_script_partial : forall v (l : list cond) bs, l <> [] -> Forall conjunctive l ->
  Forall2 (fun c b => means v c = Some b) l bs -> means v (script_condition l) = Some (forallb id bs).
Proof.
  intros v l bs Hne Hc Hm. destruct Hm as [|c b l bs Hcb Hm]; [done|]. clear Hne. inversion_clear Hc as [|? ? Hc1 Hc2].
  cbn [script_condition forallb]. change (id b) with b. revert c b Hcb Hc1. induction Hm as [|d e l bs Hd Hm IH]; intros c b Hcb Hc1.
  - cbn. rewrite app_nil_r, andb_true_r. done.
  - inversion_clear Hc2 as [|? ? Hc3 Hc4]. rewrite fmap_cons. cbn [concat forallb]. change (id e) with e.
    rewrite app_assoc, andb_assoc. apply IH; [done| |].
    + rewrite means_run in Hcb |- *. by rewrite (run_app_and v d e Hc3 Hd (length c) c false true b).
    + intros H%elem_of_app. destruct H as [H|H]; [by apply Hc1|]. apply elem_of_cons in H as [H|H]; [done|by apply Hc3].
Qed.
(** Otherwise not: -p "a OR b" with the group condition c is a OR (b AND c), and a resource may be given that
    satisfies a and not c. *)
Definition ex_v (s : string) : bool := bool_decide (s = "cluster='a'"%string).
Theorem C100_group_refuted : exists v p g, means v p = Some true /\ means v g = Some false /\
  means v (group_condition p g) = Some true.
Proof.
  exists ex_v, [Atom "cluster='a'"; Or; Atom "cluster='b'"]%string, [Atom "gpu='YES'"]%string.
  split; [reflexivity|]. split; reflexivity.
Qed.
(** Likewise an OR in the administrator's own text, or in one of the -p options of a script. *)
Theorem C100_admin_refuted : exists v p admin, means v p = Some false /\ means v admin = Some true /\
  means v (admin_condition p admin) = Some true.
Proof.
  exists ex_v, [Atom "gpu='YES'"]%string, [Atom "cluster='b'"; Or; Atom "cluster='a'"]%string.
  split; [reflexivity|]. split; reflexivity.
Qed.
Example C100_example : means ex_v (admin_condition [Atom "cluster='a'"; Or; Atom "cluster='b'"] [Atom "cluster='b'"])%string = Some false.
Proof. reflexivity. Qed.
Print Assumptions C100_group_partial.
Print Assumptions C100_admin.
Print Assumptions C100_script_partial.
Print Assumptions C100_group_refuted.
Print Assumptions C100_admin_refuted.
