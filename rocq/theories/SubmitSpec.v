(** What the database says about a job, and what a user asks for. *)
From Verif Require Import Base HierarchyModel SubmitModel.

(** The levels of a group, in order; the groups of a moldable instance, in the order of identifiers; the instances
    of a job. *)
Definition levels_of (d : db) (g : Z) : list (string * Z) :=
  (fun x => (dtype x, dval x)) <$> sort_by dord (base.filter (fun x => dgrp x = g) (descs d)).
Definition groups_of (d : db) (m : Z) : list sgroup :=
  (fun g => (gprop g, levels_of d (gid g))) <$> sort_by gid (base.filter (fun g => gmld g = m) (grps d)).
Definition moldables_of (d : db) (j : Z) : list (Z * Z * list sgroup) :=
  (fun m => (mid m, mwall m, groups_of d (mid m))) <$> sort_by mid (base.filter (fun m => mjob m = j) (mlds d)).

(** What an instance of a request means for the scheduler: a duration (its walltime, or that of the configuration,
    plus the security time; or the duration of besteffort jobs) and groups (levels, resources allowed). *)
Definition meant (dw sec be : Z) (cons : option string -> string -> procset) (props : option string) (m : smold)
  : Z * list (list (string * Z) * procset) :=
  (if be =? 0 then match snd m with Some t => if t =? 0 then dw else t | None => dw end + sec else be,
   (fun g => (snd g, cons props (fst g))) <$> fst m).
(** Some group of the list is there again at the end: of no effect on the search (C101_repeated_group). *)
Definition up_to_repeat {A} (l l' : list A) : Prop := l' = l \/ exists x, last l = Some x /\ l' = l ++ [x].
(** The scheduler's request [l] says the same thing as [req]. *)
Definition says (dw sec be : Z) (cons : option string -> string -> procset) (props : option string)
    (req : list smold) (l : list mrqt) : Prop :=
  Forall2 (fun m r => snd (fst r) = fst (meant dw sec be cons props m) /\
                      up_to_repeat (snd (meant dw sec be cons props m)) (snd r)) req l.

(** A request a user can make: at least one instance, each with at least one group, each with at least one level. *)
Definition proper (req : list smold) : Prop :=
  req <> [] /\ Forall (fun m => fst m <> [] /\ Forall (fun g => snd g <> []) (fst m)) req.

(** A job is fully described: the database holds instances, each with groups, each with levels. *)
Definition described (d : db) (j : Z) : Prop :=
  moldables_of d j <> [] /\
  Forall (fun m => snd m <> [] /\ Forall (fun g => snd g <> []) (snd m)) (moldables_of d j).

(** Histories: submissions one after the other, of jobs and arrays, some cut short; [asks]: what each job asked for,
    for the submissions that came to their end. *)
Record ask := mkAsk { a_job : Z; a_props : option string; a_req : list smold }.
Inductive history (dw : Z) (ro : list Z -> list Z) : db -> list ask -> Prop :=
| h_empty : history dw ro empty_db []
| h_job d asks p array_id index cmd t j : history dw ro d asks -> proper (p_req p) -> array_id < nj d ->
    add_subjob dw ro p array_id index cmd d = Ok (t, j) ->
    history dw ro (default d (last t)) (asks ++ [mkAsk j (p_props p) (p_req p)])
| h_array d asks p gs w cmds t js : history dw ro d asks -> p_req p = [(gs, w)] -> proper (p_req p) ->
    add_array dw ro p gs w cmds d = Ok (t, js) ->
    history dw ro (default d (last t)) (asks ++ ((fun j => mkAsk j (p_props p) (p_req p)) <$> js))
(* the submitting process dies at some commit: the database keeps that state *)
| h_job_dies d asks p array_id index cmd t j d' : history dw ro d asks -> proper (p_req p) -> array_id < nj d ->
    add_subjob dw ro p array_id index cmd d = Ok (t, j) -> d' ∈ t -> history dw ro d' asks
| h_array_dies d asks p gs w cmds t js d' : history dw ro d asks -> p_req p = [(gs, w)] -> proper (p_req p) ->
    add_array dw ro p gs w cmds d = Ok (t, js) -> d' ∈ t -> history dw ro d' asks.
