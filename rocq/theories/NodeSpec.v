(** Specification: the log of the states of a resource is a timeline. *)
From Verif Require Import Base JobModel NodeModel.
(** The entries about the state of resource [id]. *)
Definition history (id : Z) (l : list rlog) : list rlog := filter (fun e => g_res e = id /\ g_attr e = "state"%string) l.
(** Each entry ends when the next one starts, not before its own start. *)
Fixpoint chain (l : list rlog) : Prop :=
  match l with e1 :: (e2 :: _) as t => g_stop e1 = g_start e2 /\ g_start e1 <= g_stop e1 /\ chain t | _ => True end.
(** The last entry is the only open one, and it tells the state. *)
Definition faithful (now : Z) (state : string) (l : list rlog) : Prop :=
  exists pre e, l = pre ++ [e] /\ g_stop e = 0 /\ g_value e = state /\ g_start e <= now /\ (forall x, x ∈ pre -> g_stop x <> 0) /\ chain l.
Definition timeline (now : Z) (d : ndb) : Prop := forall r, r ∈ rscs d -> faithful now (r_state r) (history (r_id r) (rlogs d)).
