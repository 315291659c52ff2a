(** What is said about oarwalltime. *)
From Coq Require Import Ascii.
From Verif Require Import Base JobModel FrontSpec ConfSpec QfileSpec WalltimeModel WcmdModel.

(** The change that a text asks for, in seconds, for a job of walltime [wall]: +t, -t, or the new walltime; t is h, h:m or h:m:s. *)
Inductive change_text (wall : Z) : string -> Z -> Prop :=
  | ct_more t n : clock t n -> change_text wall (String "+" t) n
  | ct_less t n : clock t n -> change_text wall (String "-" t) (- n)
  | ct_new t n : clock t n -> change_text wall t (n - wall).
(** The request was recorded for the job [j] of moldable [m]: the change [c] waits, cut so that the end is not in the past. *)
Definition waits (now : Z) (j : job) (m : mld) (c : Z) (d d' : db) : Prop :=
  let remaining := j_start j + m_wall m + suspended_sum now (j_id j) d - now in
  (w_pending <$> filter (fun w => w_job w = j_id j) (wtcs d')) = [Z.max c (- remaining)].
