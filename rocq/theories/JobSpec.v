(** What the statements about the life of jobs talk about. *)
From Verif Require Import Base JobModel.

(** Everything the modelled components can do to the job tables, one database user at a time.
    A run of Sarko or NodeChangeState that stops on an exception has done a sequence of these. *)
Inductive action :=
| ASubmit (hold : bool) (j : job)
| ASet (id : Z) (state : string)             (** any request to change a state *)
| AFrag (u : string) (id : Z)
| ACheckpoint (signal : option string) (u : string) (id : Z)
| AHold (allowed running : bool) (u : string) (id : Z)
| AResume (allowed : bool) (u : string) (id : Z)
| ASarkoTimers (soft hard : Z)
| ASarkoWalltime (u : string) (j : job)
| ALeon (evs : list string)
| ALeonJob (evs : list string) (id : Z)
| AEnd (error : Z) (has_host : bool) (evs : list string) (id : Z)
| ANodeChange (u : string) (out : susp) (ev : event).

(** Job ids are primary keys: the database refuses a second job with the same id. *)
Definition step (date : Z) (a : action) (d : db) : db :=
  match a with
  | ASubmit hold j => if bool_decide (j_id j ∈ (j_id <$> jobs d)) then d else submit date hold j d
  | ASet id s => set_job_state date id s d
  | AFrag u id => snd (frag_job date u id d)
  | ACheckpoint s u id => snd (ask_checkpoint s u id d)
  | AHold al r u id => snd (hold_job al r u id d)
  | AResume al u id => snd (resume_job al u id d)
  | ASarkoTimers soft hard => sarko_timers soft hard date d
  | ASarkoWalltime u j => from_ok d (sarko_walltime date u d j)
  | ALeon evs => leon date evs d
  | ALeonJob evs id => leon_job evs id d
  | AEnd error hh evs id => end_of_job date error hh evs id d
  | ANodeChange u out ev => from_ok d (ncs_event date u out ev d)
  end.
Definition run (h : list (Z * action)) (d : db) : db := fold_left (fun d x => step x.1 x.2 d) h d.
Definition empty_db : db := mkDb [] [] [] [] [] [].

(** A clock that starts at [now] > 0 and never goes back. *)
Fixpoint clock (now : Z) (h : list (Z * action)) : Prop :=
  match h with
  | [] => True
  | (t, _) :: h' => now <= t /\ clock t h'
  end.

Definition finished (s : string) : Prop := s = "Terminated"%string \/ s = "Error"%string.

(** The log of one job is a timeline that ends in the open entry of its current state. *)
Fixpoint timeline (cur : string) (l : list slog) : Prop :=
  match l with
  | [] => False
  | e :: l' =>
      match l' with
      | [] => l_stop e = 0 /\ l_state e = cur
      | e' :: _ => l_stop e <> 0 /\ l_start e <= l_stop e /\ l_stop e = l_start e' /\ l_state e <> l_state e' /\ timeline cur l'
      end
  end.
Definition log_of (id : Z) (d : db) : list slog := filter (fun e => l_job e = id) (logs d).
Definition submitted_at (id : Z) (d : db) : option Z := l_start <$> head (log_of id d).
Definition sum (l : list Z) : Z := foldr Z.add 0 l.

(** Deletion requests: one row per job. *)
Definition frag_state (id : Z) (d : db) : option string := f_state <$> head (filter (fun f => f_job f = id) (frags d)).
Definition one_row (d : db) : Prop := NoDup (f_job <$> frags d).
