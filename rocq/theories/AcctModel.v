(** Model of oar/lib/accounting.py:109-324 (the accounting table and its updates), of the columns
    of oar/lib/models.py:95-146 it uses, and of oar/cli/oaraccounting.py:46-67.  No proofs. *)
From Verif Require Import Base.

(** models.py:95-120.  The first six columns are the primary key. *)
Record arow := mkRow { a_start : Z; a_stop : Z; a_user : string; a_project : string;
  a_queue : string; a_type : string; a_cons : Z }.
Notation agroup := (string * string * string * string)%type.
Definition group_of (r : arow) : agroup := (a_user r, a_project r, a_queue r, a_type r).
Definition key_of (r : arow) : Z * Z * agroup := (a_start r, a_stop r, group_of r).

(** add_accounting_row, accounting.py:151-234.  [one_or_none] raises MultipleResultsFound when
    two rows match: [Err EType] here. *)
Definition add_row (T : list arow) (ws we : Z) (g : agroup) (c : Z) : res (list arow) :=
  match filter (fun r => key_of r = (ws, we, g)) T with
  | [] => let '(u, p, q, t) := g in Ok (T ++ [mkRow ws we u p q t c])
  | [r] => Ok ((fun r' => if bool_decide (key_of r' = (ws, we, g))
                          then mkRow (a_start r') (a_stop r') (a_user r') (a_project r') (a_queue r') (a_type r') (c + a_cons r)
                          else r') <$> T)
  | _ => Err EType
  end.

(** The loop of update_accounting, accounting.py:128-148. *)
Fixpoint upd_loop (fuel : nat) (T : list arow) (start stop ws we w : Z) (g : agroup) (nb : Z) : res (list arow) :=
  if start <? stop then
    match fuel with
    | O => Err EFuel
    | S f =>
        let c := if stop <=? we then stop - start else we - start + 1 in
        T <-- add_row T ws we g (c * nb) ;;
        let ws := we + 1 in
        upd_loop f T ws stop ws (we + w) w g nb
    end
  else Ok T.

(** update_accounting, accounting.py:109-148.  [int(start_time / window_size)] is a division of
    floats truncated to an integer: exact below 2^53. *)
Definition update_accounting (T : list arow) (start stop w : Z) (g : agroup) (nb : Z) : res (list arow) :=
  let nb_windows := Z.quot start w in
  let ws := nb_windows * w in
  upd_loop (Z.to_nat (stop - start)) T start stop ws (ws + w - 1) w g nb.

(** The columns of jobs, moldable_job_descriptions, assigned_resources and resources in use. *)
Record ajob := mkAJob { aj_id : Z; aj_state : string; aj_accounted : string; aj_start : Z; aj_stop : Z;
  aj_user : string; aj_project : string; aj_queue : string; aj_mld : Z }.
Record adb := mkAdb { t_jobs : list ajob; t_mlds : list (Z * Z); (** id, walltime *)
  t_assigned : list (Z * Z); (** moldable id, resource id *)
  t_resources : list (Z * string); (** id, type *)
  t_acct : list arow }.

(** count(AssignedResource.resource_id) of the join, for one job and one moldable. *)
Definition nb_default (db : adb) (m : Z) : Z :=
  Z.of_nat (length (filter (fun x => fst (fst x) = m /\ snd (fst x) = fst (snd x) /\ snd (snd x) = "default"%string)
    (list_prod (t_assigned db) (t_resources db)))).

(** The query, accounting.py:241-269: (job, walltime, count); a group exists when its join is not
    empty.  Ids are primary keys, so that groups are (job, moldable) pairs. *)
Definition selected (db : adb) : list (ajob * Z * Z) :=
  j ← filter (fun j => aj_accounted j = "NO"%string /\
                (aj_state j = "Terminated"%string \/ aj_state j = "Error"%string) /\
                aj_start j <= aj_stop j /\ 1 < aj_start j) (t_jobs db);
  m ← filter (fun m => fst m = aj_mld j) (t_mlds db);
  (if 0 <? nb_default db (fst m) then [(j, snd m, nb_default db (fst m))] else []).

(** The loop over the selected jobs, accounting.py:271-310. *)
Definition mark_all (js : list ajob) : list ajob :=
  (fun j => if bool_decide (aj_accounted j = "NO"%string)
            then mkAJob (aj_id j) (aj_state j) "YES" (aj_start j) (aj_stop j) (aj_user j) (aj_project j) (aj_queue j) (aj_mld j)
            else j) <$> js.
Fixpoint treat (w : Z) (l : list (ajob * Z * Z)) (js : list ajob) (T : list arow) : res (list ajob * list arow) :=
  match l with
  | [] => Ok (js, T)
  | (j, walltime, nb) :: l' =>
      let max_stop := aj_start j + walltime in
      T <-- update_accounting T (aj_start j) (aj_stop j) w (aj_user j, aj_project j, aj_queue j, "USED"%string) nb ;;
      T <-- update_accounting T (aj_start j) max_stop w (aj_user j, aj_project j, aj_queue j, "ASKED"%string) nb ;;
      treat w l' (mark_all js) T
  end.

(** check_accounting_update, accounting.py:237-312; [order] is the order in which the database
    returns the selected rows. *)
Definition check_accounting_update (order : list (ajob * Z * Z) -> list (ajob * Z * Z)) (w : Z) (db : adb) : res adb :=
  '(js, T) <-- treat w (order (selected db)) (t_jobs db) (t_acct db) ;;
  Ok (mkAdb js (t_mlds db) (t_assigned db) (t_resources db) T).

(** delete_all_from_accounting, accounting.py:315-321. *)
Definition delete_all (db : adb) : adb :=
  mkAdb ((fun j => mkAJob (aj_id j) (aj_state j) "NO" (aj_start j) (aj_stop j) (aj_user j) (aj_project j) (aj_queue j) (aj_mld j)) <$> t_jobs db)
    (t_mlds db) (t_assigned db) (t_resources db) [].

(** delete_accounting_windows_before, accounting.py:324-329. *)
Definition delete_before (stop : Z) (db : adb) : adb :=
  mkAdb (t_jobs db) (t_mlds db) (t_assigned db) (t_resources db) (filter (fun r => ~ a_stop r <= stop) (t_acct db)).

(** ** Transactions
    [Accounting.create] commits (models.py:57-64) whereas updates of rows and of the jobs table are
    only committed by the final [session.commit()] (accounting.py:312).  An update is the sequence
    of its statements; an interrupted program leaves what was last committed. *)
Inductive stmt := SAdd (ws we : Z) (g : agroup) (c : Z) | SMark.
Fixpoint window_stmts (fuel : nat) (start stop ws we w : Z) (g : agroup) (nb : Z) : list stmt :=
  if start <? stop then
    match fuel with
    | O => []
    | S f =>
        let c := if stop <=? we then stop - start else we - start + 1 in
        SAdd ws we g (c * nb) :: window_stmts f (we + 1) stop (we + 1) (we + w) w g nb
    end
  else [].
Definition stmts_of_update (start stop w : Z) (g : agroup) (nb : Z) : list stmt :=
  let ws := Z.quot start w * w in
  window_stmts (Z.to_nat (stop - start)) start stop ws (ws + w - 1) w g nb.
Definition stmts (w : Z) (l : list (ajob * Z * Z)) : list stmt :=
  x ← l;
  let '(j, walltime, nb) := x in
  stmts_of_update (aj_start j) (aj_stop j) w (aj_user j, aj_project j, aj_queue j, "USED"%string) nb ++
  stmts_of_update (aj_start j) (aj_start j + walltime) w (aj_user j, aj_project j, aj_queue j, "ASKED"%string) nb ++ [SMark].

(** The tables as seen by the session and as committed. *)
Record txn := mkTxn { working : list ajob * list arow; durable : list ajob * list arow }.
Definition commit (x : txn) : txn := mkTxn (working x) (working x).
Definition exec (x : txn) (s : stmt) : res txn :=
  let '(js, T) := working x in
  match s with
  | SAdd ws we g c =>
      T' <-- add_row T ws we g c ;;
      let x' := mkTxn (js, T') (durable x) in
      Ok (if bool_decide (filter (fun r => key_of r = (ws, we, g)) T = []) then commit x' else x')
  | SMark => Ok (mkTxn (mark_all js, T) (durable x))
  end.
Fixpoint exec_all (x : txn) (l : list stmt) : res txn :=
  match l with [] => Ok x | s :: l' => x <-- exec x s ;; exec_all x l' end.

(** check_accounting_update killed after its [n]th statement, before the final commit. *)
Definition interrupted_update (n : nat) (order : list (ajob * Z * Z) -> list (ajob * Z * Z)) (w : Z) (db : adb) : res adb :=
  x <-- exec_all (mkTxn (t_jobs db, t_acct db) (t_jobs db, t_acct db)) (take n (stmts w (order (selected db)))) ;;
  Ok (mkAdb (fst (durable x)) (t_mlds db) (t_assigned db) (t_resources db) (snd (durable x))).
