(** Model of the server loop, oar/modules/almighty.py.  No proofs. *)
From Verif Require Import Base.

(** ** Messages of the appendice socket: JSON values.  [MNull]: null.  [MBad]: a value without
    "cmd" field. *)
Inductive msg := MCmd (c : string) | MNull | MBad.

(** re.compile(pattern) in add_command, 315-319: the names of commands are not escaped.
    [rx c] is re.compile("^" + c + "$"): None when it raises, otherwise re.match.  It is a parameter of the
    model; what is used of it is [rx_ok] (letters, digits, blanks and dashes match themselves only)
    and, for the refutation, that a lone parenthesis does not compile. *)
Notation regex := (string -> option (string -> bool)).
Definition literal_char (c : Ascii.ascii) : bool :=
  let n := Ascii.nat_of_ascii c in
  ((65 <=? n) && (n <=? 90) || (97 <=? n) && (n <=? 122) || (48 <=? n) && (n <=? 57) || (n =? 32) || (n =? 45))%nat.
Fixpoint literal (s : string) : bool := match s with EmptyString => true | String c s => literal_char c && literal s end.
Definition rx_ok (rx : regex) : Prop :=
  forall s, literal s = true -> exists f, rx s = Some f /\ forall x, literal x = true -> f x = bool_decide (x = s).

(** ** The state, Almighty.__init__, 178-217 *)
Inductive state := Qget | Scheduler | TimeUpdate | Villains | CheckNodes | Leon | ChangeState.
Record alm := mkAlm { st : state; queue : list string; wanted : bool;
  lastscheduler : Z; lastvillains : Z; lastchecknodes : Z; finish : bool; inbox : list msg }.
Definition init : alm := mkAlm Qget [] false 0 0 0 false [].
Definition with_st (s : state) (a : alm) := mkAlm s (queue a) (wanted a) (lastscheduler a) (lastvillains a) (lastchecknodes a) (finish a) (inbox a).
Definition with_queue (q : list string) (a : alm) := mkAlm (st a) q (wanted a) (lastscheduler a) (lastvillains a) (lastchecknodes a) (finish a) (inbox a).
Definition with_inbox (q : list msg) (a : alm) := mkAlm (st a) (queue a) (wanted a) (lastscheduler a) (lastvillains a) (lastchecknodes a) (finish a) q.
Definition with_finish (a : alm) := mkAlm (st a) (queue a) (wanted a) (lastscheduler a) (lastvillains a) (lastchecknodes a) true (inbox a).
#[global] Instance state_eq_dec : EqDecision state. Proof. solve_decision. Defined.
(** Configuration: SCHEDULER_MIN_TIME_BETWEEN_2_CALLS, FINAUD_FREQUENCY. *)
Record acfg := mkCfg { min_between : Z; finaud : Z }.

(** ** add_command, 310-323 *)
Definition add_command (rx : regex) (c : string) (q : list string) : res (list string) :=
  match rx c with
  | None => Err EName (* re.error *)
  | Some m => Ok (if existsb m q then q else q ++ [c])
  end.

(** ** read_commands with max_successive_read = 1, 325-344, and qget, 289-308: one message, or
    "Time" when nothing comes before the timeout. *)
Definition read_commands (rx : regex) (a : alm) : res alm :=
  match inbox a with
  | [] => q <-- add_command rx "Time" (queue a) ;; Ok (with_queue q a)
  | MCmd c :: l => q <-- add_command rx c (queue a) ;; Ok (with_inbox l (with_queue q a))
  | MNull :: l => Ok (with_inbox l a)
  | MBad :: _ => Err EKey
  end.

(** ** time_update, 253-283; [now]: tools.get_time() *)
Definition time_update (rx : regex) (cf : acfg) (now : Z) (a : alm) : res alm :=
  q <-- (if (lastscheduler a + 60 <=? now) || wanted a && (lastscheduler a + min_between cf <=? now) then add_command rx "Scheduling" (queue a) else Ok (queue a)) ;;
  q <-- (if lastvillains a + 10 <=? now then add_command rx "Villains" q else Ok q) ;;
  q <-- (if (lastchecknodes a + finaud cf <=? now) && (0 <? finaud cf) then add_command rx "Finaud" q else Ok q) ;;
  Ok (with_queue q a).

(** ** run, 346-516: one turn of the loop.  What the environment decides: the messages that have
    arrived, a signal, the death of greta, the clock before and after the child process of the turn
    and the exit code of that child. *)
Record turn := mkTurn { arrive : list msg; signalled : bool; greta_died : bool; clock : Z; clock_after : Z; code : Z }.
(** What can be observed: a command taken from the queue, a child run (with the dates of its
    beginning and end). *)
Inductive child := CSched | CLeon | CVillains | CNodes | CChState.
Inductive obs := OTake (c : string) | ORun (p : child) (b e : Z).

Definition sched_commands : list string := ["Qsub"; "Qsub -I"; "Term"; "BipBip"; "Scheduling"; "Qresume"; "Walltime"]%string.
(** The state for a command, 398-421; an unknown command leaves Qget. *)
Definition dispatch (c : string) : state :=
  if bool_decide (c ∈ sched_commands) then Scheduler
  else if bool_decide (c = "Qdel"%string) then Leon
  else if bool_decide (c = "Villains"%string) then Villains
  else if bool_decide (c = "Finaud"%string) then CheckNodes
  else if bool_decide (c = "Time"%string) then TimeUpdate
  else if bool_decide (c = "ChState"%string) then ChangeState
  else Qget.

Definition step (rx : regex) (cf : acfg) (t : turn) (a : alm) : res (alm * list obs) :=
  let a := with_inbox (inbox a ++ arrive t) a in
  let a := if signalled t then with_finish a else a in
  if finish a then Ok (a, []) (* return 10 *)
  else if greta_died t then Ok (a, [])
  else
  let run p := [ORun p (clock t) (clock_after t)] in
  match st a with
  | Qget =>
      a <-- (match queue a with [] => read_commands rx a | _ => Ok a end) ;;
      match queue a with
      | [] => Err EIndex (* pop from empty list *)
      | c :: q =>
          match (if bool_decide (c = "Time"%string) then q else []) with
          | c' :: q' => Ok (with_st (dispatch c') (with_queue q' a), [OTake c; OTake c'])
          | [] => Ok (with_st (dispatch c) (with_queue q a), [OTake c])
          end
      end
  | Scheduler =>
      if lastscheduler a + min_between cf <=? clock t then
        let a := mkAlm (st a) (queue a) false (clock_after t) (lastvillains a) (lastchecknodes a) (finish a) (inbox a) in
        Ok (if code t =? 0 then with_st ChangeState a else if code t =? 1 then with_st Scheduler a
            else if code t =? 2 then with_st Leon a else with_finish a, run CSched)
      else Ok (mkAlm TimeUpdate (queue a) true (lastscheduler a) (lastvillains a) (lastchecknodes a) (finish a) (inbox a), [])
  | TimeUpdate => a <-- time_update rx cf (clock t) a ;; Ok (with_st Qget a, [])
  | Villains =>
      let a := mkAlm (st a) (queue a) (wanted a) (lastscheduler a) (clock_after t) (lastchecknodes a) (finish a) (inbox a) in
      Ok (if code t =? 1 then with_st Leon a else if code t =? 0 then with_st TimeUpdate a else with_finish a, run CVillains)
  | CheckNodes =>
      let a := mkAlm (st a) (queue a) (wanted a) (lastscheduler a) (lastvillains a) (clock_after t) (finish a) (inbox a) in
      Ok (if code t =? 1 then with_st ChangeState a else if code t =? 0 then with_st TimeUpdate a else with_finish a, run CNodes)
  | Leon =>
      let a := with_st TimeUpdate a in
      if code t =? 1 then q <-- add_command rx "Term" (queue a) ;; Ok (with_queue q a, run CLeon) else Ok (a, run CLeon)
  | ChangeState =>
      if code t =? 2 then q <-- add_command rx "Term" (queue a) ;; Ok (with_st Leon (with_queue q a), run CChState)
      else Ok (if code t =? 1 then with_st Scheduler a else if code t =? 0 then with_st TimeUpdate a else with_finish a, run CChState)
  end.
(** A run of the server: the observations in order. *)
Fixpoint run (rx : regex) (cf : acfg) (l : list turn) (a : alm) : res (alm * list obs) :=
  match l with
  | [] => Ok (a, [])
  | t :: l' => '(a1, o1) <-- step rx cf t a ;; '(a2, o2) <-- run rx cf l' a1 ;; Ok (a2, o1 ++ o2)
  end.
