(** Model of the launch commander, oar/modules/bipbip_commander.py:142-226.  No proofs. *)
From Verif Require Import Base.

(** A command: its job and the rest of the message (a number stands for command name and arguments).
    A message without "job_id" (KeyError) is not modelled: the proxy (appendice_proxy.py:66-73) and
    notify_bipbip_commander always give one. *)
Notation cmd := (Z * Z)%type.
(** Where the loop of [run] is: waiting for a message; in the loop over the commands to run; at
    the requeue and the removal of finished executors. *)
Inductive pc := PRecv | PLoop | PEnd.
(** [executors]: the dictionary job -> process; [alive]: the processes still alive, with their
    job; [started]: the commands given to a process so far; [received]: all the messages. *)
Record st := mkSt { at_ : pc; to_run : list cmd; requeue : list cmd; executors : list (Z * nat);
  alive : list (nat * Z); next : nat; started : list cmd; received : list cmd }.
Definition init : st := mkSt PRecv [] [] [] [] 0 [] [].

(** Process.is_alive *)
Definition is_alive (s : st) (p : nat) : bool := existsb (fun x => Nat.eqb (fst x) p) (alive s).
Definition executor_of (s : st) (j : Z) : option nat := snd <$> head (filter (fun x => fst x = j) (executors s)).
(** One turn of the loop over the commands, 166-204. *)
Definition launch (s : st) : st :=
  match to_run s with
  | [] => s
  | c :: l =>
      if match executor_of s (fst c) with Some p => is_alive s p | None => false end
      then mkSt PLoop l (requeue s ++ [c]) (executors s) (alive s) (next s) (started s) (received s)
      else mkSt PLoop l (requeue s) (filter (fun x => fst x <> fst c) (executors s) ++ [(fst c, next s)])
             ((next s, fst c) :: alive s) (S (next s)) (started s ++ [c]) (received s)
  end.
(** What can happen: a message arrives while the commander waits; the wait times out (the timeout
    is set only when commands remain, 220-223); a process ends, at any time; the commander makes
    its next step. *)
Inductive action := Receive (c : cmd) | Timeout | Die (p : nat) | Go.
Definition step (max : Z) (a : action) (s : st) : st :=
  match a, at_ s with
  | Receive c, PRecv => mkSt PLoop (to_run s ++ [c]) (requeue s) (executors s) (alive s) (next s) (started s) (received s ++ [c])
  | Timeout, PRecv => match to_run s with [] => s | _ => mkSt PLoop (to_run s) (requeue s) (executors s) (alive s) (next s) (started s) (received s) end
  | Die p, _ => mkSt (at_ s) (to_run s) (requeue s) (executors s) (filter (fun x => fst x <> p) (alive s)) (next s) (started s) (received s)
  | Go, PLoop =>
      match to_run s with
      | _ :: _ => if Z.of_nat (length (executors s)) <=? max then launch s
                  else mkSt PEnd (to_run s) (requeue s) (executors s) (alive s) (next s) (started s) (received s)
      | [] => mkSt PEnd (to_run s) (requeue s) (executors s) (alive s) (next s) (started s) (received s)
      end
  | Go, PEnd => mkSt PRecv (to_run s ++ requeue s) [] (filter (fun x => is_alive s (snd x) = true) (executors s)) (alive s) (next s) (started s) (received s)
  | _, _ => s
  end.
Definition run (max : Z) (l : list action) (s : st) : st := fold_left (fun s a => step max a s) l s.
