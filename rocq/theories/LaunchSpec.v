(** What is observed of a launch: independent of how the launcher works. *)
From Verif Require Import Base LaunchModel.

(** The command of the job was sent to a node. *)
Definition started (r : run) : Prop := exists h, AExec h ∈ trace r.
(** The nodes to which the command was sent, in order. *)
Definition heads (l : list act) : list string := a ← l; match a with AExec h => [h] | _ => [] end.
(** The job was put in this state. *)
Definition became (st : string) (r : run) : Prop := ASet st ∈ trace r.
(** An event of the job was committed. *)
Definition reported (r : run) : Prop := exists ty hs, AEvent ty hs ∈ trace r.
Definition recorded (ty : string) (hs : option (list string)) (r : run) : Prop := AEvent ty hs ∈ trace r.
(** The state of the job after some actions. *)
Definition state_after (st : string) (l : list act) : string :=
  fold_left (fun s a => match a with ASet x => x | _ => s end) l st.

(** A history of one job: requests to launch it or reports of its executor, of any form, each with any answer of the
    nodes, and state changes made by the rest of the system. *)
Inductive step := Request (f : finworld) (j : ljob) (w : world) (args : list string) | Other (st : string).
Definition in_state (st : string) (j : ljob) : ljob :=
  mkLjob st (l_type j) (l_resv j) (l_types j) (l_hosts j) (l_challenge j).
Section history.
  Variable int : string -> option Z.
  Definition acts (st : string) (s : step) : list act :=
    match s with
    | Request f j w args => trace (bipbip int f (in_state st j) w args)
    | Other st' => [ASet st']
    end.
  Fixpoint history (st : string) (l : list step) : list act :=
    match l with [] => [] | s :: r => acts st s ++ history (state_after st (acts st s)) r end.
End history.

(** A job whose command runs on its own nodes. *)
Definition on_nodes (j : ljob) : Prop := "deploy"%string ∉ l_types j /\ "cosystem"%string ∉ l_types j /\ l_hosts j <> [].
(** A host whose answer is: command done, exit code 0. *)
Definition answered (out : list string) (h : string) : Prop := ("STATUS " ++ h ++ " 0")%string ∈ out.
(** A line of nmap that tells an open port at an address: Host: a.b.c.d ... /open/ ... *)
Definition numeric (s : string) : Prop := s <> ""%string /\ str_all digit s = true.
Definition open_port (l ip : string) : Prop :=
  exists c n1 n2 n3 n4 r1 r2, space c = true /\ numeric n1 /\ numeric n2 /\ numeric n3 /\ numeric n4 /\
    ip = (n1 ++ "." ++ n2 ++ "." ++ n3 ++ "." ++ n4)%string /\
    (forall d r, (r1 ++ "/open/" ++ r2)%string = String d r -> digit d = false) /\
    l = ("Host:" ++ String c (ip ++ r1 ++ "/open/" ++ r2))%string.
(** A name made of the characters of a host name. *)
Definition host_name (h : string) : Prop := h <> ""%string /\ str_all host_char h = true.
(** The nodes whose cpuset is in place after some actions, when each remote command works on every node it is sent
    to except [bad]. *)
Fixpoint in_place (bad : list string) (l : list act) (now : list string) : list string :=
  match l with
  | ACpuset a hs :: r =>
      in_place bad r (if String.eqb a "init" then now ++ base.filter (fun h => h ∉ bad) hs
                      else base.filter (fun h => h ∉ hs) now)
  | _ :: r => in_place bad r now
  | [] => now
  end.
