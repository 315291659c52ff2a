(** Model of the calendar of temporal quotas: oar/kao/quotas.py:30-313, and of its use in
    oar/kao/slot.py:251-264 and 691-726.  Pure transcription, no proofs.
    The parsing of the strings ("08:00-19:00 mon-fri * *") is not modelled: an entry is given by
    its start in the day, its duration, its days.  The beginning of the week of a date
    (quotas.py:252-258, local time) is a parameter. *)
From Verif Require Import Base SlotModel.

(** A periodical: (begin, duration, rules id), quotas.py:155-178. *)
Record per := mkPer { p_begin : Z; p_dur : Z; p_rules : Z }.
Definition WEEK : Z := 7 * 86400.

(** The loop of periodical_fromJson, quotas.py:155-178: [duration] is changed for the days that
    follow an overflow. *)
Fixpoint expand (begin_day duration : Z) (days : list Z) (rid : Z) : list per :=
  match days with
  | [] => []
  | i :: days' =>
      let t0 := 86400 * i + begin_day in
      if WEEK <? t0 + duration then
        let duration0 := (t0 + duration) mod WEEK in
        let duration := duration - duration0 in
        mkPer 0 duration0 rid :: mkPer t0 duration rid :: expand begin_day duration days' rid
      else mkPer t0 duration rid :: expand begin_day duration days' rid
  end.

(** The hours ("*" is None, "hh:mm-hh:mm" in seconds) and days of an entry: quotas.py:124-153. *)
Inductive wdays := WAll | WInterval (d0 d1 : Z) | WList (ds : list Z).
Definition zseq (a b : Z) : list Z := (fun i => a + Z.of_nat i) <$> seq 0 (Z.to_nat (b - a)).
Definition from_json (hm : option (Z * Z)) (wd : wdays) (rid : Z) : list per :=
  let '(begin_day, duration) :=
    match hm with
    | None => (0, 24 * 3600)
    | Some (b, e) => (b, if e =? 0 then 24 * 3600 - b else e - b)
    end in
  match wd with
  | WAll => expand begin_day duration (zseq 0 7) rid
  | WInterval d0 d1 =>
      match hm with
      | None => let d1 := if d1 <? d0 then d1 + 7 else d1 in
                expand begin_day (86400 * (d1 - d0 + 1)) [d0] rid
      | Some _ => expand begin_day duration (zseq d0 (d1 + 1)) rid
      end
  | WList ds => expand begin_day duration ds rid
  end.

(** sorted(range(nb), key=begin): stable; quotas.py:74-76, 105-107.  The ordered ids are
    represented by the ordered list of the periodicals. *)
Fixpoint ins (p : per) (l : list per) : list per :=
  match l with
  | [] => [p]
  | q :: l' => if p_begin q <=? p_begin p then q :: ins p l' else p :: q :: l'
  end.
Definition order (l : list per) : list per := fold_left (fun a p => ins p a) l [].

(** The gaps filled with the default rules, quotas.py:77-104: the periodicals appended. *)
Fixpoint gaps (t : Z) (l : list per) (dflt : Z) : list per :=
  match l with
  | p :: l' =>
      if t <? WEEK then
        (if t =? p_begin p then [] else [mkPer t (p_begin p - t) dflt]) ++ gaps (p_begin p + p_dur p) l' dflt
      else if t =? WEEK then [] else [mkPer t (WEEK - t) dflt]
  | [] => if t =? WEEK then [] else [mkPer t (WEEK - t) dflt]
  end.

(** The periodicals of a calendar, ordered: quotas.py:65-107. *)
Definition periodicals (l : list per) (dflt : option Z) : list per :=
  match dflt with
  | None => order l
  | Some d => order (l ++ gaps 0 (order l) d)
  end.

(** check_periodicals, quotas.py:214-223 (the boolean).  On an empty list the final test reads
    the unbound loop variable: here just false. *)
Fixpoint check_from (t : Z) (l : list per) : bool :=
  match l with
  | [] => t =? WEEK
  | p :: l' => (p_begin p =? t) && check_from (p_begin p + p_dur p) l'
  end.
Definition check_periodicals (l : list per) : bool := check_from 0 l.

(** The scan of periodical_rules_at, quotas.py:261-271: index of the periodical; the loop variable
    keeps its last value when no periodical is accepted. *)
Fixpoint scan (t : Z) (l : list per) (i : nat) : option nat :=
  match l with
  | [] => None
  | p :: l' =>
      if (t <=? p_begin p) && (t <=? p_begin p + p_dur p - 1) then Some i
      else match l' with [] => Some i | _ => scan t l' (S i) end
  end.

(** periodical_rules_at, quotas.py:246-279: (index, rules id, remaining duration). *)
Definition periodical_rules_at (l : list per) (week_of : Z -> Z) (t_epoch : Z) : res (nat * Z * Z) :=
  let t := t_epoch - week_of t_epoch in
  match scan t l 0 with
  | None => Err EName
  | Some i =>
      match l !! i with
      | None => Err EIndex
      | Some p => Ok (i, p_rules p, p_dur p - t)
      end
  end.

(** A one-shot: (begin, end, rules id), ordered by begin; quotas.py:180-212. *)
Record shot := mkShot { s_begin : Z; s_end : Z; s_rules : Z }.

(** oneshot_at, quotas.py:225-244: (remaining, rules id). *)
Fixpoint oneshot_at (l : list shot) (t rem rid : Z) : Z * Z :=
  match l with
  | [] => (0, -1)
  | o :: l' =>
      if (s_begin o <=? t) && (t <=? s_end o) then (s_end o - t, s_rules o)
      else if (t <? s_begin o) && (s_begin o <? t + rem) then (s_begin o - t, rid)
      else oneshot_at l' t rem rid
  end.

(** A calendar: ordered periodicals and one-shots, QUOTAS_PERIOD, and the week of a date. *)
Record calendar := mkCal { pers : list per; shots : list shot; quotas_period : Z; week_of : Z -> Z }.
(** Its mutable part: op_index, period_end. *)
Record cstate := mkCst { op_index : nat; period_end : Z }.

(** rules_at, quotas.py:281-294. *)
Definition rules_at (c : calendar) (t : Z) : res (cstate * Z * Z) :=
  '(i, rid, rem) <-- periodical_rules_at (pers c) (week_of c) t ;;
  let '(orem, orid) := oneshot_at (shots c) t rem rid in
  let st := mkCst i (week_of c t + quotas_period c) in
  Ok (if orem =? 0 then (st, rid, rem) else (st, orid, orem)).

(** next_rules, quotas.py:296-313; rules id None is -1 here (never stored: the duration is 0). *)
Definition next_rules (c : calendar) (st : cstate) (t : Z) : res (cstate * Z * Z) :=
  if period_end st <=? t then Ok (st, -1, 0)
  else
    let i := (S (op_index st) mod length (pers c))%nat in
    match pers c !! i with
    | None => Err EIndex
    | Some p =>
        let '(orem, orid) := oneshot_at (shots c) t (p_dur p) (p_rules p) in
        let st := mkCst i (period_end st) in
        Ok (if orem =? 0 then (st, p_rules p, p_dur p) else (st, orid, orem))
    end.

(** [slot.quotas_rules_id = ...; slot.quotas.set_rules(...)] *)
Definition set_rules_id (r : Z) (s : slot) : slot :=
  set_cont (mkContent (itvs (cont s)) (ts_itvs (cont s)) (ph_itvs (cont s)) (quotas (cont s)) r) s.

(** temporal_quotas_split_slot, slot.py:691-726, loop on explicit fuel. *)
Fixpoint temporal_split (fuel : nat) (c : calendar) (st : cstate) (ss : slotset) (k rid rem : Z)
    : res (slotset * cstate * Z * Z) :=
  match fuel with
  | O => Err EFuel
  | S f =>
      s <-- dget k (slots ss) ;;
      let dur := se s - sb s + 1 in
      if dur <=? rem then
        m <-- dupd k (set_rules_id rid) (slots ss) ;;
        Ok (mkSS m (begin_ ss) (end_ ss) (last_id ss), st, rid, rem - dur)
      else
        '(ss, (_, n)) <-- split_at_after ss (sid s) (sb s + rem) ;;
        m <-- dupd k (set_rules_id rid) (slots ss) ;;
        let ss := mkSS m (begin_ ss) (end_ ss) (last_id ss) in
        b <-- dget n (slots ss) ;;
        '(st, rid, rem) <-- next_rules c st (sb b) ;;
        if rem =? 0 then Ok (ss, st, rid, rem)
        else temporal_split f c st ss n rid rem
  end.

(** The end of the SlotSet constructor, slot.py:251-264. *)
Fixpoint label_loop (fuel : nat) (c : calendar) (st : cstate) (ss : slotset) (i rid rem : Z) : res slotset :=
  if (i =? 0) || (rem =? 0) then Ok ss
  else match fuel with
       | O => Err EFuel
       | S f =>
           s <-- dget i (slots ss) ;;
           '(ss, st, rid, rem) <-- temporal_split (S f) c st ss i rid rem ;;
           label_loop f c st ss (next s) rid rem
       end.
Definition ss_with_calendar (fuel : nat) (c : calendar) (ss : slotset) : res slotset :=
  s <-- dget 1 (slots ss) ;;
  if quotas_rules_id (cont s) =? -1 then
    '(st, rid, rem) <-- rules_at c (begin_ ss) ;;
    label_loop fuel c st ss 1 rid rem
  else Ok ss.
