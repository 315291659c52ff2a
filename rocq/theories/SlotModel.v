(** Model of oar/kao/slot.py: slots and slot sets.
    Pure transcription, no proofs.  Logging and printing are left out. *)
From Verif Require Import Base.

(** Counters of quotas, keyed by (queue, project, job type, user); each value is
    [nb_resources, nb_jobs, resource*seconds].  oar/kao/quotas.py:535
    ([defaultdict(lambda: [0,0,0])]): an absent key reads as (0,0,0). *)
Definition qkey : Type := string * string * string * string.
Notation counters := (gmap qkey (Z * Z * Z)).

(** What a slot holds besides its place in the chain:
    available resources, time-sharing sets [user][name], placeholder sets [name]
    (oar/kao/slot.py:64-81), and, when quotas are enabled, the counters and the
    rule-set number (slot.py:83-85).  The rule tree kept in [slot.quotas] is a function of
    the rule-set number and is not duplicated here. *)
Record content := mkContent {
  itvs : procset;
  ts_itvs : gmap string (gmap string procset);
  ph_itvs : gmap string procset;
  quotas : option counters;      (* None: [Quotas.enabled] was False at creation *)
  quotas_rules_id : Z
}.

(** class Slot, oar/kao/slot.py:21-85.  [b], [e]: first and last second of the slot. *)
Record slot := mkSlot {
  sid : Z;
  prev : Z;
  next : Z;
  sb : Z;
  se : Z;
  cont : content
}.

(** The attributes of a job read by slot.py / scheduling.py / quotas.py.
    Optional attributes are those a [JobPseudo] (oar/lib/job_handling.py:80-104)
    may lack: reading a missing one raises AttributeError. *)
Record job := mkJob {
  jid : Z;
  start_time : Z;
  walltime : Z;
  res_set : procset;
  jts : bool;
  jts_user : option string;
  jts_name : option string;
  jph : Z;                       (* 0 NO_PLACEHOLDER, 1 PLACEHOLDER, 2 ALLOW: job_handling.py:75-77 *)
  jph_name : option string;
  jname : string;
  juser : string;
  jqueue : string;
  jproject : string;
  jtypes : list (string * string) (* job.types, a dict in insertion order *)
}.

Definition NO_PLACEHOLDER : Z := 0.   (* oar/lib/job_handling.py:75 *)
Definition PLACEHOLDER : Z := 1.      (* oar/lib/job_handling.py:76 *)
Definition ALLOW : Z := 2.            (* oar/lib/job_handling.py:77 *)

(** [t in job.types] *)
Definition has_type (t : string) (j : job) : bool :=
  bool_decide (t ∈ (fst <$> jtypes j)).

(** class SlotSet, oar/kao/slot.py:192-264; [cache] belongs to the scheduling model. *)
Record slotset := mkSS {
  slots : gmap Z slot;
  begin_ : Z;
  end_ : Z;
  last_id : Z
}.

Definition MAX_TIME : Z := 2147483648.   (* slot.py:18 *)

(** Global configuration read by [Quotas.update]: [ResourceSet.default_itvs]
    and [Quotas.job_types] (quotas.py:516-519). *)
Record qenv := mkQenv {
  default_itvs : procset;
  q_job_types : list string
}.

(** A content with the given resources and nothing else, as built by the Slot
    constructor (slot.py:64-85); [q] says whether quotas are enabled. *)
Definition fresh_content (q : bool) (x : procset) : content :=
  mkContent x ∅ ∅ (if q then Some ∅ else None) (-1).

(** SlotSet(slot): slot.py:241-245 (single slot; ids are given by the caller, the
    callers all use Slot(1, 0, 0, ...)). *)
Definition ss_of_slot (s : slot) : slotset :=
  mkSS {[ 1 := s ]} (sb s) (se s) 1.

(** SlotSet((itvs, b)): slot.py:235-239. *)
Definition ss_of_pair (q : bool) (x : procset) (b : Z) : slotset :=
  mkSS {[ 1 := mkSlot 1 0 0 b MAX_TIME (fresh_content q x) ]} b MAX_TIME 1.

Definition ZERO3 : Z * Z * Z := (0, 0, 0).
Definition cget (c : counters) (k : qkey) : Z * Z * Z := default ZERO3 (c !! k).

(** One "+=" on the three cells of a counter: quotas.py:577-602. *)
Definition cadd (nb nj nt : Z) (c : counters) (k : qkey) : counters :=
  let '(a, b, d) := cget c k in <[ k := (a + nb, b + nj, d + nt) ]> c.

(** The eight keys updated for one job type: quotas.py:577-584. *)
Definition job_keys (queue project user t : string) : list qkey :=
  [ ("*", "*", t, "*"); ("*", "*", t, user); ("*", project, t, "*");
    (queue, "*", t, "*"); (queue, project, t, user); (queue, project, t, "*");
    (queue, "*", t, user); ("*", project, t, user) ]%string.

(** Quotas.update with the number of resources and the duration already chosen
    (quotas.py:574-602). *)
Definition q_update_with (types : list string) (queue project user : string)
    (jt : list string) (nb dur : Z) (c : counters) : counters :=
  fold_left (fun c t =>
      if bool_decide (t = "*"%string) || bool_decide (t ∈ jt) then
        fold_left (cadd nb 1 (nb * dur)) (job_keys queue project user t) c
      else c)
    types c.

(** Quotas.update for a job holding [res_set] and [walltime]: quotas.py:555-572. *)
Definition q_update (env : qenv) (j : job) (c : counters) : counters :=
  q_update_with (q_job_types env) (jqueue j) (jproject j) (juser j) (fst <$> jtypes j)
    (Z.of_nat (size (res_set j ∩ default_itvs env))) (walltime j) c.

(** intersec_itvs_slots, slot.py:118-148.  Loop on explicit fuel. *)
Fixpoint intersec_loop (fuel : nat) (m : gmap Z slot) (sd right_ : Z) (acc : procset) : res procset :=
  if bool_decide (sd = right_) then Ok acc
  else match fuel with
       | O => Err EFuel
       | S f =>
           s <-- dget sd m ;;
           s' <-- dget (next s) m ;;
           intersec_loop f m (next s) right_ (acc ∩ itvs (cont s'))
       end.

Definition intersec_itvs_slots (m : gmap Z slot) (sid_left sid_right : Z) : res procset :=
  s <-- dget sid_left m ;;
  intersec_loop (size m) m sid_left sid_right (itvs (cont s)).

(** What a slot offers to a time-sharing / placeholder job: slot.py:161-180.
    [job.ph_name] is read only when [job.ph == ALLOW]. *)
Definition ts_ph_itvs (j : job) (c : content) : res procset :=
  let x := itvs c in
  let x :=
    if jts j then
      match ts_itvs c !! "*"%string with
      | Some d =>
          match d !! "*"%string with
          | Some y => x ∪ y
          | None => match d !! jname j with Some y => x ∪ y | None => x end
          end
      | None =>
          match ts_itvs c !! juser j with
          | Some d =>
              match d !! "*"%string with
              | Some y => x ∪ y
              | None => match d !! jname j with Some y => x ∪ y | None => x end
              end
          | None => x
          end
      end
    else x in
  if bool_decide (jph j = ALLOW) then
    match jph_name j with
    | None => Err EAttr
    | Some n => match ph_itvs c !! n with Some y => Ok (x ∪ y) | None => Ok x end
    end
  else Ok x.

(** intersec_ts_ph_itvs_slots, slot.py:151-189.  Note slot.py:182: an accumulator that
    is empty is replaced, not intersected. *)
Fixpoint intersec_ts_loop (fuel : nat) (m : gmap Z slot) (sd right_ : Z) (j : job) (acc : procset) : res procset :=
  match fuel with
  | O => Err EFuel
  | S f =>
      s <-- dget sd m ;;
      x <-- ts_ph_itvs j (cont s) ;;
      let acc := if nonempty acc then acc ∩ x else x in
      if bool_decide (sd = right_) then Ok acc
      else intersec_ts_loop f m (next s) right_ j acc
  end.

Definition intersec_ts_ph_itvs_slots (m : gmap Z slot) (sid_left sid_right : Z) (j : job) : res procset :=
  intersec_ts_loop (S (size m)) m sid_left sid_right j ∅.

(** SlotSet.first, slot.py:330-336.  Python scans the dict in insertion order and takes
    the first slot with prev = 0; in every well-formed slot set it is unique, so the
    order in which the model scans does not matter. *)
Definition first (m : gmap Z slot) : res slot :=
  match base.filter (fun s => prev s = 0) ((map_to_list m).*2) with
  | s :: _ => Ok s
  | [] => Err EIndex
  end.

(** SlotSet.last, slot.py:338-346. *)
Definition last_slot (m : gmap Z slot) : res slot :=
  match base.filter (fun s => next s = 0) ((map_to_list m).*2) with
  | s :: _ => Ok s
  | [] => Err EIndex
  end.

(** SlotSet.slot_id_at, slot.py:348-378. *)
Fixpoint slot_at_loop (fuel : nat) (m : gmap Z slot) (cur : slot) (date : Z) : res slot :=
  if (se cur <? date) && negb (next cur =? 0) then
    match fuel with
    | O => Err EFuel
    | S f => s <-- dget (next cur) m ;; slot_at_loop f m s date
    end
  else Ok cur.

Definition slot_id_at (m : gmap Z slot) (date starting_id : Z) : res Z :=
  rassert ((starting_id =? 0) || bool_decide (is_Some (m !! starting_id)))
  (cur <-- (if negb (starting_id =? 0) then dget starting_id m else first m) ;;
   if date <? sb cur then Ok 0
   else
     c <-- slot_at_loop (size m) m cur date ;;
     if (next c =? 0) && (se c <? date) then Ok 0 else Ok (sid c)).

(** field updates *)
Definition set_prev (p : Z) (s : slot) := mkSlot (sid s) p (next s) (sb s) (se s) (cont s).
Definition set_next (n : Z) (s : slot) := mkSlot (sid s) (prev s) n (sb s) (se s) (cont s).
Definition set_b (b : Z) (s : slot) := mkSlot (sid s) (prev s) (next s) b (se s) (cont s).
Definition set_e (e : Z) (s : slot) := mkSlot (sid s) (prev s) (next s) (sb s) e (cont s).
Definition set_cont (c : content) (s : slot) := mkSlot (sid s) (prev s) (next s) (sb s) (se s) c.

(** [self.slots[k].field = v]: KeyError when absent. *)
Definition dupd (k : Z) (f : slot -> slot) (m : gmap Z slot) : res (gmap Z slot) :=
  s <-- dget k m ;; Ok (<[ k := f s ]> m).

(** SlotSet.copy_intervals_set, slot.py:582-595: copies the whole content. *)
Definition copy_intervals_set (m : gmap Z slot) (from to_ : Z) : res (gmap Z slot) :=
  rassert (negb (from =? to_) && negb (to_ =? 0))
  (sf <-- dget from m ;;
   dupd to_ (set_cont (cont sf)) m).

(** SlotSet.split_at_before, slot.py:380-435. *)
Definition split_at_before (ss : slotset) (slot_id date : Z) : res (slotset * (Z * Z)) :=
  let m := slots ss in
  rassert (negb (slot_id =? 0))
  (s <-- dget slot_id m ;;
   rassert ((sb s <=? date) && (date <=? se s))
   (if sb s =? se s then Ok (ss, (slot_id, slot_id))
    else
      let new_slot_end := if sb s =? date then sb s else date - 1 in
      let new_id := last_id ss + 1 in
      let new_slot := mkSlot new_id (prev s) (sid s) (sb s) new_slot_end
                        (fresh_content (bool_decide (is_Some (quotas (cont s)))) ∅) in
      m <-- (if negb (prev s =? 0) then dupd (prev s) (set_next new_id) m else Ok m) ;;
      m <-- dupd slot_id (set_prev new_id) m ;;
      m <-- dupd slot_id (set_b (if sb s =? date then sb s + 1 else date)) m ;;
      m <-- copy_intervals_set (<[ new_id := new_slot ]> m) (sid s) new_id ;;
      Ok (mkSS m (begin_ ss) (end_ ss) new_id, (new_id, sid s)))).

(** SlotSet.split_at_after, slot.py:437-496. *)
Definition split_at_after (ss : slotset) (slot_id date : Z) : res (slotset * (Z * Z)) :=
  let m := slots ss in
  rassert (negb (slot_id =? 0))
  (s <-- dget slot_id m ;;
   rassert ((sb s <=? date) && (date <=? se s))
   (if sb s =? se s then Ok (ss, (slot_id, slot_id))
    else
      let new_slot_begin := if sb s =? date then sb s + 1 else date in
      let new_id := last_id ss + 1 in
      let new_slot := mkSlot new_id (sid s) (next s) new_slot_begin (se s)
                        (fresh_content (bool_decide (is_Some (quotas (cont s)))) ∅) in
      m <-- (if negb (next s =? 0) then dupd (next s) (set_prev new_id) m else Ok m) ;;
      m <-- dupd slot_id (set_next new_id) m ;;
      m <-- dupd slot_id (set_e (if sb s =? date then date else date - 1)) m ;;
      m <-- copy_intervals_set (<[ new_id := new_slot ]> m) (sid s) new_id ;;
      Ok (mkSS m (begin_ ss) (end_ ss) new_id, (sid s, new_id)))).

(** SlotSet.find_and_split_at, slot.py:498-500. *)
Definition find_and_split_at (ss : slotset) (date : Z) : res (slotset * (Z * Z)) :=
  i <-- slot_id_at (slots ss) date 0 ;;
  split_at_after ss i date.

(** SlotSet.traverse_id, slot.py:536-563: the list of the slot ids yielded.
    (The loop bodies of the callers never change the links, so the generator can be
    run to the end first.) *)
Fixpoint traverse_loop (fuel : nat) (m : gmap Z slot) (s : slot) (stop : Z) : res (list slot) :=
  if negb (sid s =? 0) && negb (next s =? 0) && negb (sid s =? stop) then
    match fuel with
    | O => Err EFuel
    | S f =>
        s' <-- dget (next s) m ;;
        l <-- traverse_loop f m s' stop ;;
        Ok (s :: l)
    end
  else Ok [s].

Definition traverse_id (m : gmap Z slot) (start stop : Z) : res (list slot) :=
  if (negb (start =? 0) && bool_decide (m !! start = None))
     || (negb (stop =? 0) && bool_decide (m !! stop = None)) then Ok []
  else
    s <-- (if negb (start =? 0) then dget start m else first m) ;;
    traverse_loop (size m) m s stop.

(** SlotSet.get_encompassing_range, slot.py:502-516. *)
Fixpoint range_loop (l : list slot) (start stop first_slot : Z) : Z * Z :=
  match l with
  | [] => (first_slot, 0)
  | s :: l' =>
      let first_slot := if (sb s <=? start) && (start <=? se s) then sid s else first_slot in
      if (sb s <=? stop) && (stop <=? se s) then (first_slot, sid s)
      else range_loop l' start stop first_slot
  end.

Definition get_encompassing_range (m : gmap Z slot) (start stop : Z) : res (Z * Z) :=
  rassert (start <=? stop)
  (l <-- traverse_id m 0 0 ;; Ok (range_loop l start stop 0)).

(** SlotSet.get_encompassing_slots, slot.py:518-534.  [first_id = 0] stands for
    [None] (Python tests its truth value). *)
Fixpoint left_loop (fuel : nat) (m : gmap Z slot) (i t_begin : Z) : res Z :=
  s <-- dget i m ;;
  if se s <? t_begin then
    match fuel with O => Err EFuel | S f => left_loop f m (next s) t_begin end
  else Ok i.

Fixpoint right_loop (fuel : nat) (m : gmap Z slot) (i t_end : Z) : res Z :=
  s <-- dget i m ;;
  if (se s <? t_end) && negb (next s =? 0) then
    match fuel with O => Err EFuel | S f => right_loop f m (next s) t_end end
  else Ok i.

Definition get_encompassing_slots (m : gmap Z slot) (t_begin t_end first_id : Z) : res (Z * Z) :=
  i <-- (if negb (first_id =? 0) then Ok first_id else (s <-- first m ;; Ok (sid s))) ;;
  l <-- left_loop (size m) m i t_begin ;;
  r <-- right_loop (size m) m l t_end ;;
  Ok (l, r).

(** SlotSet.traverse_with_width, slot.py:565-580, with end_id = 0 as in all callers:
    the list of (start slot, end slot) yielded. *)
Fixpoint find_end (l : list slot) (b width : Z) : option slot :=
  match l with
  | [] => None
  | s :: l' => if width <=? se s - b + 1 then Some s else find_end l' b width
  end.

Fixpoint windows (m : gmap Z slot) (l : list slot) (width : Z) : res (list (slot * slot)) :=
  match l with
  | [] => Ok []
  | s :: l' =>
      inner <-- traverse_id m (sid s) 0 ;;
      rest <-- windows m l' width ;;
      match find_end inner (sb s) width with
      | Some e => Ok ((s, e) :: rest)
      | None => Ok rest
      end
  end.

Definition traverse_with_width (m : gmap Z slot) (width start_id : Z) : res (list (slot * slot)) :=
  rassert (0 <? width)
  (l <-- traverse_id m start_id 0 ;; windows m l width).

(** Reading an attribute a JobPseudo may lack. *)
Definition attr {A} (o : option A) : res A := match o with Some a => Ok a | None => Err EAttr end.

(** SlotSet.sub_slot_during_job, slot.py:598-616, on the content of a slot. *)
Definition sub_ts (j : job) (c : content) : res content :=
  if jts j then
    u <-- attr (jts_user j) ;;
    n <-- attr (jts_name j) ;;
    let d := default ∅ (ts_itvs c !! u) in
    let d := match d !! n with None => <[ n := res_set j ]> d | Some _ => d end in
    Ok (mkContent (itvs c) (<[ u := d ]> (ts_itvs c)) (ph_itvs c) (quotas c) (quotas_rules_id c))
  else Ok c.

Definition sub_ph_allow (j : job) (c : content) : res content :=
  if jph j =? ALLOW then
    n <-- attr (jph_name j) ;;
    match ph_itvs c !! n with
    | Some y => Ok (mkContent (itvs c) (ts_itvs c) (<[ n := y ∖ res_set j ]> (ph_itvs c)) (quotas c) (quotas_rules_id c))
    | None => Ok c
    end
  else Ok c.

Definition sub_ph_set (j : job) (c : content) : res content :=
  if jph j =? PLACEHOLDER then
    n <-- attr (jph_name j) ;;
    Ok (mkContent (itvs c) (ts_itvs c) (<[ n := res_set j ]> (ph_itvs c)) (quotas c) (quotas_rules_id c))
  else Ok c.

Definition sub_quotas (env : qenv) (j : job) (c : content) : content :=
  match quotas c with
  | Some q =>
      if has_type "container" j then c
      else mkContent (itvs c) (ts_itvs c) (ph_itvs c) (Some (q_update env j q)) (quotas_rules_id c)
  | None => c
  end.

Definition sub_content (env : qenv) (j : job) (c : content) : res content :=
  let c := mkContent (itvs c ∖ res_set j) (ts_itvs c) (ph_itvs c) (quotas c) (quotas_rules_id c) in
  c <-- sub_ts j c ;;
  c <-- sub_ph_allow j c ;;
  c <-- sub_ph_set j c ;;
  Ok (sub_quotas env j c).

(** SlotSet.add_slot_during_job, slot.py:619-637. *)
Definition add_ts (j : job) (c : content) : res content :=
  if jts j then
    u <-- attr (jts_user j) ;;
    n <-- attr (jts_name j) ;;
    let d := default ∅ (ts_itvs c !! u) in
    let d := match d !! n with
             | None => <[ n := res_set j ]> d
             | Some y => <[ n := y ∪ res_set j ]> d
             end in
    Ok (mkContent (itvs c) (<[ u := d ]> (ts_itvs c)) (ph_itvs c) (quotas c) (quotas_rules_id c))
  else Ok c.

Definition add_ph (j : job) (c : content) : res content :=
  if jph j =? PLACEHOLDER then
    n <-- attr (jph_name j) ;;
    let y := match ph_itvs c !! n with Some y => y ∪ res_set j | None => res_set j end in
    Ok (mkContent (itvs c) (ts_itvs c) (<[ n := y ]> (ph_itvs c)) (quotas c) (quotas_rules_id c))
  else Ok c.

Definition add_content (j : job) (c : content) : res content :=
  let c := if negb (jts j) && (jph j =? NO_PLACEHOLDER)
           then mkContent (itvs c ∪ res_set j) (ts_itvs c) (ph_itvs c) (quotas c) (quotas_rules_id c)
           else c in
  c <-- add_ts j c ;;
  add_ph j c.

Definition upd_content (env : qenv) (sub : bool) (j : job) (c : content) : res content :=
  if sub then sub_content env j c else add_content j c.

(** The for-loop of split_slots, slot.py:662-669, over the slots yielded. *)
Fixpoint upd_slots (env : qenv) (sub : bool) (j : job) (ids : list slot) (m : gmap Z slot) : res (gmap Z slot) :=
  match ids with
  | [] => Ok m
  | s :: ids' =>
      s' <-- dget (sid s) m ;;
      c <-- upd_content env sub j (cont s') ;;
      upd_slots env sub j ids' (<[ sid s := set_cont c s' ]> m)
  end.

(** SlotSet.split_slots, slot.py:639-669. *)
Definition split_slots (env : qenv) (ss : slotset) (sid_left sid_right : Z) (j : job) (sub : bool) : res slotset :=
  sl <-- dget sid_left (slots ss) ;;
  '(ss, sid_left) <--
     (if sb sl <? start_time j
      then '(ss', (_, l)) <-- split_at_before ss sid_left (start_time j) ;; Ok (ss', l)
      else Ok (ss, sid_left)) ;;
  sr <-- dget sid_right (slots ss) ;;
  '(ss, sid_right) <--
     (if start_time j + walltime j <? se sr
      then '(ss', (r, _)) <-- split_at_after ss sid_right (start_time j + walltime j) ;; Ok (ss', r)
      else Ok (ss, sid_right)) ;;
  ids <-- traverse_id (slots ss) sid_left sid_right ;;
  m <-- upd_slots env sub j ids (slots ss) ;;
  Ok (mkSS m (begin_ ss) (end_ ss) (last_id ss)).

(** SlotSet.split_slots_jobs, slot.py:671-689. *)
Fixpoint split_slots_jobs_loop (env : qenv) (jobs : list job) (sub : bool) (ss : slotset) (first_id : Z) : res slotset :=
  match jobs with
  | [] => Ok ss
  | j :: jobs' =>
      if negb (start_time j + walltime j <? begin_ ss) && negb (end_ ss <? start_time j) then
        '(l, r) <-- get_encompassing_slots (slots ss) (start_time j) (start_time j + walltime j - 1) first_id ;;
        ss' <-- split_slots env ss l r j sub ;;
        split_slots_jobs_loop env jobs' sub ss' l
      else split_slots_jobs_loop env jobs' sub ss first_id
  end.

Definition split_slots_jobs (env : qenv) (ss : slotset) (jobs : list job) (sub : bool) : res slotset :=
  s <-- first (slots ss) ;;
  split_slots_jobs_loop env jobs sub ss (sid s).
