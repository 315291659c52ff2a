(** Specification vocabulary for slot sets: what a well-formed slot set is and what it
    says about an instant.  Nothing here refers to the operations of the model. *)
From Verif Require Import Base SlotModel.

(** [linked p l n]: [l] is a doubly linked chain; [p] is what the first slot calls
    "previous" and [n] what the last one calls "next" (0 = none). *)
Definition headid (n : Z) (l : list slot) : Z := match l with [] => n | s :: _ => sid s end.

Fixpoint linked (p : Z) (l : list slot) (n : Z) : Prop :=
  match l with
  | [] => True
  | s :: l' => prev s = p /\ next s = headid n l' /\ linked (sid s) l' n
  end.

(** [contig t l e]: the slots of [l] follow each other in time without gap or overlap,
    each lasting at least one second, and cover exactly [t..e]. *)
Fixpoint contig (t : Z) (l : list slot) (e : Z) : Prop :=
  match l with
  | [] => t = e + 1
  | s :: l' => sb s = t /\ sb s <= se s /\ contig (se s + 1) l' e
  end.

(** The dictionary of slots holds exactly the slots of the list, under their own ids. *)
Definition holds (m : gmap Z slot) (l : list slot) : Prop :=
  forall i s, m !! i = Some s <-> s ∈ l /\ sid s = i.

(** A slot set represents the list of slots [l], in chronological order. *)
Record Repr (ss : slotset) (l : list slot) : Prop := {
  repr_ne : l <> [];
  repr_linked : linked 0 l 0;
  repr_contig : contig (begin_ ss) l (end_ ss);
  repr_nodup : NoDup (sid <$> l);
  repr_ids : Forall (fun s => 0 < sid s <= last_id ss) l;
  repr_map : holds (slots ss) l
}.

Definition WF (ss : slotset) : Prop := exists l, Repr ss l.

(** [content_at ss t c]: at instant [t] the slot set says [c]. *)
Definition content_at (ss : slotset) (t : Z) (c : content) : Prop :=
  exists i s, slots ss !! i = Some s /\ sb s <= t <= se s /\ cont s = c.

(** [free_at ss t r]: resource [r] is available at instant [t]. *)
Definition free_at (ss : slotset) (t r : Z) : Prop :=
  exists c, content_at ss t c /\ r ∈ itvs c.

(** The attributes a job needs for the features it uses. *)
Definition job_ok (j : job) : Prop :=
  (jts j = true -> is_Some (jts_user j) /\ is_Some (jts_name j)) /\
  (jph j = ALLOW \/ jph j = PLACEHOLDER -> is_Some (jph_name j)).

(** A plain job: no time-sharing, no placeholder. *)
Definition plain (j : job) : Prop := jts j = false /\ jph j = NO_PLACEHOLDER.

(** Resources a content explicitly lets job [j] share: through time-sharing, for the
    job's user or anybody and the job's name or any name, ... *)
Definition shared_with (j : job) (c : content) (r : Z) : Prop :=
  jts j = true /\
  exists u n d y, (u = "*"%string \/ u = juser j) /\ (n = "*"%string \/ n = jname j) /\
    ts_itvs c !! u = Some d /\ d !! n = Some y /\ r ∈ y.

(** ... or through the placeholder the job is allowed in. *)
Definition placeholder_for (j : job) (c : content) (r : Z) : Prop :=
  jph j = ALLOW /\ exists n y, jph_name j = Some n /\ ph_itvs c !! n = Some y /\ r ∈ y.

Definition usable_by (j : job) (c : content) (r : Z) : Prop :=
  r ∈ itvs c \/ shared_with j c r \/ placeholder_for j c r.
