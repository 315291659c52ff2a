(** What is said about the file of quotas, without the functions that read it. *)
From Verif Require Import Base ReqModel AdmModel FrontModel FrontSpec ConfModel ConfSpec SlotModel QuotasModel CalendarModel QfileModel.
From Verif Require Import CalendarProps.
From Coq Require Import Ascii.

(** ** Weekly periods *)
(** The words of a text. *)
Inductive word_list : string -> list string -> Prop :=
  | wl_nil b : every blank_char b -> word_list b []
  | wl_cons b w s ws : every blank_char b -> w <> ""%string -> every (fun c => ~ blank_char c) w -> (s = ""%string \/ exists c r, s = String c r /\ blank_char c) ->
      word_list s ws -> word_list (b +:+ w +:+ s) (w :: ws).
(** hh, hh:mm or hh:mm:ss, in seconds *)
Inductive clock : string -> Z -> Prop :=
  | clock_h h : digits_only h -> clock h (3600 * number h)
  | clock_hm h m : digits_only h -> digits_only m -> clock (h +:+ String ":" m) (3600 * number h + 60 * number m)
  | clock_hms h m x : digits_only h -> digits_only m -> digits_only x -> clock (h +:+ String ":" (m +:+ String ":" x)) (3600 * number h + 60 * number m + number x).
Inductive hours_text : string -> option (Z * Z) -> Prop :=
  | ht_all : hours_text "*" None
  | ht_range a b x y : clock a x -> clock b y -> hours_text (a +:+ String "-" b) (Some (x, y)).
(** The days, Monday is 0. *)
Definition day_name (s : string) (d : Z) : Prop := (s, d) ∈ [("mon", 0); ("tue", 1); ("wed", 2); ("thu", 3); ("fri", 4); ("sat", 5); ("sun", 6)]%string.
Inductive days_text : string -> wdays -> Prop :=
  | dt_all : days_text "*" WAll
  | dt_range a b x y : day_name a x -> day_name b y -> days_text (a +:+ String "-" b) (WInterval x y)
  | dt_list names ds : names <> [] -> Forall2 day_name names ds -> days_text (String.concat "," names) (WList ds).
(** hours, days, any day of the month, any month *)
Definition period_text (s : string) (hm : option (Z * Z)) (wd : wdays) : Prop :=
  exists h d, word_list s [h; d; "*"; "*"]%string /\ hours_text h hm /\ days_text d wd.
(** Hours within a day, the end after the beginning (00:00 as an end is midnight); a range of days with hours does not go over the end of the week;
    no day is listed twice. *)
Definition sane (hm : option (Z * Z)) (wd : wdays) : Prop :=
  (match hm with None => True | Some (b, e) => 0 <= b < 86400 /\ (e = 0 \/ b < e <= 86400) end) /\
  (match wd, hm with WInterval d0 d1, Some _ => d0 <= d1 | WList ds, _ => NoDup ds | _, _ => True end).
(** The instant [t] of the week is at these hours of these days. *)
Definition at_time (hm : option (Z * Z)) (wd : wdays) (t : Z) : Prop := day_in (t / 86400) wd /\ hour_in (t mod 86400) hm.
(** Hours as int() reads them: what follows the seconds is not looked at. *)
Definition loose_clock (s : string) (n : Z) : Prop :=
  exists parts nums, parts <> [] /\ s = String.concat ":" parts /\ Forall (none_of ":") parts /\ Forall2 integer_text (take 3 parts) nums /\
    n = 3600 * nth 0 nums 0 + 60 * nth 1 nums 0 + nth 2 nums 0.
Definition loose_hours (s : string) (hm : option (Z * Z)) : Prop :=
  (s = "*"%string /\ hm = None) \/ exists a b x y, s = (a +:+ String "-" b)%string /\ none_of "-" a /\ none_of "-" b /\ loose_clock a x /\ loose_clock b y /\ hm = Some (x, y).

(** ** Limits *)
(** digits, or digits with a point: the number [a] / 10^[k] *)
Definition decimal_number (c : string) (a : Z) (k : nat) : Prop :=
  (digits_only c /\ a = number c /\ k = 0%nat) \/
  exists i f, digits_only i /\ digits_only f /\ c = (i +:+ String "." f)%string /\ a = number (i +:+ f) /\ k = String.length f.

(** ** The file *)
Definition is_default (s : string) : Prop := s = "* * * *"%string \/ s = "default"%string.
(** The set of rules called [name], as the periods use it. *)
Definition set_rules (f : qfile) (name : string) (r : rules) : Prop := exists js, (name, js) ∈ f_sets f /\ rules_of None js = Started r.
Definition proper_file (f : qfile) : Prop := NoDup (fst <$> f_sets f).
(** [e] is an entry of text [s], for the rules [name]. *)
Definition entry (e : list string) (s name : string) : Prop := e !! 0%nat = Some s /\ e !! 1%nat = Some name.
