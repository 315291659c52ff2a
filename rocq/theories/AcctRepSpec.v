(** Vocabulary of the properties of the accounting reports. *)
From Verif Require Import Base ReqModel AdmModel FrontModel FrontSpec LaunchModel AcctModel AcctSpec AcctRepModel.

(** Resource-seconds of a user, of a kind (ASKED, USED), in the windows that meet the period and satisfy the condition given with -S. *)
Definition consumed (T : list arow) (d1 d2 : Z) (p : arow -> bool) (u ty : string) : Z :=
  zsum (a_cons <$> filter (fun r => d1 < a_stop r /\ a_start r < d2 /\ p r = true /\ a_user r = u /\ a_type r = ty) T).
(** The same for one project. *)
Definition consumed_by (T : list arow) (d1 d2 : Z) (u pr ty : string) : Z :=
  zsum (a_cons <$> filter (fun r => d1 < a_stop r /\ a_start r < d2 /\ a_user r = u /\ a_project r = pr /\ a_type r = ty) T).
(** A row of the user in the period. *)
Definition row_of (T : list arow) (d1 d2 : Z) (p : arow -> bool) (u : string) (r : arow) : Prop :=
  r ∈ T /\ d1 < a_stop r /\ a_start r < d2 /\ p r = true /\ a_user r = u.
Definition any_row : arow -> bool := fun _ => true.
(** The database sorts the groups by their seconds, those of equal seconds in any order. *)
Definition by_seconds (order : list sumrow -> list sumrow) : Prop :=
  forall l, order l ≡ₚ l /\ StronglySorted (fun x y => s_secs x <= s_secs y) (order l).
(** ... and those of the projects by the names of the projects first, in the order [le] of the texts in the database. *)
Definition by_project (le : string -> string -> Prop) (order : list psum -> list psum) : Prop :=
  forall l, order l ≡ₚ l /\ StronglySorted (fun x y => le (p_project x) (p_project y)) (order l).
(** The earliest start and the latest end of some rows. *)
Definition earliest (S : arow -> Prop) (v : Z) : Prop := (exists r, S r /\ a_start r = v) /\ forall r, S r -> v <= a_start r.
Definition latest_end (S : arow -> Prop) (v : Z) : Prop := (exists r, S r /\ a_stop r = v) /\ forall r, S r -> a_stop r <= v.
(** A period written "YYYY-MM-DD, YYYY-MM-DD", then [rest]. *)
Definition period_text (s rest : string) (y m d y' m' d' : Z) : Prop :=
  exists s0 ty tm td s1 s2 ty' tm' td', every blank_char s0 /\ every blank_char s1 /\ every blank_char s2 /\
    between 4 4 ty y /\ between 1 2 tm m /\ between 1 2 td d /\ between 4 4 ty' y' /\ between 1 2 tm' m' /\ between 1 2 td' d' /\
    (String.length td' = 2%nat \/ forall c r, rest = String c r -> ~ digit_char c) /\
    s = (s0 +:+ ty +:+ "-" +:+ tm +:+ "-" +:+ td +:+ s1 +:+ "," +:+ s2 +:+ ty' +:+ "-" +:+ tm' +:+ "-" +:+ td' +:+ rest)%string.
(** A Karma as it is written when the fairsharing is used and the value is neither very small nor very large. *)
Definition decimal (k : string) : Prop := exists a b, every digit_char a /\ every digit_char b /\ a <> ""%string /\ b <> ""%string /\ k = (a +:+ "." +:+ b)%string.
(** The text asks for the period from [d1] to [d2], the midnights of two dates of the calendar. *)
Definition asks_for (mk : list Z -> Z) (s : string) (d1 d2 : Z) : Prop :=
  exists rest y m d y' m' d', period_text s rest y m d y' m' d' /\ real_date y m d 0 0 0 /\ real_date y' m' d' 0 0 0 /\
    d1 = mk [y; m; d; 0; 0; 0] /\ d2 = mk [y'; m'; d'; 0; 0; 0].
