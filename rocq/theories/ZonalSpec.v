(** What the theorems about the tz compiler are stated with. *)
From Verif Require Import ZonalModel.
From Verif Require Export CalSpec DateTimeSpec.

(** e is n seconds after d on the same clock. *)
Definition later (d e : dt) (n : Z) : Prop :=
  exists k, days_between hist_leap (ymd d) (ymd e) k /\ 86400 * k + secs_of_day e - secs_of_day d = n.

(** Names of tz source files. *)
Definition wd_name (w : Z) : bytes := nth (Z.to_nat w) [lit "Sun"; lit "Mon"; lit "Tue"; lit "Wed"; lit "Thu"; lit "Fri"; lit "Sat"] [].
Definition mon_name (m : Z) : bytes :=
  nth (Z.to_nat m) [[]; lit "Jan"; lit "Feb"; lit "Mar"; lit "Apr"; lit "May"; lit "Jun"; lit "Jul"; lit "Aug"; lit "Sep"; lit "Oct"; lit "Nov"; lit "Dec"] [].

(** The ON field: zic(8). *)
Inductive on : Set := Last (w : Z) | AtLeast (w n : Z) | AtMost (w n : Z) | Day (n : Z).
Definition on_text (o : on) (t : bytes) : Prop :=
  match o with
  | Last w => t = lit "last" ++ wd_name w
  | AtLeast w n => exists p, t = wd_name w ++ lit ">=" ++ fmt0 p n
  | AtMost w n => exists p, t = wd_name w ++ lit "<=" ++ fmt0 p n
  | Day n => exists p, t = fmt0 p n
  end.
(** The fields make sense in month m of year y. *)
Definition on_ok (y m : Z) (o : on) : Prop :=
  match o with
  | Last w => 0 <= w <= 6
  | AtLeast w n | AtMost w n => 0 <= w <= 6 /\ 1 <= n <= month_len greg_leap y m
  | Day n => 1 <= n <= month_len greg_leap y m
  end.
(** The day selected in month m of year y. *)
Definition selects (y m : Z) (o : on) (dd : date) : Prop :=
  match o with
  | Last w => nth_wd_back (y, m, month_len greg_leap y m) w 1 dd
  | AtLeast w n => nth_wd_from (y, m, n) w 1 dd
  | AtMost w n => nth_wd_back (y, m, n) w 1 dd
  | Day n => dd = (y, m, n)
  end.

(** The AT field: hours, or hours and minutes with a suffix. *)
Inductive at_text : Z -> Z -> bytes -> bytes -> Prop :=
| at_h : forall p h, 0 <= h -> at_text h 0 [] (fmt0 p h)
| at_hm : forall p h m s, 0 <= h -> 0 <= m < 100 -> ~ In ":"%char s -> at_text h m s (fmt0 p h ++ lit ":" ++ fmt0 2 m ++ s).

(** BYDAY=ow (o not 0) or BYDAY=w;BYMONTHDAY=ds in month m of year y: RFC 5545 section 3.3.10. *)
Definition by_selects (y m : Z) (parts : Z * Z * option (list Z)) (dd : date) : Prop :=
  let '(o, w, ds) := parts in
  exists d, dd = (y, m, d) /\ valid_date greg_leap dd /\ is_weekday dd w /\
  (0 < o -> nth_wd_from (y, m, 1) w o dd) /\
  (o < 0 -> nth_wd_back (y, m, month_len greg_leap y m) w (- o) dd) /\
  match ds with Some l => In d l | None => True end.

(** Offsets: [sign]h, [sign]h:mm and [sign]h:mm:ss. *)
Inductive sign : Set := Plus | Minus | NoSign.
Definition sign_text (s : sign) : bytes := match s with Plus => lit "+" | Minus => lit "-" | NoSign => [] end.
Definition signed (s : sign) (n : Z) : Z := match s with Minus => - n | _ => n end.
Inductive offset_text (s : sign) (h : Z) : list Z -> bytes -> Prop :=
| off_h : forall p, 0 <= h -> offset_text s h [] (sign_text s ++ fmt0 p h)
| off_hm : forall p q m, 0 <= h -> 0 <= m -> offset_text s h [m] (sign_text s ++ fmt0 p h ++ lit ":" ++ fmt0 q m)
| off_hms : forall p q r m x, 0 <= h -> 0 <= m -> 0 <= x ->
    offset_text s h [m; x] (sign_text s ++ fmt0 p h ++ lit ":" ++ fmt0 q m ++ lit ":" ++ fmt0 r x).
(** Seconds of h:m:s. *)
Definition seconds_of (h : Z) (l : list Z) : Z := 3600 * h + 60 * nth 0 l 0 + nth 1 l 0.

(** Fields and lines: fields are not empty and have no blanks; between them is at least one blank. *)
Definition blank (c : ascii) : Prop := c = SPC \/ c = TAB.
Definition field (s : bytes) : Prop := s <> [] /\ ~ In SPC s /\ ~ In TAB s /\ ~ In LF s.
Inductive laid_out : list bytes -> bytes -> Prop :=
| lo_end : forall w, Forall blank w -> laid_out [] w
| lo_last : forall f, field f -> laid_out [f] f
| lo_field : forall f c r l, field f -> blank c -> laid_out l r -> laid_out (f :: l) (f ++ c :: r)
| lo_blank : forall c r l, blank c -> laid_out l r -> laid_out l (c :: r).
Definition rule_fields (r : zrule) : list bytes :=
  [rlName r; rlFrom r; rlTo r; rlType r; rlIn r; rlOn r; rlAt r; rlSave r; rlLetter r].
Definition zonerule_fields (z : zonerule) : list bytes := [zGmtoff z; zRule z; zFormat z].
Definition zonerule_ok (z : zonerule) : Prop :=
  Forall field (zonerule_fields z) /\
  match zUntil z with None => True | Some u => exists l, l <> [] /\ Forall field l /\ u = join_char SPC l end.

(** The UNTIL column: year, month, day and time; what is missing is the earliest; a text that starts with # ends it. *)
Definition comment (l : list bytes) : Prop := match l with [] => True | t :: _ => exists r, t = "#"%char :: r end.
Inductive time_text : Z * Z * Z -> option bytes -> bytes -> Prop :=
| tt_hm : forall p h m, 0 <= h -> 0 <= m < 100 -> time_text (h, m, 0) None (fmt0 p h ++ lit ":" ++ fmt0 2 m)
| tt_hmx : forall p h m x, 0 <= h -> 0 <= m < 100 -> x <> [] -> ~ In ":"%char x -> ~ In SPC x ->
    time_text (h, m, 0) (Some x) (fmt0 p h ++ lit ":" ++ fmt0 2 m ++ x)
| tt_hms : forall p h m q s, 0 <= h -> 0 <= m < 100 -> 0 <= s -> time_text (h, m, s) None (fmt0 p h ++ lit ":" ++ fmt0 2 m ++ lit ":" ++ fmt0 q s).
Inductive until_text : Z -> Z -> on -> Z * Z * Z -> option bytes -> list bytes -> Prop :=
| ut_y : forall p y rest, comment rest -> until_text y 1 (Day 1) (0, 0, 0) None (fmt0 p y :: rest)
| ut_m : forall p y m rest, comment rest -> until_text y m (Day 1) (0, 0, 0) None (fmt0 p y :: mon_name m :: rest)
| ut_d : forall p y m o d rest, on_text o d -> comment rest -> until_text y m o (0, 0, 0) None (fmt0 p y :: mon_name m :: d :: rest)
| ut_t : forall p y m o d hms mode t rest, on_text o d -> time_text hms mode t ->
    until_text y m o hms mode (fmt0 p y :: mon_name m :: d :: t :: rest).
(** The days that the code reads there, and the years. *)
Definition until_day_ok (y : Z) (o : on) (toks : list bytes) : Prop :=
  match o with
  | Day _ => 0 <= y
  | Last w => 1901 <= y <= 2100 /\ (w = 0 \/ w = 6)
  | AtLeast w n => 1901 <= y <= 2100 /\ w = 0 /\ (n = 1 \/ n = 8) /\ nth 2 toks [] = wd_name w ++ lit ">=" ++ pystr n
  | AtMost _ _ => False
  end.
