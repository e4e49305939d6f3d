(** What the theorems about the VTIMEZONE components written by the tz compiler are stated with. *)
From Coq Require Import Sorting.Sorted.
From Verif Require Import ZoneTzModel VTimezoneSpec RecurSpec.
From Verif Require Export ZoneSpec.

(** A rule as it is meant: the month, the day in it, the time of day and its clock. *)
Record form : Set := mkForm { fmMonth : Z; fmOn : on; fmHour : Z; fmMin : Z; fmClock : clock }.
Definition form_of (r : zrule) (f : form) : Prop :=
  1 <= fmMonth f <= 12 /\ rlIn r = mon_name (fmMonth f) /\ on_text (fmOn f) (rlOn r) /\ (forall w n, fmOn f <> AtMost w n) /\
  0 <= fmHour f < 24 /\ 0 <= fmMin f < 60 /\ exists s, at_text (fmHour f) (fmMin f) s (rlAt r) /\ suffix (Some s) (fmClock f).
(** What is added to the written time to get the time on the clock of the zone, with the offset off before the change and the standard offset std. *)
Definition heard (c : clock) (off std : Z) : Z := match c with Wall => 0 | Standard => off - std | Universal => off end.
(** x is the local time of the change by the rule in year y. *)
Definition local_in (f : form) (off std y x : Z) : Prop :=
  exists dd k, selects y (fmMonth f) (fmOn f) dd /\ reads dd (fmHour f) (fmMin f) 0 k /\ x = k + heard (fmClock f) off std.
(** The days by which the local date differs from the written one. *)
Definition moved (f : form) (off std : Z) : Z := (3600 * fmHour f + 60 * fmMin f + heard (fmClock f) off std) / 86400.
(** The day is there every year, and the local date is in the same month. *)
Definition stays (f : form) (off std : Z) : Prop :=
  let m := fmMonth f in let s := moved f off std in
  match fmOn f with
  | Last w => 0 <= w <= 6 /\ (s = 0 \/ (s = -1 /\ m <> 2))
  | AtLeast w n => 0 <= w <= 6 /\ (s = 0 \/ s = 1 \/ s = -1) /\ 1 <= n <= month_len greg_leap 2001 m /\ 1 <= n + s /\ n + s + 6 <= month_len greg_leap 2001 m /\
      (m <> 2 \/ n + s = 1 \/ n + s = 8 \/ n + s = 15 \/ n + s = 22)
  | AtMost _ _ => False
  | Day n => 1 <= n <= month_len greg_leap 2001 m /\ 1 <= n + s <= month_len greg_leap 2001 m
  end.

(** The saving of a rule, and the name of the time from its changes on. *)
Definition saving (r : zrule) (s : Z) : Prop :=
  exists sg h l, offset_text sg h l (rlSave r) /\ (List.length l <= 1)%nat /\ ~ (sg = Minus /\ h = 0 /\ nth 0 l 0 <> 0) /\ s = signed sg (seconds_of h l).
Definition letter (t : bytes) (s : bytes) : Prop := t = lit "-" /\ s = [] \/ t <> lit "-" /\ s = t.
Inductive tz_name (fmt arg : bytes) (s : Z) : bytes -> Prop :=
| tn_arg : forall a b, fmt = a ++ lit "%s" ++ b -> ~ In "%"%char a -> ~ In "%"%char b -> tz_name fmt arg s (a ++ arg ++ b)
| tn_pair : forall a b, fmt = a ++ lit "/" ++ b -> ~ In "%"%char fmt -> ~ In "/"%char a -> ~ In "/"%char b -> tz_name fmt arg s (if s =? 0 then a else b)
| tn_same : ~ In "%"%char fmt -> ~ In "/"%char fmt -> tz_name fmt arg s fmt.

(** The last year of a rule, and that of a line; 9999 is without end. *)
Definition to_year (r : zrule) (b : Z) : Prop :=
  exists a p, 0 <= a /\ rlFrom r = fmt0 p a /\
  (rlTo r = lit "only" /\ b = a \/ rlTo r = lit "max" /\ b = 9999 \/ (0 <= b /\ exists q, rlTo r = fmt0 q b)).
Definition line_year (z : zonerule) (y : Z) : Prop :=
  (zUntil z = None \/ exists r, zUntil z = Some ("#"%char :: r)) /\ y = 9999 \/
  exists m o h mi s mode toks, until_text y m o (h, mi, s) mode toks /\ zUntil z = Some (join_char SPC toks) /\
     Forall (fun t => ~ In SPC t) toks /\ 1752 < y /\ 1 <= m <= 12 /\ on_ok y m o /\ until_day_ok y o toks.

(** The changes of line z by rule k (None: by the start of the line). *)
Definition rule_dec (a b : zrule) : {a = b} + {a <> b}. Proof. repeat decide equality. Defined.
Definition key_dec (a b : option zrule) : {a = b} + {a <> b}. Proof. decide equality. apply rule_dec. Defined.
Definition line_dec (a b : zonerule) : {a = b} + {a <> b}. Proof. repeat decide equality. Defined.
Definition changes_of (z : zonerule) (k : option zrule) (cs : list change) : list change :=
  filter (fun c => if line_dec (chZone c) z then if key_dec (chRule c) k then true else false else false) cs.
(** A list of changes cut in runs with the same offsets. *)
Fixpoint cut (l : list change) : list (list change) :=
  match l with
  | [] => []
  | c :: l =>
    match cut l with
    | (d :: run) :: runs => if (chFrom c =? chFrom d) && (chTo c =? chTo d) then (c :: d :: run) :: runs else [c] :: (d :: run) :: runs
    | _ => [[c]]
    end
  end.
Definition alone (cs : list change) (c : change) : Prop := In [c] (cut (changes_of (chZone c) (chRule c) cs)).

(** A run of a rule that can be written with a recurrence rule: the times of the rule in years that follow each other, up to maxYear if neither the
    rule nor the line ends. *)
Definition every_year (maxYear : Z) (z : zonerule) (r : zrule) (run : list change) : Prop :=
  exists f std y0 yu yr, form_of r f /\ 1901 <= y0 <= 2100 /\ line_year z yu /\ to_year r yr /\ rlTo r <> lit "only" /\
  (forall i c, nth_error run i = Some c -> stays f (chFrom c) std /\ exists x, instant local_time (chAt c) x /\ local_in f (chFrom c) std (y0 + Z.of_nat i) x) /\
  (9999 <= yu -> 9999 <= yr -> maxYear <= y0 + Z.of_nat (List.length run)).

(** The name of the time after a change, and whether it is daylight saving time. *)
Definition line_saving (z : zonerule) (s : Z) : Prop :=
  zRule z = lit "-" /\ s = 0 \/
  (exists sg h l, offset_text sg h l (zRule z) /\ sg <> Plus /\ ~ (sg = Minus /\ nth 0 l 0 <> 0) /\ nth 1 l 0 = 0 /\ s = signed sg (seconds_of h l)) \/
  (exists c r, zRule z = c :: r /\ is_digit c = false /\ c <> "-"%char /\ s = 0).
Definition called (c : change) (day : bool) (name : bytes) : Prop :=
  match chRule c with
  | Some r => exists s arg, saving r s /\ letter (rlLetter r) arg /\ tz_name (zFormat (chZone c)) arg s name /\ day = negb (s =? 0)
  | None => exists s, line_saving (chZone c) s /\ day = negb (s =? 0) /\
      ((exists a b, zFormat (chZone c) = a ++ lit "%s" ++ b /\ ~ In "%"%char a /\ ~ In "%"%char b /\ name = a ++ lit "S" ++ b) \/
       (~ In "%"%char (zFormat (chZone c)) /\ name = zFormat (chZone c)))
  end.

(** The changes are in order, those of a line are next to each other, and the runs of rules are every_year or single; a line starts once. *)
Definition in_order (cs : list change) : Prop := exists xs, Forall2 (fun c x => instant local_time (chAt c) x) cs xs /\ StronglySorted Z.lt xs.
Definition together (cs : list change) : Prop :=
  forall a c b d e, cs = a ++ c :: b ++ d :: e -> chZone c = chZone d -> Forall (fun x => chZone x = chZone c) b.
Definition regular (maxYear : Z) (cs : list change) : Prop :=
  forall z,
  (forall r run, In run (cut (changes_of z (Some r) cs)) -> (exists c, run = [c]) \/ every_year maxYear z r run) /\
  (List.length (changes_of z None cs) <= 1)%nat.
(** Of two single changes of a line by different rules with the same offsets and name, the rule of the later one has no change before the earlier one. *)
Definition in_turn (cs : list change) : Prop :=
  forall a c b d e day name, cs = a ++ c :: b ++ d :: e -> chZone c = chZone d -> alone cs c -> alone cs d -> chFrom c = chFrom d -> chTo c = chTo d ->
  called c day name -> called d day name -> forall x, In x a -> chZone x = chZone d -> chRule x = chRule d -> chRule c = chRule d.
(** All of it, for the changes after those of the lines of local mean time. *)
Definition writable (maxYear : Z) (lmt cs : list change) : Prop :=
  Forall (fun c => zFormat (chZone c) = lit "LMT") lmt /\ Forall (fun c => zFormat (chZone c) <> lit "LMT") cs /\
  Forall (fun c => exists day name, called c day name) cs /\
  in_order cs /\ together cs /\ regular maxYear cs /\ in_turn cs.

(** What is read back when the properties of a component were written: a date-time without cached values, and the rule that its text says
    (RecurSpec: absent and empty lists are the same, UNTIL as in its text). *)
Definition fresh (d : dt) : dt :=
  mkDT (mYear d) (mMonth d) (mDay d) (mHours d) (mMinutes d) (mSeconds d) (mDateOnly d) (mTZUTC d) (mTZID d) None false 0.
Definition read_back (s : sub) : sub :=
  mkSub (sbDay s) (sbFrom s) (sbTo s) (sbName s) (fresh (sbStart s)) (option_map canon (sbRule s)) (map fresh (sbDates s)).
(** The onsets in the components, with names. *)
Definition announces (subs : list sub) (x from to : Z) (day : bool) (name : bytes) : Prop :=
  exists s, In s subs /\ onset_of (elem_of s) x from to /\ sbDay s = day /\ sbName s = name.

(** The changes come in the same order in UTC. *)
Definition utc_order (cs : list change) : Prop :=
  exists xs, Forall2 (fun c x => instant local_time (chAt c) (x + chFrom c)) cs xs /\ StronglySorted Z.lt xs.
(** Changes that a VTIMEZONE can tell: from 1902 on, at whole minutes on both clocks, with offsets of less than a day. *)
Definition tellable (c : change) : Prop :=
  1902 <= mYear (chAt c) /\ mSeconds (chAt c) = 0 /\ chFrom c mod 60 = 0 /\ Z.abs (chFrom c) < 86400.
(** A time d that is t in UTC, in the years up to top, after the first change; no change before it is dated in the next year. *)
Definition asking (cs : list change) (top : Z) (d : dt) (t : Z) : Prop :=
  instant local_time (setTimezoneID d TzNone) t /\ 1902 <= mYear d /\ mYear d + 2 <= top /\
  (exists c x, In c cs /\ instant local_time (chAt c) x /\ x - chFrom c <= t) /\
  forall c x, In c cs -> instant local_time (chAt c) x -> x - chFrom c <= t -> mYear (chAt c) <= mYear d.
