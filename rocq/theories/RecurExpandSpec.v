(** Vocabulary for statements about the expansion of recurrence rules. *)
From Coq Require Import Sorting.Sorted.
From Verif Require Import PyBase CalSpec DateTimeModel DateTimeSpec DateTimeSpec2 PeriodModel PeriodSpec RecurModel.

(** The distance between two instances when INTERVAL is 1, in the units of the scale: seconds
    for times, days for dates. *)
Definition step_units (sc : scale) (f : freq) : option Z :=
  match sc, f with
  | Dates, DAILY => Some 1
  | Dates, WEEKLY => Some 7
  | Dates, _ => None
  | _, SECONDLY => Some 1
  | _, MINUTELY => Some 60
  | _, HOURLY => Some 3600
  | _, DAILY => Some 86400
  | _, WEEKLY => Some 604800
  | _, _ => None
  end.

(** The instant of UNTIL on the scale of the start, if the rule has one.  With a floating
    start the clock reading of UNTIL is moved by the float offset (in seconds) first. *)
Definition until_at (sc : scale) (start : dt) (off : Z) (r : rule) (lim : option Z) : Prop :=
  if rUseUntil r then
    exists u c, rUntil r = Some u /\
    match sc with
    | InZone z t => if floating start then (exists z' t', instant (InZone z' t') u c) /\ lim = Some (c + off)
                    else instant sc u c /\ lim = Some c
    | Dates => instant Dates u c /\ lim = Some (if floating start then c + off / 86400 else c)
    | Offsets => False
    end
  else lim = None.

(** x is one of the instances a, a + s, a + 2 s, ... that are not cut off by COUNT or UNTIL.
    The first one is never cut off. *)
Definition occurs (r : rule) (lim : option Z) (a s x : Z) : Prop :=
  exists k, 0 <= k /\ x = a + k * s /\
    (k = 0 \/ ((rUseCount r = true -> k < rCount r) /\
               (rUseCount r = false -> forall c, lim = Some c -> x <= c))).

(** The same clock reading, in the same zone, on the same day of the month m months later;
    the date need not exist. *)
Definition months_later (d : dt) (m : Z) (d' : dt) : Prop :=
  mHours d' = mHours d /\ mMinutes d' = mMinutes d /\ mSeconds d' = mSeconds d /\
  mDateOnly d' = mDateOnly d /\ mTZUTC d' = mTZUTC d /\ mTZID d' = mTZID d /\ mDay d' = mDay d /\
  1 <= mMonth d' <= 12 /\ 12 * mYear d' + mMonth d' = 12 * mYear d + mMonth d + m.

(** The month of number n (12 * year + month - 1) has a day d. *)
Definition month_has (n d : Z) : bool := d <=? month_len hist_leap (n / 12) (n mod 12 + 1).
Definition month_no (d : dt) : Z := 12 * mYear d + mMonth d - 1.

(** The distance in months between two candidates of a monthly or yearly rule. *)
Definition step_months (r : rule) : option Z :=
  match rFreq r with
  | MONTHLY => Some (rInterval r)
  | YEARLY => Some (12 * rInterval r)
  | _ => None
  end.

(** How many of the first j candidates exist. *)
Definition kept_before (start : dt) (p : Z) (j : nat) : nat :=
  List.length (List.filter (fun i => month_has (month_no start + Z.of_nat i * p) (mDay start)) (seq 0 j)).

(** x is the instant of an existing date, j steps of p months after the start, that is not
    cut off by COUNT (which counts existing dates only) or UNTIL. *)
Definition occurs_months (sc : scale) (r : rule) (lim : option Z) (start : dt) (p x : Z) : Prop :=
  exists j d, months_later start (Z.of_nat j * p) d /\ instant sc d x /\
    (j = O \/ ((rUseCount r = true -> Z.of_nat (kept_before start p j) < rCount r) /\
               (rUseCount r = false -> forall c, lim = Some c -> x <= c))).

(** The instances of a rule without BY parts that starts at start. *)
Definition instances (sc : scale) (r : rule) (lim : option Z) (start : dt) (x : Z) : Prop :=
  match step_months r with
  | Some p => occurs_months sc r lim start p x
  | None => exists a s, instant sc start a /\ step_units sc (rFreq r) = Some s /\ occurs r lim a (rInterval r * s) x
  end.

(** The rules and starts considered: a date-only start needs a step of at least a day; and
    29 February of a year that only the old calendar makes a leap year is left out. *)
Definition advances (sc : scale) (r : rule) (start : dt) : Prop :=
  1 <= rInterval r /\
  match step_months r with
  | Some _ => valid_date greg_leap (ymd start)
  | None => step_units sc (rFreq r) <> None
  end.

(** The list holds exactly the instants with P, each once, in increasing order. *)
Definition enumerates (sc : scale) (l : list dt) (P : Z -> Prop) : Prop :=
  exists xs, Forall2 (instant sc) l xs /\ StronglySorted Z.lt xs /\ forall x, In x xs <-> P x.

(** A limit on the number of instances that admits n of them; None and 0 mean no limit. *)
Definition room (max : option Z) (n : nat) : Prop :=
  match max with None => True | Some m => m = 0 \/ Z.of_nat n <= m end.

(** A call of expand on a rule without BY parts, with everything on one scale; the instant of
    UNTIL is lim and the window is from w to b. *)
Definition call_ok (sc : scale) (off : Z) (r : rule) (start : dt) (range : period) (lim : option Z) (w b : Z) : Prop :=
  sc <> Offsets /\ hasBy r = false /\ advances sc r start /\ (exists a, instant sc start a) /\
  (exists e, snd (getEnd range) = Ok e /\ instant sc e b) /\ instant sc (pStart range) w /\
  until_at sc start off r lim.
