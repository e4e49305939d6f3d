(** Vocabulary for statements about the offset lookup of time zone definitions. *)
From Coq Require Import Sorting.Permutation.
From Verif Require Import PyBase CalSpec DateTimeModel DateTimeSpec DateTimeSpec2 PeriodModel PeriodSpec RecurModel RecurExpand
  RecurExpandSpec RecurByPartsSpec RecurSetModel RecurUnionSpec VTimezoneModel.

(** Local clock readings, in seconds. *)
Notation local_time := (InZone false TzNone).

(** RFC 5545 section 3.6.5: an element takes effect at its DTSTART and at the instances of its
    RRULE and RDATEs from then on; x is the local time before the change, f the offset before
    it and o the offset after it. *)
Definition onset_of (e : elem) (x f o : Z) : Prop :=
  f = eFrom e /\ o = eTo e /\ exists a, instant local_time (eStart e) a /\ a <= x /\
  (x = a \/ (exists r c, In (r, c) (sRrules (eRec e)) /\ rule_gives local_time (eFrom e) (eStart e) a r x) \/
   date_gives local_time (sRdates (eRec e)) x).
Definition onset (es : list elem) (x f o : Z) : Prop := exists e, In e es /\ onset_of e x f o.

(** When a change happens: on the local clock, or in UTC. *)
Definition change_at (rel : bool) (x f : Z) : Z := if rel then x - f else x.

(** v is the offset at t: the one that the latest change not after t leads to, and 0 before all
    changes. *)
Definition in_force (es : list elem) (rel : bool) (t v : Z) : Prop :=
  (v = 0 /\ forall x f o, onset es x f o -> t < change_at rel x f) \/
  (exists x f, onset es x f v /\ change_at rel x f <= t /\
   forall y g o, onset es y g o -> change_at rel y g <= t -> change_at rel y g <= change_at rel x f).

(** An element as it comes from parsing: RRULEs covered by C31 or C49 for every window that ends
    with a year up to top, RDATEs with local times; DTSTART a local time from 1902 on. *)
Definition elem_ok (tzo : tzid -> Z -> Z -> Z -> Z -> Z -> Z -> bool -> bool -> Z) (top : Z) (e : elem) : Prop :=
  eBelow e = None /\ eItems e = None /\ 1902 <= mYear (eStart e) /\ honest tzo (eStart e) /\
  sExrules (eRec e) = [] /\ sExdates (eRec e) = [] /\ sRperiods (eRec e) = [] /\ sExperiods (eRec e) = [] /\
  Forall (fun rc => snd rc = cache_init) (sRrules (eRec e)) /\
  Forall (date_ok tzo local_time (eStart e)) (sRdates (eRec e)) /\
  exists a, instant local_time (eStart e) a /\
  forall d b, (mMonth d, mDay d) = (1, 1) -> mYear d <= top -> instant local_time d b -> a < b ->
    Forall (rule_call tzo local_time (eFrom e) (eStart e) (newPeriodEnd (eStart e) d) a a b) (map fst (sRrules (eRec e))).

(** The changes happen at whole minutes, on both clocks. *)
Definition whole_minutes (es : list elem) : Prop := forall x f o, onset es x f o -> x mod 60 = 0 /\ f mod 60 = 0.
(** The changes come in the same order on the local clock and in UTC. *)
Definition utc_ordered (es : list elem) : Prop :=
  forall x f o y g o', onset es x f o -> onset es y g o' -> x <= y -> x - f <= y - g.
(** ... those up to the start of year top. *)
Definition utc_ordered_to (top : Z) (es : list elem) : Prop :=
  forall x f o y g o' n b, onset es x f o -> onset es y g o' -> x <= y ->
  instant local_time n b -> (mYear n, mMonth n, mDay n) = (top, 1, 1) -> (mHours n, mMinutes n, mSeconds n) = (0, 0, 0) -> y <= b -> x - f <= y - g.

(** A question that is asked: the time d (its zone is ignored) is t on the clock of the
    question, in the years for which the elements are good; in UTC no change that has happened
    carries a local date after the year. *)
Definition question (es : list elem) (top : Z) (d : dt) (rel : bool) (t : Z) : Prop :=
  instant local_time (setTimezoneID d TzNone) t /\ 1902 <= mYear d /\ mYear d + 2 <= top /\
  (rel = true -> utc_ordered_to top es /\
    forall x f o n y, onset es x f o -> x - f <= t -> instant local_time n y -> (mMonth n, mDay n) = (1, 1) -> mYear n = mYear d + 1 -> x < y).

(** The text for an element: its name in parentheses, or else the offset in hours and minutes. *)
Definition describes (e : elem) (s : bytes) : Prop :=
  match eName e with
  | [] => Z.abs (eTo e) < 360000 -> exists h m r, Z.abs (eTo e) = 3600 * h + 60 * m + r /\ 0 <= m < 60 /\ 0 <= r < 60 /\
      s = (if (eTo e <? 0)%Z then "-"%char else "+"%char) :: map digit_char [h / 10; h mod 10; m / 10; m mod 10]
  | name => s = "("%char :: name ++ [")"%char]
  end.
(** s describes the element in force at t on the local clock; it is empty before all changes. *)
Definition named (es : list elem) (t : Z) (s : bytes) : Prop :=
  (s = [] /\ forall x f o, onset es x f o -> t < x) \/
  (exists e x, In e es /\ onset_of e x (eFrom e) (eTo e) /\ x <= t /\ describes e s /\
   forall y g o, onset es y g o -> y <= t -> y <= x).
(** The only changes from 1 January of the year of d to t are DTSTARTs. *)
Definition quiet (es : list elem) (d : dt) (t : Z) : Prop :=
  forall e x f o n y, In e es -> onset_of e x f o -> x <= t -> instant local_time n y -> (mMonth n, mDay n) = (1, 1) -> mYear n = mYear d ->
    x < y \/ instant local_time (eStart e) x.
(** Changes at the same time lead to the same offset. *)
Definition unambiguous (es : list elem) (rel : bool) : Prop :=
  forall x f o y g o', onset es x f o -> onset es y g o' -> change_at rel x f = change_at rel y g -> o = o'.

(** The state of a VTIMEZONE object after any such questions. *)
Inductive asked (tzo : tzid -> Z -> Z -> Z -> Z -> Z -> Z -> bool -> bool -> Z) (order : list dt -> list dt)
  (torder : list onset_row -> list onset_row) (top : Z) (es : list elem) : vtz -> Prop :=
| asked_new : asked tzo order torder top es (vtz_init es)
| asked_offset z fuel d rel t z' r : asked tzo order torder top es z -> question es top d rel t ->
    getTimezoneOffsetSeconds tzo order torder fuel z d rel = Some (z', r) -> asked tzo order torder top es z'
| asked_name z fuel d t z' r : asked tzo order torder top es z -> question es top d false t ->
    getTimezoneDescriptor tzo order fuel z d = Some (z', r) -> asked tzo order torder top es z'.

Definition shuffles (torder : list onset_row -> list onset_row) : Prop := forall l, Permutation l (torder l).
