(** Vocabulary for statements about recurrence sets (RRULE, RDATE, EXRULE and EXDATE together). *)
From Coq Require Import Sorting.Permutation.
From Verif Require Import PyBase CalSpec DateTimeModel DateTimeSpec DateTimeSpec2 PeriodModel PeriodSpec RecurModel RecurExpand
  RecurExpandSpec RecurByPartsSpec RecurSetModel.

(** The cached time zone offset and posix time of d are what a fresh object would compute. *)
Definition honest (tzo : tzid -> Z -> Z -> Z -> Z -> Z -> Z -> bool -> bool -> Z) (d : dt) : Prop :=
  (mTZUTC d = false -> forall o, mTZOffset d = Some o -> o = snd (timeZoneSecondsOffset tzo (rebuilt d) false)) /\
  (mPosixTimeCached d = true -> floating d = false -> Ok (mPosixTime d) = snd (getPosixTime tzo (rebuilt d))).

(** A rule gives x: with or without BY parts, started at start (instant a). *)
Definition rule_gives (sc : scale) (off : Z) (start : dt) (a : Z) (r : rule) (x : Z) : Prop :=
  exists lim, until_at sc start off r lim /\
    if hasBy r then by_instances sc r lim start a x else instances sc r lim start x.
(** A list of dates gives x. *)
Definition date_gives (sc : scale) (l : list dt) (x : Z) : Prop := exists d, In d l /\ instant sc d x.
(** x is the start of a period of the list that overlaps the window from w to b. *)
Definition period_gives (sc : scale) (l : list period) (w b x : Z) : Prop :=
  exists p e y, In p l /\ instant sc (pStart p) x /\ snd (getEnd p) = Ok e /\ instant sc e y /\ x < b /\ w < y.

(** The instants that rules, dates and periods give in the window. *)
Definition gives (sc : scale) (off : Z) (start : dt) (a w b : Z) (rules : list (rule * rcache)) (ds : list dt) (ps : list period) (x : Z) : Prop :=
  w <= x < b /\ ((exists r c, In (r, c) rules /\ rule_gives sc off start a r x) \/ date_gives sc ds x) \/ period_gives sc ps w b x.
(** RFC 5545: the start, the RRULEs and the RDATEs ... *)
Definition included (sc : scale) (off : Z) (start : dt) (a w b : Z) (s : rset) (x : Z) : Prop :=
  (x = a /\ w <= x < b) \/ gives sc off start a w b (sRrules s) (sRdates s) (sRperiods s) x.
(** ... minus the EXRULEs and EXDATEs. *)
Definition excluded (sc : scale) (off : Z) (start : dt) (a w b : Z) (s : rset) (x : Z) : Prop :=
  gives sc off start a w b (sExrules s) (sExdates s) (sExperiods s) x.

(** A call of expand on a rule that is covered by C31 or C49. *)
Definition rule_call (tzo : tzid -> Z -> Z -> Z -> Z -> Z -> Z -> bool -> bool -> Z) (sc : scale) (off : Z) (start : dt) (range : period)
  (a w b : Z) (r : rule) : Prop :=
  exists lim, call_ok sc off r start range lim w b \/ by_call sc off r start range lim a w b /\ clock_ordered tzo sc.
(** What a rule object can look like after any calls of expand, with starts in the zone of z
    and one float offset, and of setters. *)
Inductive rule_reachable (tzo : tzid -> Z -> Z -> Z -> Z -> Z -> Z -> bool -> bool -> Z) (sc : scale) (off : Z) (z : dt) : rule -> rcache -> Prop :=
| rule_new r : rule_reachable tzo sc off z r cache_init
| rule_expanded r c start range a w b fuel c' o :
    rule_reachable tzo sc off z r c -> rule_call tzo sc off start range a w b r -> instant sc start a -> same_zone z start ->
    expand tzo fuel r c start range off None = Some (c', o) -> rule_reachable tzo sc off z r c'
| rule_set r c s r' c' :
    rule_reachable tzo sc off z r c -> setAndClear tzo s (r, c) = Ok (r', c') -> rule_reachable tzo sc off z r' c'.
(** A date on the scale, in the zone of the start. *)
Definition date_ok (tzo : tzid -> Z -> Z -> Z -> Z -> Z -> Z -> bool -> bool -> Z) (sc : scale) (start d : dt) : Prop :=
  (exists x, instant sc d x) /\ same_zone start d /\ honest tzo d.
Definition period_ok (tzo : tzid -> Z -> Z -> Z -> Z -> Z -> Z -> bool -> bool -> Z) (sc : scale) (start : dt) (p : period) : Prop :=
  date_ok tzo sc start (pStart p) /\ exists e y, snd (getEnd p) = Ok e /\ instant sc e y.

(** A call of expand on a set with everything on one scale and in one zone, with a window from
    w to b. *)
Definition set_call (tzo : tzid -> Z -> Z -> Z -> Z -> Z -> Z -> bool -> bool -> Z) (sc : scale) (off : Z) (s : rset) (start : dt) (range : period)
  (a w b : Z) : Prop :=
  sc <> Offsets /\ instant sc start a /\ honest tzo start /\ instant sc (pStart range) w /\
  (exists e, snd (getEnd range) = Ok e /\ instant sc e b) /\
  Forall (rule_call tzo sc off start range a w b) (map fst (sRrules s ++ sExrules s)) /\
  Forall (date_ok tzo sc start) (sRdates s ++ sExdates s) /\
  Forall (period_ok tzo sc start) (sRperiods s ++ sExperiods s).

(** What a set can look like after any calls of expand with this float offset and starts in the
    zone of z on this scale: it begins with rule objects that were not expanded before.  Rules
    not expanded before, dates and periods can be added or taken out in between.  After changed()
    the offset, the zone and the scale can be others. *)
Inductive set_reachable (tzo : tzid -> Z -> Z -> Z -> Z -> Z -> Z -> bool -> bool -> Z) (order : list dt -> list dt)
  : scale -> Z -> dt -> rset -> Prop :=
| set_new sc off z s : Forall (fun rc => snd rc = cache_init) (sRrules s ++ sExrules s) -> set_reachable tzo order sc off z s
| set_expanded sc off z s start range a w b fuel s' o :
    set_reachable tzo order sc off z s -> same_zone z start -> set_call tzo sc off s start range a w b ->
    rset_expand tzo order fuel s start range off None = Some (s', o) -> set_reachable tzo order sc off z s'
| set_edited sc off z s s' :
    set_reachable tzo order sc off z s ->
    Forall (fun rc => snd rc = cache_init \/ In rc (sRrules s ++ sExrules s)) (sRrules s' ++ sExrules s') -> set_reachable tzo order sc off z s'
| set_changed sc0 off0 z0 sc off z s :
    set_reachable tzo order sc0 off0 z0 s -> set_reachable tzo order sc off z (rset_changed s).

(** The list holds exactly the instants with P, each once, in any order. *)
Definition holds_exactly (sc : scale) (l : list dt) (P : Z -> Prop) : Prop :=
  exists xs, Forall2 (instant sc) l xs /\ NoDup xs /\ forall x, In x xs <-> P x.

(** The iteration order of a set. *)
Definition permutes (order : list dt -> list dt) : Prop := forall l, Permutation l (order l).
