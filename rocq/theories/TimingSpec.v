(** What C60 says: the instances of a component in a window. *)
From Verif Require Export TimingModel.
From Verif Require Import PyBase CalSpec DateTimeModel DateTimeSpec DateTimeSpec2 PeriodModel PeriodSpec RecurModel RecurExpand
  RecurExpandSpec RecurByPartsSpec RecurSetModel RecurUnionSpec.

(** x is the recurrence id of one of these components. *)
Definition replaced (sc : scale) (l : list (nat * timing)) (x : Z) : Prop :=
  exists o d, In o l /\ tRid (snd o) = Some d /\ instant sc d x.
(** Their recurrence ids are on the scale of the master and in its zone.  At most one has RANGE=THISANDPRIOR and at most one
    RANGE=THISANDFUTURE. *)
Definition overrides_ok (tzo : tzid -> Z -> Z -> Z -> Z -> Z -> Z -> bool -> bool -> Z) (sc : scale) (start : dt) (l : list (nat * timing)) : Prop :=
  Forall (fun o => exists d, tRid (snd o) = Some d /\ date_ok tzo sc start d) l /\
  (List.length (filter (fun o => tPrior (snd o)) l) <= 1)%nat /\ (List.length (filter (fun o => tFuture (snd o)) l) <= 1)%nat.

(** n seconds after the instant x; a date is moved by whole days. *)
Definition later (sc : scale) (x n : Z) : Z := match sc with Dates => x + n / 86400 | _ => x + n end.

(** The clocks of the scale never change: UTC, a numeric zone, no zone; dates without a zone. *)
Definition steady (sc : scale) (s e : dt) : Prop :=
  match sc with
  | InZone u t => u = true \/ tz_true t = false \/ exists n, t = TzInt n
  | Dates => floating s = true /\ floating e = true
  | Offsets => False
  end.

(** The component has the same times and the same rules and dates as before. *)
Definition same_event (t t' : timing) : Prop :=
  tHasStart t' = tHasStart t /\ visible (tStart t') = visible (tStart t) /\ tHasEnd t' = tHasEnd t /\ tEnd t' = tEnd t /\
  tDuration t' = tDuration t /\ tHasRid t' = tHasRid t /\ tRid t' = tRid t /\ tFuture t' = tFuture t /\ tPrior t' = tPrior t /\
  match tSet t, tSet t' with
  | Some s, Some s' =>
    map fst (sRrules s') = map fst (sRrules s) /\ map fst (sExrules s') = map fst (sExrules s) /\ sRdates s' = sRdates s /\
    sExdates s' = sExdates s /\ sRperiods s' = sRperiods s /\ sExperiods s' = sExperiods s
  | None, None => True
  | _, _ => False
  end.

(** What the component i with timing t gives in the window, and when that is known.
    A master that recurs: the start, the RRULE instances and the RDATEs without the EXRULE instances, the EXDATEs and the
    replaced recurrence ids; each once; each lasting as long as the master (as long as DTEND - DTSTART says, nothing if it
    has no DTEND).  Any other component: itself, if it ends after the start and starts before the end of the window. *)
Inductive event_gives (tzo : tzid -> Z -> Z -> Z -> Z -> Z -> Z -> bool -> bool -> Z) (order : list dt -> list dt) (range : period)
  (overrides : list (nat * timing)) (i : nat) (t : timing) : (list expanded -> Prop) -> Prop :=
| gives_instances sc s a w b n :
    tSet t = Some s -> hasRecurrence s = true -> tHasRid t = false ->
    set_reachable tzo order sc 0 (tStart t) s -> set_call tzo sc 0 s (tStart t) range a w b ->
    overrides_ok tzo sc (tStart t) overrides -> (tHasEnd t = true -> subDateTime tzo (tEnd t) (tStart t) = Ok n) ->
    event_gives tzo order range overrides i t (fun xs =>
      holds_exactly sc (map xStart xs)
        (fun x => included sc 0 (tStart t) a w b s x /\ ~ excluded sc 0 (tStart t) a w b s x /\ ~ replaced sc overrides x) /\
      Forall (fun x => xOwner x = i /\ xRecurring x = true /\
        forall p, instant sc (xStart x) p -> instant sc (xEnd x) (if tHasEnd t then later sc p n else p)) xs)
| gives_itself sc a e w b :
    isRecurring t = false -> (tHasRid t = true -> tRid t <> None) ->
    instant sc (tStart t) a -> instant sc (tEnd t) e -> instant sc (pStart range) w ->
    (exists d, snd (getEnd range) = Ok d /\ instant sc d b) ->
    event_gives tzo order range overrides i t (fun xs =>
      xs = if (w <? e) && (a <? b) then [mkExpanded i (tStart t) (tEnd t) (tHasRid t)] else []).

(** The components in the calendar that override an instance of component i. *)
Definition overriding (c : cal) (tim : nat -> timing) (i : nat) : list (nat * timing) :=
  map (fun j => (j, tim j))
    (filter (fun j => is_recur (cKind (heap c j)) && (match getRecurrenceID (heap c j) with Some _ => true | None => false end) &&
                      beq (getUID (heap c j)) (getUID (heap c i))) (held c)).
