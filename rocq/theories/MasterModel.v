(** Model of what an overriding component takes from its master: icalendar/componentrecur.py.  Definitions only. *)
From Verif Require Export TimingModel.

(** mStart, which can become None, and the other fields (whose tStart is not looked at). *)
Definition mastered : Set := (option dt * timing)%type.
(** componentrecur.py:663, 671: mEnd is set, the rest stays. *)
Definition with_end (t : timing) (e : dt) : timing :=
  mkTiming (tStamp t) (tHasStart t) (tStart t) (tHasEnd t) e (tDuration t) (tHasRid t) (tRid t) (tFuture t) (tPrior t) (tSet t).
Section WithTz.
Variable tzo : tzid -> Z -> Z -> Z -> Z -> Z -> Z -> bool -> bool -> Z.
(** datetime.py:122-127, `mStart + duration`; None has no +, and None has no getTotalSeconds. *)
Definition plus_duration (s : option dt) (du : option dur) : res dt :=
  match s, du with
  | None, _ => Raise TypeError
  | Some s, None => Raise AttributeError
  | Some s, Some du => Ok (addSeconds s (getTotalSeconds du))
  end.
(** componentrecur.py:132-133, 642-671: master is None if the component is its own master (or has none). *)
Definition initFromMaster (k : kind) (ps : props) (t : timing) (master : option timing) : res mastered :=
  match master with
  | None => Ok (Some (tStart t), t)
  | Some m =>
    do t <- timing_finalise k ps t;
    let start := if hasProperty (lit "DTSTART") ps then Some (tStart t) else tRid t in
    if negb (hasProperty (lit "DTEND") ps) && negb (hasProperty (lit "DURATION") ps) then
      do n <- subDateTime tzo (tEnd m) (tStart m);
      do e <- plus_duration start (Some (setDuration n));
      Ok (start, with_end t e)
    else if hasProperty (lit "DURATION") ps && negb (hasProperty (lit "DTSTART") ps) then
      do e <- plus_duration start (loadDuration (lit "DURATION") ps);
      Ok (start, with_end t e)
    else Ok (start, t)
  end.
(** componentrecur.py:135-137. *)
Definition setMaster := initFromMaster.
End WithTz.
