(** The public operations of a DateTime object, as a state machine on its fields and
    caches.  src/pycalendar/datetime.py. *)
From Verif Require Import PyBase ParserCtx CalModel DateTimeModel DateTimeText.

(** One call on the object.  Left out: setToday, setNow, setNowUTC (662-695), which read
    the clock and then copy into the object through methods that do not exist
    (copy_ICalendarDateTime, copy_DateTime), so they raise AttributeError. *)
Inductive op : Set :=
| OGetPosix                                   (* 225 *)
| OOffset                                     (* 1103, through getTimezoneDescriptor etc. *)
| OSetDateOnly (b : bool)                     (* 249 *)
| OSetYYMMDD (y m d : Z)                      (* 253 *)
| OSetYear (y : Z) | OOffsetYear (k : Z)      (* 263, 268 *)
| OSetMonth (m : Z) | OOffsetMonth (k : Z)    (* 275, 280 *)
| OSetDay (d : Z) | OOffsetDay (k : Z)        (* 287, 292 *)
| OSetYearDay (n : Z) (ai : bool)             (* 296 *)
| OSetMonthDay (n : Z) (ai : bool)            (* 333 *)
| OSetWeekNo (n : Z)                          (* 365 *)
| OSetDowYear (n w : Z)                       (* 441 *)
| OSetDowMonth (n w : Z) (ai : bool)          (* 467 *)
| OSetNextDow (s w : Z)                       (* 496 *)
| OSetHHMMSS (h m s : Z)                      (* 549 *)
| OSetHours (h : Z) | OOffsetHours (k : Z)    (* 559, 564 *)
| OSetMinutes (m : Z) | OOffsetMinutes (k : Z) (* 571, 576 *)
| OSetSeconds (s : Z) | OOffsetSeconds (k : Z) (* 583, 588 *)
| OSetTzUTC (u : bool)                        (* 595 *)
| OSetTzID (t : tzid)                         (* 603 *)
| OSetTimezone (u : bool) (t : tzid)          (* 620 *)
| OAdjustTimezone (u : bool) (t : tzid)       (* 625 *)
| OAdjustToUTC                                (* 636 *)
| ORecur (f : freq) (n : Z) (ai : bool)       (* 697 *)
| OAdd (n : Z) | OSub (n : Z)                 (* 122, 162: continue with the result *)
| OParse (full : bool) (data : bytes).        (* 959 *)

Section Step.
Variable tzo : tzid -> Z -> Z -> Z -> Z -> Z -> Z -> bool -> bool -> Z.
Variable ctx : pctx.

(** The object after the call, or the exception.  The citations are those of [op]. *)
Definition step (d : dt) (o : op) : res dt :=
  match o with
  | OGetPosix => let (d', r) := getPosixTime tzo d in do _ <- r; Ok d'
  | OOffset => Ok (fst (timeZoneSecondsOffset tzo d false))
  | OSetDateOnly b => Ok (setDateOnly d b)
  | OSetYYMMDD y m x => Ok (setYYMMDD d y m x)
  | OSetYear y => Ok (setYear d y)
  | OOffsetYear k => Ok (offsetYear d k)
  | OSetMonth m => Ok (setMonth d m)
  | OOffsetMonth k => Ok (offsetMonth d k)
  | OSetDay x => Ok (setDay d x)
  | OOffsetDay k => Ok (offsetDay d k)
  | OSetYearDay n ai => Ok (setYearDay d n ai)
  | OSetMonthDay n ai => setMonthDay d n ai
  | OSetWeekNo n => setWeekNo d n
  | OSetDowYear n w => setDayOfWeekInYear d n w
  | OSetDowMonth n w ai => setDayOfWeekInMonth d n w ai
  | OSetNextDow s w => setNextDayOfWeek d s w
  | OSetHHMMSS h m s => Ok (setHHMMSS d h m s)
  | OSetHours h => Ok (setHours d h)
  | OOffsetHours k => Ok (offsetHours d k)
  | OSetMinutes m => Ok (setMinutes d m)
  | OOffsetMinutes k => Ok (offsetMinutes d k)
  | OSetSeconds s => Ok (setSeconds d s)
  | OOffsetSeconds k => Ok (offsetSeconds d k)
  | OSetTzUTC u => Ok (setTimezoneUTC d u)
  | OSetTzID t => Ok (setTimezoneID d t)
  | OSetTimezone u t => Ok (setTimezone d u t)
  | OAdjustTimezone u t => Ok (adjustTimezone tzo d u t)
  | OAdjustToUTC => Ok (adjustToUTC tzo d)
  | ORecur f n ai => Ok (recur d f n ai)
  | OAdd n => Ok (addSeconds d n)
  | OSub n => Ok (subSeconds d n)
  | OParse full data =>
    match dt_parse ctx full data d with (d', Ok _) => Ok d' | (_, Raise e) => Raise e end
  end.

(** A sequence of calls, none of which raises. *)
Fixpoint run (d : dt) (l : list op) : res dt :=
  match l with
  | [] => Ok d
  | o :: l => do d' <- step d o; run d' l
  end.
End Step.
