(** Model of the questions about time zones that a Calendar answers: /repo/src/pycalendar/icalendar/calendar.py:601-617.  Definitions only. *)
From Verif Require Export VTimezoneModel ZoneFileModel CalTzModel.

(** The VTIMEZONE objects of a calendar with their IDs (vtimezone.py:107-108), in the order of mComponents (calendar.py:613, componentbase.py:108-110).
    Simplification: the other components are left out, since the questions neither look at them nor change them. *)
Definition cal_zones := list (bytes * vtz).
(** calendar.py:613, vtimezone.py:41-52: those of a calendar that was not asked anything. *)
Definition zones_of (cal : comp) : cal_zones :=
  map (fun c => (sID (cState c), vtimezone_of c)) (filter (fun c => match cKind c with VTIMEZONE => true | _ => false end) (cSubs cal)).

Section WithTz.
Variable tzo : tzid -> Z -> Z -> Z -> Z -> Z -> Z -> bool -> bool -> Z.
Variable order : list dt -> list dt.
Variable torder : list onset_row -> list onset_row.

(** calendar.py:601-604 with 611-617: the first object with the ID is asked and keeps its caches; 0 if there is none.  None: out of fuel. *)
Fixpoint cal_getTimezoneOffsetSeconds (fuel : nat) (l : cal_zones) (id : tzid) (d : dt) (rel : bool) : option (cal_zones * res Z) :=
  match l with
  | [] => Some ([], Ok 0)
  | (n, z) :: r =>
    if same_id n id
    then match getTimezoneOffsetSeconds tzo order torder fuel z d rel with Some (z', v) => Some ((n, z') :: r, v) | None => None end
    else match cal_getTimezoneOffsetSeconds fuel r id d rel with Some (r', v) => Some ((n, z) :: r', v) | None => None end
  end.
(** calendar.py:606-609 with 611-617: in the same way; the empty text if there is none. *)
Fixpoint cal_getTimezoneDescriptor (fuel : nat) (l : cal_zones) (id : tzid) (d : dt) : option (cal_zones * res bytes) :=
  match l with
  | [] => Some ([], Ok [])
  | (n, z) :: r =>
    if same_id n id
    then match getTimezoneDescriptor tzo order fuel z d with Some (z', v) => Some ((n, z') :: r, v) | None => None end
    else match cal_getTimezoneDescriptor fuel r id d with Some (r', v) => Some ((n, z) :: r', v) | None => None end
  end.
End WithTz.
