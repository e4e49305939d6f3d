(** Model of how a calendar takes in and drops VTIMEZONE components: icalendar/calendar.py:611-617, 639-693,
    icalendar/component.py:180-189, icalendar/vavailability.py:103-114.  Definitions only. *)
From Verif Require Export CalendarModel DupModel.

(** component.py:180-189: the TZIDs of the properties with one date-time value (and not those of lists and periods). *)
Definition prop_tzids (p : prop) : list tzid :=
  match datetime_of (pValue p) with Some d => if tz_true (mTZID d) then [mTZID d] else [] | None => [] end.
Definition own_tzids (c : comp) : list tzid := flat_map prop_tzids (List.concat (map snd (cProps c))).
(** vavailability.py:103-114: the only class that overrides getTimezones. *)
Definition getTimezones (c : comp) : list tzid :=
  own_tzids c ++
  match cKind c with
  | VAVAILABILITY => flat_map own_tzids (filter (fun x => beq (upper_type x) (lit "AVAILABLE")) (cSubs c))
  | _ => []
  end.

(** vtimezone.py:107-108; another class has no getID. *)
Definition getID (c : comp) : res bytes := match cKind c with VTIMEZONE => Ok (sID (cState c)) | _ => Raise AttributeError end.
(** `timezone.getID() == tzid`: a string is never equal to None or to a number. *)
Definition same_id (id : bytes) (t : tzid) : bool := match t with TzName s => beq id s | _ => false end.
(** calendar.py:611-617, on the components of the calendar. *)
Fixpoint find_timezone (t : tzid) (l : list comp) : res (option comp) :=
  match l with
  | [] => Ok None
  | c :: r =>
    if beq (upper_type c) (lit "VTIMEZONE")
    then do id <- getID c; if same_id id t then Ok (Some c) else find_timezone t r
    else find_timezone t r
  end.

(** A set of TZIDs as a list without doubles. *)
Fixpoint tz_set (l : list tzid) : list tzid :=
  match l with
  | [] => []
  | t :: r => let s := tz_set r in if existsb (tz_eqb t) s then s else t :: s
  end.

Section Database.
(** What TimezoneDatabase.getTimezone and isStandardTimezone answer (timezonedb.py, TzDbModel.v; the answers do not depend
    on what was asked before, C51). *)
Variable lookup : tzid -> option comp.
Variable standard : tzid -> bool.
(** The order in which a set is visited, and the uuids of the copies. *)
Variable order : list tzid -> list tzid.
Variable uuid : tzid -> list nat -> bytes.

(** calendar.py:46-49. *)
Inductive mode : Set := ALL_TIMEZONES | NONSTD_TIMEZONES | NO_TIMEZONES.
(** calendar.py:665-675. *)
Fixpoint include_each (m : mode) (l : list tzid) (subs : list comp) : res (list comp) :=
  match l with
  | [] => Ok subs
  | t :: r =>
    if (match m with NONSTD_TIMEZONES => true | _ => false end) && standard t then include_each m r subs
    else do tz <- find_timezone t subs;
         match tz with
         | Some _ => include_each m r subs
         | None => match lookup t with
                   | None => include_each m r subs
                   | Some z => do dup <- duplicate (uuid t) [] z; include_each m r (subs ++ [dup])
                   end
         end
  end.
(** calendar.py:639-675, on the components of the calendar; None is NONSTD_TIMEZONES. *)
Definition includeMissingTimezones (m : option mode) (subs : list comp) : res (list comp) :=
  match m with
  | Some NO_TIMEZONES => Ok subs
  | _ =>
    let m := match m with Some m => m | None => NONSTD_TIMEZONES end in
    let used := filter (fun c => negb (beq (getType (cKind c)) (lit "VTIMEZONE"))) subs in
    include_each m (order (tz_set (flat_map getTimezones used))) subs
  end.
Section Strip.
Variable tzo : tzid -> Z -> Z -> Z -> Z -> Z -> Z -> bool -> bool -> Z.
Variable fl : floats.
Variable phash : prop -> Z.
(** calendar.py:677-693: the loop runs over a new list (componentbase.py:108-110). *)
Fixpoint strip_each (l : list nat) (changed : bool) (c : cal) : cal * res bool :=
  match l with
  | [] => (c, Ok changed)
  | i :: r =>
    match getID (heap c i) with
    | Raise e => (c, Raise e)
    | Ok id =>
      match lookup (TzName id) with
      | Some _ =>
        if standard (TzName id)
        then match cal_remove tzo fl phash i c with
             | (c', Ok _) => strip_each r true c'
             | (c', Raise e) => (c', Raise e)
             end
        else strip_each r changed c
      | None => strip_each r changed c
      end
    end
  end.
Definition stripStandardTimezones (c : cal) : cal * res bool :=
  strip_each (getComponents (Some (lit "VTIMEZONE")) c) false c.
End Strip.
End Database.
