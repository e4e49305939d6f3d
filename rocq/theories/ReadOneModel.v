(** Model of Calendar.parseComponent (/repo/src/pycalendar/icalendar/calendar.py:203-306), which adds the components of a stream to a calendar and is what the time zone
    database reads its files with (timezonedb.py:117-124).  Line numbers refer to calendar.py.  Definitions only.

    Simplifications.  The text of the exceptions is left out.  The object [result] is given as it is at the end.  The index of Calendar.addComponent is in CalendarModel.v, the
    merging of the time zones (303-304) in TzDbModel.v: here only the components that are given to it. *)
From Verif Require Import PyBase ComponentModel TzDbModel LineModel.

Section WithTz.
Variable tzo : tzid -> Z -> Z -> Z -> Z -> Z -> Z -> bool -> bool -> Z.
Variable ctx : pctx.
Variable fl : floats.
(** The value of uuid.uuid4() for each component made. *)
Variable uuids : nat -> bytes.

(** The variables of the loop, 205-220: whether state is GET_PROPERTY_OR_COMPONENT; self; componentstack with comp and compend (the components that are open, the innermost
    first); the first component, once it is closed; got_timezone; the number of components made. *)
Record onestate : Set := mkOne { oIn : bool; oSelf : comp; oOpen : list comp; oFirst : option comp; oZone : bool; oMade : nat }.
(** 231-235, 274-277. *)
Definition one_blank (st : onestate) : res (bool * onestate) :=
  if peqb (BLANK_LINES_IN_DATA ctx) PARSER_RAISE then Raise InvalidData else Ok (false, st).
(** 224-296, one round: whether the loop is left, and the variables. *)
Definition one_line (line : bytes) (st : onestate) : res (bool * onestate) :=
  let '(mkOne inn self opened first zone made) := st in
  if negb inn then
    if beq line (beginDelimiter (cKind self)) then Ok (false, mkOne true self opened first zone made)
    else match line with [] => one_blank st | _ => Raise InvalidData end
  else if startswith line (lit "BEGIN:") then
    let c := makeComponent (skipn 6 line) (uuids made) in
    Ok (false, mkOne true self (c :: opened) first (zone || beq (getType (cKind c)) (lit "VTIMEZONE")) (S made))
  else if beq line (endDelimiter (cKind self)) then Ok (true, st)
  else if match opened with c :: _ => beq line (endDelimiter (cKind c)) | [] => false end then
    match opened with
    | [] => Raise IndexError
    | c :: outer =>
      do c' <- finalise tzo c;
      match outer with
      | [] => do self' <- addComponent self c'; Ok (false, mkOne true self' [] (match first with Some f => Some f | None => Some c' end) zone made)
      | d :: outer' => do d' <- addComponent d c'; Ok (false, mkOne true self (d' :: outer') first zone made)
      end
    end
  else match line with
  | [] => one_blank st
  | _ =>
    match opened with
    | [] => Ok (false, st)
    | c :: outer => do p <- prop_parse ctx fl line; Ok (false, mkOne true self (put_prop p c :: outer) first zone made)
    end
  end.
(** 222, 295-296: the variables at the end of the loop, or when there is an exception. *)
Fixpoint one_lines (lines : list bytes) (st : onestate) : onestate * res unit :=
  match lines with
  | [] => (st, Ok tt)
  | l :: r =>
    match one_line l st with
    | Raise e => (st, Raise e)
    | Ok (true, st') => (st', Ok tt)
    | Ok (false, st') => one_lines r st'
    end
  end.
(** 203-306: the object afterwards, and the result with the components that are given to mergeTimezones. *)
Definition parseComponent (cal : comp) (data : bytes) : comp * res (option comp * list comp) :=
  let '(st, r) := one_lines (read_lines (S (List.length data)) None data) (mkOne false cal [] None false 0) in
  (oSelf st,
   do _ <- r;
   Ok (match oFirst st with Some f => Some f | None => match rev (oOpen st) with [] => None | c :: _ => Some c end end,
       if oZone st then filter (fun c => beq (getType (cKind c)) (lit "VTIMEZONE")) (cSubs (oSelf st)) else [])).

(** timezonedb.py:117-124: what the database reads, for the texts that are stored at the paths; the VTIMEZONEs that are added to an empty calendar. *)
Definition db_files (stored : bytes -> option bytes) (path : bytes) : file comp :=
  match stored path with
  | None => None
  | Some data =>
    let '(cal, r) := parseComponent (Comp VCALENDAR (newState []) [] []) data in
    Some (filter (fun c => beq (getType (cKind c)) (lit "VTIMEZONE")) (cSubs cal), do _ <- r; Ok tt)
  end.
End WithTz.
