(** Model of reading and writing calendars and vCards in a format that is given by its name: /repo/src/pycalendar/containerbase.py:80-96, 213-241,
    icalendar/calendar.py:55-56, 408-445, vcard/card.py:36-37, 70-77, 158-170.  Definitions only. *)
From Verif Require Export JsonModel CalTzModel VCardJsonModel.

(** calendar.py:55-56, card.py:36-37. *)
Definition cal_text : bytes := lit "text/calendar".
Definition cal_json : bytes := lit "application/calendar+json".
Definition card_text : bytes := lit "text/vcard".
Definition card_json : bytes := lit "application/vcard+json".

(** `format is None or format == name`. *)
Definition is_format (name : bytes) (f : option bytes) : bool := match f with None => true | Some s => beq s name end.
(** `format == name`. *)
Definition is_exactly (name : bytes) (f : option bytes) : bool := match f with None => false | Some s => beq s name end.

Section WithJson.
(** json.loads (None: it raises ValueError), and json.dumps with the options of calendar.py:438 and containerbase.py:239. *)
Variable loads : bytes -> option json.
Variable dumps : json -> res bytes.
Variable ctx : pctx.
Variable fl : floats.
Variable nm : jnums.

(** containerbase.py:213-222, card.py:158-170: what comes before the use of the JSON object. *)
Definition loaded {A} (data : bytes) (k : json -> res A) : res A := match loads data with Some j => k j | None => Raise InvalidData end.

Section Calendars.
Variable tzo : tzid -> Z -> Z -> Z -> Z -> Z -> Z -> bool -> bool -> Z.
Variable uuids : nat -> bytes.
(** What the time zone database has, and the order and uuids of CalTzModel.v. *)
Variable lookup : tzid -> option comp.
Variable standard : tzid -> bool.
Variable order : list tzid -> list tzid.
Variable uuid : tzid -> list nat -> bytes.

(** containerbase.py:80-96: Calendar.parseData(data, format) for a str; None if the format is neither. *)
Definition cal_parseData (data : bytes) (format : option bytes) : res (option comp) :=
  if is_format cal_text format then parseTextData tzo ctx fl uuids data
  else if is_exactly cal_json format then loaded data (fun j => do c <- parseJSONData ctx fl nm tzo uuids j; Ok (Some c))
  else Ok None.
(** calendar.py:408-445: Calendar.getText(includeTimezones, format), with the calendar afterwards.  None: out of fuel in folding (it does not happen, C25).
    The calendar is not followed after an exception. *)
Definition cal_getText (c : comp) (includeTimezones : option mode) (format : option bytes) : option (res (comp * option bytes)) :=
  let included := do l <- includeMissingTimezones lookup standard order uuid includeTimezones (cSubs c); Ok (Comp (cKind c) (cState c) (cProps c) l) in
  if is_format cal_text format then
    match included with
    | Raise e => Some (Raise e)
    | Ok c => match generate fl c with None => None | Some r => Some (do s <- r; Ok (c, Some s)) end
    end
  else if is_exactly cal_json format then Some (do c <- included; do j <- writeJSON c; do s <- dumps j; Ok (c, Some s))
  else Some (Ok (c, None)).
End Calendars.

(** containerbase.py:80-96: Card.parseData(data, format) for a str.  None: it does not end (C70). *)
Definition card_parseData (data : bytes) (format : option bytes) : option (res (option cprops)) :=
  if is_format card_text format then card_parse ctx fl data
  else if is_exactly card_json format then Some (loaded data (fun j => do c <- card_parseJSON ctx fl nm j; Ok (Some c)))
  else Some (Ok None).
(** card.py:70-77: Card.parseMultipleData(data, format) for a str; here None is no name for the text format. *)
Definition card_parseMultipleData (data : bytes) (format : option bytes) : option (res (option (list cprops))) :=
  if is_exactly card_text format then match cards_parse ctx fl data with None => None | Some r => Some (do l <- r; Ok (Some l)) end
  else if is_exactly card_json format then Some (loaded data (fun j => do l <- cards_parseJSON ctx fl nm j; Ok (Some l)))
  else Some (Ok None).
(** containerbase.py:224-239: Card.getText(format). *)
Definition card_getText (c : cprops) (format : option bytes) : option (res (option bytes)) :=
  if is_format card_text format then match card_generate fl c with None => None | Some r => Some (do s <- r; Ok (Some s)) end
  else if is_exactly card_json format then Some (do j <- card_writeJSON c; do s <- dumps j; Ok (Some s))
  else Some (Ok None).
End WithJson.
