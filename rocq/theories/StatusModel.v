(** Model of the summary, the status and the completion of recurring components: icalendar/vevent.py:54-90, 124-152,
    icalendar/vtodo.py:28-90, 114-129, 147-266, 301-346, icalendar/componentrecur.py:80, 107, 209-229, 267-271, 487-501 and
    componentbase.py:651-659.  Line numbers are those of vtodo.py unless another file is named.  Definitions only. *)
From Verif Require Export AlarmModel.

(** What the component keeps besides its times: mSummary (componentrecur.py:80), mStatus (116 and vevent.py:56), and those of a
    to-do: mPriority, mPercentComplete, mCompleted, mHasCompleted (114-119).  loadValueInteger may give None. *)
Record details : Set := mkDetails {
  eSummary : option bytes; eStatus : Z; ePriority : option Z; ePercent : option Z; eCompleted : dt; eHasCompleted : bool }.
(** 114-119; the other classes have no priority. *)
Definition newDetails : details := mkDetails None 0 (Some 0) (Some 0) newDefault false.

(** vevent.py:77-85, definitions.py:277-280: the status that this text stands for. *)
Definition vevent_status (t : bytes) : option Z :=
  if beq t (lit "TENTATIVE") then Some 2 else if beq t (lit "CONFIRMED") then Some 1 else if beq t (lit "CANCELLED") then Some 3 else None.
(** 245-255, definitions.py:282-286. *)
Definition vtodo_status (t : bytes) : option Z :=
  if beq t (lit "NEEDS-ACTION") then Some 1 else if beq t (lit "COMPLETED") then Some 3
  else if beq t (lit "IN-PROCESS") then Some 2 else if beq t (lit "CANCELLED") then Some 4 else None.
(** The status stays if there is no STATUS or one with another text (vevent.py:77-85 and 245-255). *)
Definition load_status (stands : bytes -> option Z) (ps : props) (old : Z) : Z :=
  match loadString (lit "STATUS") ps with
  | Some t => match stands t with Some s => s | None => old end
  | None => old
  end.
(** componentrecur.py:267-271: mSummary stays if there is no SUMMARY. *)
Definition load_summary (ps : props) (old : option bytes) : option bytes :=
  match loadString (lit "SUMMARY") ps with Some t => Some t | None => old end.
(** componentrecur.py:267-271, vevent.py:74-85, 241-263: finalise, as far as these fields go. *)
Definition details_finalise (k : kind) (ps : props) (e : details) : details :=
  let summary := load_summary ps (eSummary e) in
  match k with
  | VEVENT => mkDetails summary (load_status vevent_status ps (eStatus e)) (ePriority e) (ePercent e) (eCompleted e) (eHasCompleted e)
  | VTODO =>
    mkDetails summary (load_status vtodo_status ps (eStatus e)) (loadInteger (lit "PRIORITY") ps) (loadInteger (lit "PERCENT-COMPLETE") ps)
      (match loadDateTime (lit "COMPLETED") ps with Some d => d | None => eCompleted e end)
      (match loadDateTime (lit "COMPLETED") ps with Some _ => true | None => false end)
  | _ => mkDetails summary (eStatus e) (ePriority e) (ePercent e) (eCompleted e) (eHasCompleted e)
  end.

Definition detailed : Set := props * details.
(** componentrecur.py:215-229: getDescription and getLocation. *)
Definition text_or_empty (name : bytes) (ps : props) : bytes := match loadString name ps with Some t => t | None => [] end.

(** componentbase.py:651-659 with a text or None; the empty text is false.  The names are those of properties of type TEXT,
    for which the number given to text_prop is not used. *)
Definition editProperty (name : bytes) (v : option bytes) (ps : props) : props :=
  let ps := removeProperties name ps in
  match v with Some (c :: r) => addProperty (text_prop 0 name None (c :: r)) ps | _ => ps end.
(** componentrecur.py:490-495. *)
Definition editSummary (v : option bytes) (c : detailed) : detailed * res unit :=
  let '(ps, e) := c in
  ((editProperty (lit "SUMMARY") v ps, mkDetails v (eStatus e) (ePriority e) (ePercent e) (eCompleted e) (eHasCompleted e)), Ok tt).
(** componentrecur.py:497-501. *)
Definition editDetails (description location : option bytes) (c : detailed) : detailed * res unit :=
  let '(ps, e) := c in ((editProperty (lit "LOCATION") location (editProperty (lit "DESCRIPTION") description ps), e), Ok tt).

(** The status and mHasCompleted with these values. *)
Definition put_status (e : details) (s : Z) (has : bool) : details :=
  mkDetails (eSummary e) s (ePriority e) (ePercent e) (eCompleted e) has.
(** vevent.py:139-147: the text for a status. *)
Definition vevent_text (s : Z) : option bytes :=
  if s =? 2 then Some (lit "TENTATIVE") else if s =? 1 then Some (lit "CONFIRMED") else if s =? 3 then Some (lit "CANCELLED") else None.
(** vevent.py:127-152. *)
Definition vevent_editStatus (s : Z) (c : detailed) : detailed * res unit :=
  let '(ps, e) := c in
  if eStatus e =? s then (c, Ok tt)
  else
    let ps := removeProperties (lit "STATUS") ps in
    ((match vevent_text s with Some t => addProperty (text_prop 0 (lit "STATUS") None t) ps | None => ps end,
      put_status e s (eHasCompleted e)), Ok tt).
(** 316-330: the text for a status other than COMPLETED. *)
Definition vtodo_text (s : Z) : option bytes :=
  if s =? 1 then Some (lit "NEEDS-ACTION") else if s =? 2 then Some (lit "IN-PROCESS") else if s =? 4 then Some (lit "CANCELLED") else None.
(** 304-332.  For COMPLETED setNowUTC (datetime.py:685-686) is called, which calls copy_DateTime; that does not exist.  Without a text
    the property is made with None and has no value (icalendar/property.py:194-231). *)
Definition vtodo_editStatus (s : Z) (c : detailed) : detailed * res unit :=
  let '(ps, e) := c in
  if eStatus e =? s then (c, Ok tt)
  else
    let ps := removeProperties (lit "COMPLETED") (removeProperties (lit "STATUS") ps) in
    if s =? 3 then ((ps, put_status e s false), Raise AttributeError)
    else ((addProperty (match vtodo_text s with Some t => text_prop 0 (lit "STATUS") None t | None => mkProp (lit "STATUS") [] None end) ps,
           put_status e s false), Ok tt).

Section WithTz.
Variable tzo : tzid -> Z -> Z -> Z -> Z -> Z -> Z -> bool -> bool -> Z.
(** 334-344.  duplicate copies all fields (datetime.py:97-108).  The name is that of the status text COMPLETED, which is the same as that of the property. *)
Definition editCompleted (d : dt) (c : detailed) : detailed * res unit :=
  let '(ps, e) := c in
  let d := adjustToUTC tzo d in
  ((addProperty (date_prop (lit "COMPLETED") d) (removeProperties (lit "COMPLETED") ps),
    mkDetails (eSummary e) (eStatus e) (ePriority e) (ePercent e) d true), Ok tt).
End WithTz.

(** 190-209: getCompletionState for a component with mHasEnd he; None is no state.  setToday (datetime.py:662-664) calls
    copy_ICalendarDateTime, which does not exist. *)
Inductive completion : Set := OVERDUE | DUE_NOW | DUE_LATER | DONE | DROPPED.
Definition getCompletionState (e : details) (he : bool) : res (option completion) :=
  if (eStatus e =? 1) || (eStatus e =? 2) then if he then Raise AttributeError else Ok (Some DUE_NOW)
  else if eStatus e =? 3 then Ok (Some DONE) else if eStatus e =? 4 then Ok (Some DROPPED) else Ok None.
(** 152-188: StringIO is the name of the module (24), which cannot be called. *)
Definition getStatusText (e : details) : res bytes := Raise TypeError.
(** 34-40: a component has no attribute self. *)
Definition sort_for_display (x y : details) : res bool := Raise AttributeError.
