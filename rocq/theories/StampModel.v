(** Model of the UID, the sequence number and the time stamps of a component: icalendar/component.py:47-53, 84-175,
    icalendar/componentrecur.py:81-82, 151-165, 231-238, datetime.py:689-695 and stringutils.py:101-102.  Line numbers are those of
    component.py unless another file is named.  Definitions only. *)
From Verif Require Export StatusModel.

(** mUID, mSeq, mOriginalSeq (50-52) and, of a recurring component, mHasStamp and mStamp (componentrecur.py:81-82). *)
Record ident : Set := mkIdent { iUID : bytes; iSeq : Z; iOriginal : Z; iHasStamp : bool; iStamp : dt }.
(** 47-53, componentrecur.py:81-82. *)
Definition newIdent : ident := mkIdent [] 0 0 false newDefault.

(** 161-175, componentrecur.py:231-238: finalise, as far as these fields go. *)
Definition ident_finalise (k : kind) (ps : props) (i : ident) : ident :=
  let uid := match loadString (lit "UID") ps with Some u => u | None => iUID i end in
  let seq := match loadInteger (lit "SEQUENCE") ps with Some n => n | None => iSeq i end in
  if is_recur k then
    match loadDateTime (lit "DTSTAMP") ps with
    | Some d => mkIdent uid seq seq true d
    | None => mkIdent uid seq seq false (iStamp i)
    end
  else mkIdent uid seq seq (iHasStamp i) (iStamp i).

(** What time.gmtime gives: year, month, day, hours, minutes, seconds. *)
Record tm : Set := mkTm { tmYear : Z; tmMon : Z; tmDay : Z; tmHour : Z; tmMin : Z; tmSec : Z }.
(** datetime.py:689-695. *)
Definition getNowUTC (now : tm) : dt := newDateTime (tmYear now) (tmMon now) (tmDay now) (tmHour now) (tmMin now) (tmSec now) true TzNone.

(** The component is its properties and these fields; Component.uid_ctr (29) is that of the process. *)
Definition identified : Set := (props * ident * Z)%type.
(** The property of this name is replaced (122-125, 135-138, 150-153, 156-159). *)
Definition replace_prop (name : bytes) (p : prop) (ps : props) : props := addProperty p (removeProperties name ps).

Section WithMd5.
(** stringutils.py:101-102. *)
Variable md5digest : bytes -> bytes.
(** What a UID is made from: str(time.time()), os.getpid() and Calendar.sDomain, which is calendarserver.org unless it was set
    (containerbase.py:31, 45-47). *)
Record moment : Set := mkMoment { clock_text : bytes; pid : Z; sDomain : bytes }.
(** 94-120: the UID that is generated when uid_ctr is ctr. *)
Definition generated_uid (m : moment) (ctr : Z) : bytes :=
  md5digest (clock_text m ++ lit "." ++ pystr (pid m) ++ lit "." ++ pystr ctr) ++ lit "@" ++ md5digest (sDomain m ++ pystr (ctr + 1)).
(** 90-125; the map key is that of setUID in CalendarModel. *)
Definition set_uid (m : moment) (uid : bytes) (c : identified) : identified :=
  let '(ps, i, ctr) := c in
  let u := match uid with [] => generated_uid m ctr | _ => uid end in
  let ctr := match uid with [] => ctr + 1 | _ => ctr end in
  (replace_prop (lit "UID") (text_prop 0 (lit "UID") None u) ps, mkIdent u (iSeq i) (iOriginal i) (iHasStamp i) (iStamp i), ctr).
End WithMd5.

(** 132-138. *)
Definition setSeq (n : Z) (c : identified) : identified :=
  let '(ps, i, ctr) := c in
  (replace_prop (lit "SEQUENCE") (with_value (lit "SEQUENCE") (Single (VInteger n))) ps, mkIdent (iUID i) n (iOriginal i) (iHasStamp i) (iStamp i), ctr).
(** 149-153, and componentrecur.py:151-159 for a recurring component. *)
Definition initDTSTAMP (k : kind) (now : tm) (c : identified) : identified :=
  let '(ps, i, ctr) := c in
  let ps := replace_prop (lit "DTSTAMP") (date_prop (lit "DTSTAMP") (getNowUTC now)) ps in
  if is_recur k then
    match loadDateTime (lit "DTSTAMP") ps with
    | Some d => (ps, mkIdent (iUID i) (iSeq i) (iOriginal i) true d, ctr)
    | None => (ps, mkIdent (iUID i) (iSeq i) (iOriginal i) false (iStamp i), ctr)
    end
  else (ps, i, ctr).
(** 155-159. *)
Definition updateLastModified (now : tm) (c : identified) : identified :=
  let '(ps, i, ctr) := c in (replace_prop (lit "LAST-MODIFIED") (date_prop (lit "LAST-MODIFIED") (getNowUTC now)) ps, i, ctr).
