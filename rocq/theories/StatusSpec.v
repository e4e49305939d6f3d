(** What C71 says: summary, status and completion of a component. *)
From Verif Require Export StatusModel AlarmSpec MakeSpec.

Inductive detail_call : Set :=
| CallSummary (s : option bytes) | CallDetails (description location : option bytes) | CallStatus (s : Z) | CallCompleted (d : dt).
(** The call for a component of class k: a status can be edited in events and to-dos, the completion in to-dos. *)
Definition edit_detail (tzo : tzid -> Z -> Z -> Z -> Z -> Z -> Z -> bool -> bool -> Z) (k : kind) (x : detail_call) (c : detailed) : detailed * res unit :=
  match x, k with
  | CallSummary s, _ => editSummary s c
  | CallDetails d l, _ => editDetails d l c
  | CallStatus s, VEVENT => vevent_editStatus s c
  | CallStatus s, VTODO => vtodo_editStatus s c
  | CallCompleted d, VTODO => editCompleted tzo d c
  | _, _ => (c, Raise AttributeError)
  end.
(** The calls one after the other, as long as none raises. *)
Fixpoint edit_details tzo (k : kind) (l : list detail_call) (c : detailed) : detailed * res unit :=
  match l with
  | [] => (c, Ok tt)
  | x :: r => match edit_detail tzo k x c with (c, Ok _) => edit_details tzo k r c | (c, Raise e) => (c, Raise e) end
  end.

(** RFC 5545 section 3.8.1.11. *)
Definition status_word (k : kind) (s : Z) : option bytes :=
  match k, s with
  | VEVENT, 1 => Some (lit "CONFIRMED") | VEVENT, 2 => Some (lit "TENTATIVE") | VEVENT, 3 => Some (lit "CANCELLED")
  | VTODO, 1 => Some (lit "NEEDS-ACTION") | VTODO, 2 => Some (lit "IN-PROCESS") | VTODO, 3 => Some (lit "COMPLETED") | VTODO, 4 => Some (lit "CANCELLED")
  | _, _ => None
  end.
(** A summary is a text that is not empty, or None.  The status of an event is one of those or none; that of a to-do is NEEDS-ACTION,
    IN-PROCESS or CANCELLED. *)
Definition fair_detail (k : kind) (x : detail_call) : Prop :=
  match x with
  | CallSummary s => s <> Some []
  | CallDetails _ _ => True
  | CallStatus s => (k = VEVENT /\ 0 <= s <= 3) \/ (k = VTODO /\ (s = 1 \/ s = 2 \/ s = 4))
  | CallCompleted _ => k = VTODO
  end.

(** The same summary and status; for a to-do the same priority, percentage and completion.  Dates are related by [D]. *)
Definition details_rel (D : dt -> dt -> Prop) (k : kind) (a b : details) : Prop :=
  eSummary a = eSummary b /\ eStatus a = eStatus b /\
  match k with
  | VTODO => ePriority a = ePriority b /\ ePercent a = ePercent b /\ eHasCompleted a = eHasCompleted b /\
             (eHasCompleted a = true -> D (eCompleted a) (eCompleted b))
  | _ => True
  end.
(** A new component with these properties has these details. *)
Definition in_step (k : kind) (ps : props) (e : details) : Prop := details_rel eq k (details_finalise k ps newDetails) e.

Definition touched_by (x : detail_call) : list bytes :=
  match x with
  | CallSummary _ => [lit "SUMMARY"]
  | CallDetails _ _ => [lit "DESCRIPTION"; lit "LOCATION"]
  | CallStatus _ => [lit "STATUS"; lit "COMPLETED"]
  | CallCompleted _ => [lit "COMPLETED"]
  end.
(** One property with this text and no parameter, or none if there is no text. *)
Definition says_text (name : bytes) (s : option bytes) (ps : props) : Prop :=
  getProperties name ps = match s with None | Some [] => [] | Some t => [mkProp name [] (Some (Single (VText t)))] end.
(** What is there after the call, in the properties and in the object. *)
Definition detail_given tzo (k : kind) (x : detail_call) (ps ps' : props) (e e' : details) : Prop :=
  ePriority e' = ePriority e /\ ePercent e' = ePercent e /\
  match x with
  | CallSummary s => says_text (lit "SUMMARY") s ps' /\ eSummary e' = s /\ eStatus e' = eStatus e /\ eHasCompleted e' = eHasCompleted e /\ eCompleted e' = eCompleted e
  | CallDetails d l => says_text (lit "DESCRIPTION") d ps' /\ says_text (lit "LOCATION") l ps' /\ e' = e
  | CallStatus s =>
    eStatus e' = s /\ eSummary e' = eSummary e /\
    if eStatus e =? s then ps' = ps /\ e' = e
    else says_text (lit "STATUS") (status_word k s) ps' /\
         match k with
         | VTODO => no_prop (lit "COMPLETED") ps' /\ eHasCompleted e' = false
         | _ => getProperties (lit "COMPLETED") ps' = getProperties (lit "COMPLETED") ps /\ eHasCompleted e' = eHasCompleted e /\ eCompleted e' = eCompleted e
         end
  | CallCompleted d =>
    eSummary e' = eSummary e /\ eStatus e' = eStatus e /\ eHasCompleted e' = true /\ eCompleted e' = adjustToUTC tzo d /\
    one_prop (lit "COMPLETED") (VDateTime (adjustToUTC tzo d)) [(lit "TZID", [])] ps'
  end.

(** A text in UTF-8. *)
Definition utf8 (s : bytes) : Prop := exists chars, Forall utf8_char chars /\ List.concat chars = s.
Definition utf8_or_none (s : option bytes) : Prop := match s with Some s => utf8 s | None => True end.
(** What is given can be written: texts in UTF-8; a date with at most as many digits as there is room for, and without a zone other than
    UTC once it is adjusted. *)
Definition writable tzo (x : detail_call) : Prop :=
  match x with
  | CallSummary s => utf8_or_none s
  | CallDetails d l => utf8_or_none d /\ utf8_or_none l
  | CallStatus _ => True
  | CallCompleted d => printable (adjustToUTC tzo d) /\ in_zone None (adjustToUTC tzo d)
  end.
