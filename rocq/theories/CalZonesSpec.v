(** Vocabulary for statements about the questions about time zones that a calendar answers. *)
From Verif Require Import PyBase DateTimeModel VTimezoneModel VTimezoneSpec CalZonesModel.

(** The time zones as they are written in the calendar: their IDs and elements. *)
Definition definitions := list (bytes * list elem).
(** es are the elements of the first one with this ID. *)
Definition first_with (defs : definitions) (id : bytes) (es : list elem) : Prop :=
  exists before after, defs = before ++ (id, es) :: after /\ ~ In id (map fst before).
(** The objects that no question was asked. *)
Definition unasked (defs : definitions) : cal_zones := map (fun p => (fst p, vtz_init (snd p))) defs.

(** The VTIMEZONEs of a calendar that is read. *)
Definition definitions_of (cal : comp) : definitions :=
  map (fun c => (sID (cState c), map element_of (cSubs c))) (filter (fun c => match cKind c with VTIMEZONE => true | _ => false end) (cSubs cal)).

(** The objects after any questions about any IDs, known or not; about the known ones they are those of C37. *)
Inductive cal_asked (tzo : tzid -> Z -> Z -> Z -> Z -> Z -> Z -> bool -> bool -> Z) (order : list dt -> list dt)
  (torder : list onset_row -> list onset_row) (top : Z) (defs : definitions) : cal_zones -> Prop :=
| cal_asked_new : cal_asked tzo order torder top defs (unasked defs)
| cal_asked_offset l fuel id d rel l' r : cal_asked tzo order torder top defs l ->
    (forall n es, id = TzName n -> first_with defs n es -> exists t, question es top d rel t) ->
    cal_getTimezoneOffsetSeconds tzo order torder fuel l id d rel = Some (l', r) -> cal_asked tzo order torder top defs l'
| cal_asked_name l fuel id d l' r : cal_asked tzo order torder top defs l ->
    (forall n es, id = TzName n -> first_with defs n es -> exists t, question es top d false t) ->
    cal_getTimezoneDescriptor tzo order fuel l id d = Some (l', r) -> cal_asked tzo order torder top defs l'.
