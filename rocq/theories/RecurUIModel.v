(** Model of what rules and recurrence sets tell user interfaces: /repo/src/pycalendar/icalendar/recurrenceset.py:96-130, 239-295 and
    recurrence.py:827-836 (isSimpleRule and isAdvancedRule are in RecurModel.v).  Definitions only. *)
From Verif Require Export PyBase DateTimeModel PeriodModel RecurModel RecurExpand RecurSetModel.

(** recurrence.py:827-836; generate (508-623) catches its own exceptions. *)
Definition rule_getUIDescription (r : rule) : bytes := rule_generate r.

(** recurrenceset.py:255-256 and 267-268. *)
Definition too_much (s : rset) : bool :=
  (1 <? List.length (sRrules s))%nat || (0 <? List.length (sExrules s))%nat || (0 <? List.length (sRdates s))%nat || (0 <? List.length (sRperiods s))%nat.
(** recurrenceset.py:251-263: a list has no method firstElement. *)
Definition isSimpleUI (s : rset) : res bool :=
  if too_much s then Ok false
  else if (List.length (sRrules s) =? 1)%nat then Raise AttributeError
  else Ok true.
(** recurrenceset.py:265-275: in the same way. *)
Definition isAdvancedUI (s : rset) : res bool :=
  if too_much s then Ok false
  else if (List.length (sRrules s) =? 1)%nat then Raise AttributeError
  else Ok true.
(** recurrenceset.py:277-281. *)
Definition getUIRecurrence (s : rset) : option (rule * rcache) := match sRrules s with [r] => Some r | _ => None end.
(** recurrenceset.py:283-295: firstElement again. *)
Definition getUIDescription (s : rset) : res bytes :=
  if negb (hasRecurrence s) then Ok (lit "No Recurrence")
  else if (List.length (sRrules s) =? 1)%nat && (List.length (sExrules s) =? 0)%nat && (List.length (sRdates s) =? 0)%nat &&
          (List.length (sExdates s) =? 0)%nat && (List.length (sRperiods s) =? 0)%nat && (List.length (sExperiods s) =? 0)%nat
  then Raise AttributeError
  else Ok (lit "Multiple recurrence rules, dates or exclusions").

(** recurrenceset.py:97-112 and 114-129: a list has no method equal.  Simplification: an exception from the sort before it stands as AttributeError too. *)
Definition equalsDates (a b : list dt) : res bool :=
  if negb (List.length a =? List.length b)%nat then Ok false else if (List.length a =? 0)%nat then Ok true else Raise AttributeError.
Definition equalsPeriods (a b : list period) : res bool :=
  if negb (List.length a =? List.length b)%nat then Ok false else if (List.length a =? 0)%nat then Ok true else Raise AttributeError.
