(** Model of the tool that prints the instances of a rule: instances.py.  Definitions only. *)
From Verif Require Export PyBase ParserCtx DateTimeModel DateTimeText PeriodModel RecurModel RecurExpand.

(** str.join. *)
Fixpoint join_with (sep : bytes) (l : list bytes) : bytes :=
  match l with [] => [] | [x] => x | x :: r => x ++ sep ++ join_with sep r end.
Section Tool.
Variable ctx : pctx.
Variable tzo : tzid -> Z -> Z -> Z -> Z -> Z -> Z -> bool -> bool -> Z.
(** instances.py:25-43, with the two arguments of the command line: the lines that are printed and the exception, if one ends it; None if the loops of
    expand do not end within the fuel.  expand normalises start in place (recurrence.py:842); range holds the same object, so what it starts at and what is
    printed as DTSTART are normalised as well.  offsetYear(100) is called on a copy, before that. *)
Definition instances_tool (fuel : nat) (start rrule : bytes) : option (list bytes * res unit) :=
  match rule_parse ctx rrule with
  | Raise e => Some ([], Raise e)
  | Ok recur =>
    match dt_parseText ctx false start with
    | Raise e => Some ([], Raise e)
    | Ok d =>
      let last := offsetYear d 100 in
      let first := normalise d in
      match expand tzo fuel recur cache_init d (newPeriodEnd first last) 0 None with
      | None => None
      | Some (_, (_, Raise e)) => Some ([], Raise e)
      | Some (_, (items, Ok _)) =>
        Some ([lit "DTSTART:" ++ getText first; lit "RRULE:" ++ rrule; lit "Instances: " ++ join_with (lit ", ") (map getText items)], Ok tt)
      end
    end
  end.
End Tool.
