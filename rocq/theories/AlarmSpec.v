(** What C66 says: alarms. *)
From Verif Require Export AlarmModel ComponentSpec ValidateSpec.

Inductive edit_call : Set :=
| EditStatus (s : Z) | EditAction (action : Z) (data : adata) | EditTriggerOn (d : dt) | EditTriggerBy (d : dur) (on_start : bool)
| EditRepeats (n : Z) (interval : dur).
Definition edit_alarm (e : edit_call) (c : alarm_state) : alarm_state * res unit :=
  match e with
  | EditStatus s => editStatus s c
  | EditAction x d => editAction x d c
  | EditTriggerOn d => editTriggerOn d c
  | EditTriggerBy d b => editTriggerBy d b c
  | EditRepeats n i => editRepeats n i c
  end.
(** The calls one after the other, as long as none raises. *)
Fixpoint edit_all (l : list edit_call) (c : alarm_state) : alarm_state * res unit :=
  match l with
  | [] => (c, Ok tt)
  | e :: r => match edit_alarm e c with (c, Ok _) => edit_all r c | (c, Raise x) => (c, Raise x) end
  end.

(** Data of the class of the action, with every text there; for a procedure there is no class but the unknown. *)
Definition data_for (action : Z) (d : adata) : Prop :=
  match d with
  | Audio s => action = 0 /\ s <> None
  | Display s => action = 1 /\ s <> None
  | Email s t l => action = 2 /\ s <> None /\ t <> None /\ match l with Some l => Forall (fun x => x <> None) l | None => False end
  | UnknownAction => action = 3
  | Uri s => action = 5 /\ s <> None
  | NoAction => action = 6
  | Base _ => False
  end.
Definition fair (e : edit_call) : Prop :=
  match e with
  | EditStatus s => 0 <= s <= 2
  | EditAction x d => data_for x d
  | EditRepeats n _ => 0 <= n
  | _ => True
  end.

(** The same alarm: action and its data, trigger, repetitions, status, last trigger.  Dates and durations are related by [D] and [R]. *)
Definition alarm_rel (D : dt -> dt -> Prop) (R : dur -> dur -> Prop) (a b : valarm) : Prop :=
  aAction a = aAction b /\ aData a = aData b /\ aAbsolute a = aAbsolute b /\
  (if aAbsolute a then D (aOn a) (aOn b) else R (aBy a) (aBy b) /\ aOnStart a = aOnStart b) /\
  aRepeats a = aRepeats b /\ (0 < aRepeats a -> R (aInterval a) (aInterval b)) /\
  aStatus a = aStatus b /\ D (aLast a) (aLast b).
Definition same_alarm : valarm -> valarm -> Prop := alarm_rel eq eq.
Definition alike : valarm -> valarm -> Prop := alarm_rel same_when (fun d e => getTotalSeconds d = getTotalSeconds e).

(** All properties with other names are kept. *)
Definition kept_but (names : list bytes) (ps ps' : props) : Prop := forall name, ~ In name names -> getProperties name ps' = getProperties name ps.
(** The trigger has at most one value for RELATED. *)
Definition one_related (ps : props) : Prop :=
  match findFirstProperty (lit "TRIGGER") ps with
  | Some p => match assoc (lit "RELATED") (pParams p) with None | Some ((_, [_]) :: _) => True | _ => False end
  | None => True
  end.
(** The properties that each call can change. *)
Definition action_names : list bytes :=
  [lit "ACTION"; lit "X-MULBERRY-SPEAK-TEXT"; lit "DESCRIPTION"; lit "SUMMARY"; lit "ATTENDEE"; lit "URL"].
Definition touched (e : edit_call) : list bytes :=
  match e with
  | EditStatus _ => [lit "X-MULBERRY-ALARM-STATUS"]
  | EditAction _ _ => action_names
  | EditTriggerOn _ | EditTriggerBy _ _ => [lit "TRIGGER"]
  | EditRepeats _ _ => [lit "REPEAT"; lit "DURATION"]
  end.

(** What was given is there, and the rest is as before. *)
Definition given (e : edit_call) (a a' : valarm) : Prop :=
  let action_kept := aAction a' = aAction a /\ aData a' = aData a in
  let trigger_kept := aAbsolute a' = aAbsolute a /\ aOn a' = aOn a /\ aBy a' = aBy a /\ aOnStart a' = aOnStart a in
  let repeats_kept := aRepeats a' = aRepeats a /\ aInterval a' = aInterval a in
  let status_kept := aStatus a' = aStatus a in
  aLast a' = aLast a /\
  match e with
  | EditStatus s => aStatus a' = s /\ action_kept /\ trigger_kept /\ repeats_kept
  | EditAction x d => aAction a' = x /\ aData a' = d /\ trigger_kept /\ repeats_kept /\ status_kept
  | EditTriggerOn d => aAbsolute a' = true /\ aOn a' = d /\ action_kept /\ repeats_kept /\ status_kept
  | EditTriggerBy d s => aAbsolute a' = false /\ aBy a' = d /\ aOnStart a' = s /\ action_kept /\ repeats_kept /\ status_kept
  | EditRepeats n i => aRepeats a' = n /\ aInterval a' = i /\ action_kept /\ trigger_kept /\ status_kept
  end.

(** There is one property of the name, with this value and these values of these parameters. *)
Definition one_prop (name : bytes) (v : item) (params : list (bytes * list param)) (ps : props) : Prop :=
  exists p, getProperties name ps = [p] /\ pValue p = Some (Single v) /\ Forall (fun kl => lookup (fst kl) (pParams p) = snd kl) params.
Definition no_prop (name : bytes) (ps : props) : Prop := getProperties name ps = [].
(** RFC 5545 section 3.8.6.1 and the extensions. *)
Definition action_name (x : Z) : bytes :=
  match x with
  | 0 => lit "AUDIO" | 1 => lit "DISPLAY" | 2 => lit "EMAIL" | 3 => lit "PROCEDURE" | 5 => lit "URI" | 6 => lit "NONE" | _ => []
  end.
Definition status_name (s : Z) : bytes := match s with 0 => lit "PENDING" | 1 => lit "COMPLETED" | 2 => lit "DISABLED" | _ => [] end.
Definition the (s : option bytes) : bytes := match s with Some s => s | None => [] end.
(** The properties say what was given.  A trigger at a time needs VALUE (3.8.6.3). *)
Definition says (e : edit_call) (ps : props) : Prop :=
  match e with
  | EditStatus s => one_prop (lit "X-MULBERRY-ALARM-STATUS") (VText (status_name s)) [] ps
  | EditTriggerOn d =>
    one_prop (lit "TRIGGER") (VDateTime d) [(lit "VALUE", [(lit "VALUE", [if mDateOnly d then lit "DATE" else lit "DATE-TIME"])]); (lit "RELATED", [])] ps
  | EditTriggerBy d s =>
    one_prop (lit "TRIGGER") (VDuration d) [(lit "VALUE", []); (lit "RELATED", [(lit "RELATED", [if s then lit "START" else lit "END"])])] ps
  | EditRepeats n i =>
    if 0 <? n then one_prop (lit "REPEAT") (VInteger n) [] ps /\ one_prop (lit "DURATION") (VDuration i) [] ps
    else no_prop (lit "REPEAT") ps /\ no_prop (lit "DURATION") ps
  | EditAction x d =>
    one_prop (lit "ACTION") (VText (action_name x)) [] ps /\
    match d with
    | Audio s => one_prop (lit "X-MULBERRY-SPEAK-TEXT") (VText (the s)) [] ps
    | Display s => one_prop (lit "DESCRIPTION") (VText (the s)) [] ps
    | Email s t l =>
      one_prop (lit "DESCRIPTION") (VText (the s)) [] ps /\ one_prop (lit "SUMMARY") (VText (the t)) [] ps /\
      map pValue (getProperties (lit "ATTENDEE") ps) = map (fun a => Some (Single (VPlain PCalAddress a))) match l with Some l => l | None => [] end
    | Uri s => one_prop (lit "URL") (VUri s) [] ps
    | _ => True
    end
  end.
