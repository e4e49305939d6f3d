(** What C43 says: which histories of a calendar are covered, and what its index should hold. *)
From Verif Require Export CalendarModel.

(** A recurring component is a master, or an instance with a recurrence id. *)
Definition is_master (c : comp) : Prop := is_recur (cKind c) = true /\ getRecurrenceID c = None.
Definition is_instance (c : comp) : Prop := is_recur (cKind c) = true /\ getRecurrenceID c <> None.
Definition instance_of (uid : bytes) (c : comp) : bool :=
  is_recur (cKind c) && (match getRecurrenceID c with Some _ => true | None => false end) && beq (getUID c) uid.

Section History.
Variable tzo : tzid -> Z -> Z -> Z -> Z -> Z -> Z -> bool -> bool -> Z.
Variable fl : floats.
Variable phash : prop -> Z.

(** Calls after each other on a calendar.  A component is added that is not there, and no two masters of the same type
    have the same UID.  The components may be edited between the calls, except for UID and RECURRENCE-ID of those in the
    calendar.  A component is removed that is there and is different from the others.  A UID is changed to one that no
    recurring component has. *)
Inductive history : cal -> Prop :=
| H_new : forall h, history (new_cal h)
| H_add : forall c i, history c -> ~ In i (held c) ->
    (forall j, In j (held c) -> is_master (heap c i) -> is_master (heap c j) ->
       getType (cKind (heap c j)) = getType (cKind (heap c i)) -> getUID (heap c j) <> getUID (heap c i)) ->
    history (cal_add i c)
| H_edit : forall c i d, history c ->
    (In i (held c) -> cKind d = cKind (heap c i) /\ getUID d = getUID (heap c i) /\ getRecurrenceID d = getRecurrenceID (heap c i)) ->
    history (set_object i d c)
| H_remove : forall c i, history c -> In i (held c) ->
    (forall j, In j (held c) -> j <> i -> comp_eq tzo fl phash (heap c j) (heap c i) = Ok false) ->
    history (fst (cal_remove tzo fl phash i c))
| H_change : forall c made old new, history c -> new <> [] ->
    (forall j, In j (held c) -> is_recur (cKind (heap c j)) = true -> getUID (heap c j) <> new) ->
    history (changeUID made old new c).
End History.

(** The index names exactly the masters in the calendar, by type and UID, and for each UID the instances in the order of
    the calendar. *)
Definition coherent (c : cal) : Prop :=
  (forall ty u i, master_of ty u c = Some i <->
     In i (held c) /\ is_master (heap c i) /\ getType (cKind (heap c i)) = ty /\ getUID (heap c i) = u) /\
  (forall u, getRecurrenceInstancesItems u c = filter (fun i => instance_of u (heap c i)) (held c)).
