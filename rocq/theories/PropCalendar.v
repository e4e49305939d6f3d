(** Properties of the calendar object and its index: C43. *)
From Verif Require Import PyBase PyProofs DateTimeModel PropertyModel ComponentModel ComponentProofs2 CalendarModel CalendarSpec CalendarProofs PropComponent.

(** After any history of adding, removing, editing and changing UIDs the index names exactly the recurring components in
    the calendar. *)
Theorem C43_index : forall tzo fl phash c, history tzo fl phash c -> coherent c.
Proof. intros tzo fl phash c H. apply (history_inv tzo fl phash c H). Qed.
Print Assumptions C43_index.

(** Removing a component that is there and unlike the others raises nothing, and takes out this one. *)
Theorem C43_remove : forall tzo fl phash c i, history tzo fl phash c -> In i (held c) ->
  (forall j, In j (held c) -> j <> i -> comp_eq tzo fl phash (heap c j) (heap c i) = Ok false) ->
  exists c', cal_remove tzo fl phash i c = (c', Ok tt) /\ heap c' = heap c /\
    exists a b, held c = a ++ i :: b /\ held c' = a ++ b /\ ~ In i (a ++ b).
Proof. intros tzo fl phash c i H. apply remove_splits. apply (history_inv tzo fl phash c H). Qed.
Print Assumptions C43_remove.

(** changeUID gives the components with the old UID the new one, as cached value and as their UID property, and changes
    nothing else in the components. *)
Theorem C43_change : forall tzo fl phash c made old new i, history tzo fl phash c -> new <> [] ->
  let before := heap c i in
  let after := heap (changeUID made old new c) i in
  held (changeUID made old new c) = held c /\
  (In i (held c) /\ getUID before = old ->
     getUID after = new /\ cKind after = cKind before /\ cSubs after = cSubs before /\ getRecurrenceID after = getRecurrenceID before /\
     (NoDup (map fst (cProps before)) -> forall name, getProperties name (cProps after) =
        if beq name (lit "UID") then [mkProp (lit "UID") [] (Some (Single (VText new)))] else getProperties name (cProps before))) /\
  (~ (In i (held c) /\ getUID before = old) -> after = before).
Proof. intros tzo fl phash c made old new i H W. apply changed; [exact W|]. apply (history_inv tzo fl phash c H). Qed.
Print Assumptions C43_change.

(** The recurrence ids that the expansion of an event leaves out are those of the instances in the calendar. *)
Theorem C43_instances : forall tzo fl phash c u, history tzo fl phash c ->
  getRecurrenceInstancesIds u c = map (fun i => getRecurrenceID (heap c i)) (filter (fun i => instance_of u (heap c i)) (held c)).
Proof.
  intros tzo fl phash c u H. destruct (C43_index _ _ _ _ H) as [_ O]. unfold getRecurrenceInstancesIds. f_equal. apply O.
Qed.
Print Assumptions C43_instances.

(** A master and two instances of it, a task with the same UID, and another event with this UID. *)
Definition instance (uid : bytes) (rid : dt) : comp :=
  Comp VEVENT (mkState (lit "x") uid (mapKey uid (Some (getText rid))) [] (Some rid) (Some rid) 1)
    [entry (lit "RECURRENCE-ID") (VDateTime rid); entry (lit "DTSTART") (VDateTime rid); entry (lit "UID") (VText uid)] [].
Definition day (n : Z) : dt := newDate 2020 1 n false TzNone.
Definition task (uid : bytes) : comp :=
  Comp VTODO (mkState (lit "x") uid (Some (lit "u:" ++ uid)) [] None None 1) [entry (lit "UID") (VText uid)] [].
Definition objects (n : nat) : comp :=
  match n with
  | 0%nat => event (lit "a") [] | 1%nat => instance (lit "a") (day 2) | 2%nat => instance (lit "a") (day 3) | 3%nat => task (lit "a")
  | 4%nat => event (lit "a") [alarm] | 5%nat => event (lit "b") [] | 6%nat => instance (lit "b") (day 4)
  | _ => event (lit "a20200102") []
  end.
Definition hash0 : prop -> Z := fun _ => 0.
Definition filled : cal := cal_add 3 (cal_add 2 (cal_add 1 (cal_add 0 (new_cal objects)))).
Lemma filled_history : history tz_none fl0 hash0 filled.
Proof.
  repeat apply H_add; try apply H_new;
    try no_in;
    intros j J; repeat (destruct J as [<-|J]; [intros [A B] [C D] E; try discriminate A; try discriminate B; try discriminate C; try discriminate D; discriminate E|]); destruct J.
Qed.
Example C43_index_ex : history tz_none fl0 hash0 filled /\ master_of (lit "VEVENT") (lit "a") filled = Some 0%nat /\
  master_of (lit "VTODO") (lit "a") filled = Some 3%nat /\ getRecurrenceInstancesItems (lit "a") filled = [1; 2]%nat.
Proof. split; [exact filled_history|]. split; [reflexivity|]. split; reflexivity. Qed.
Example C43_remove_ex : history tz_none fl0 hash0 filled /\ In 1%nat (held filled) /\
  (forall j, In j (held filled) -> j <> 1%nat -> comp_eq tz_none fl0 hash0 (heap filled j) (heap filled 1%nat) = Ok false) /\
  getRecurrenceInstancesItems (lit "a") (fst (cal_remove tz_none fl0 hash0 1 filled)) = [2]%nat.
Proof.
  split; [exact filled_history|]. split; [right; left; reflexivity|]. split; [|vm_compute; reflexivity].
  intros j J. cbn in J. destruct J as [<-|[<-|[<-|[<-|[]]]]]; intro N; try (vm_compute; reflexivity). contradiction.
Qed.
Example C43_change_ex : history tz_none fl0 hash0 filled /\
  let c := changeUID (fun _ => []) (lit "a") (lit "z") filled in
  map (fun i => getUID (heap c i)) (held c) = [lit "z"; lit "z"; lit "z"; lit "z"] /\
  master_of (lit "VEVENT") (lit "z") c = Some 0%nat /\ master_of (lit "VEVENT") (lit "a") c = None /\
  getRecurrenceInstancesItems (lit "z") c = [1; 2]%nat.
Proof. split; [exact filled_history|]. vm_compute. auto. Qed.
Example C43_instances_ex : history tz_none fl0 hash0 filled /\ getRecurrenceInstancesIds (lit "a") filled = [Some (day 2); Some (day 3)].
Proof. split; [exact filled_history|]. reflexivity. Qed.

(** Two events with the same UID and no recurrence id: the index knows the one that was added last, removing the other
    makes it forget that one too, and then removing it raises KeyError. *)
Theorem C43_two_masters_refuted : exists h c, c = cal_add 4 (cal_add 0 (new_cal h)) /\
  held c = [0; 4]%nat /\ is_master (heap c 0%nat) /\ is_master (heap c 4%nat) /\
  master_of (lit "VEVENT") (lit "a") c = Some 4%nat /\
  exists c', cal_remove tz_none fl0 hash0 0 c = (c', Ok tt) /\ held c' = [4]%nat /\ master_of (lit "VEVENT") (lit "a") c' = None /\
    snd (cal_remove tz_none fl0 hash0 4 c') = Raise KeyError /\ held (fst (cal_remove tz_none fl0 hash0 4 c')) = [].
Proof.
  exists objects. eexists. split; [reflexivity|]. split; [reflexivity|]. split; [split; reflexivity|]. split; [split; reflexivity|].
  split; [reflexivity|]. eexists. split; [vm_compute; reflexivity|]. vm_compute. auto.
Qed.
Print Assumptions C43_two_masters_refuted.

(** changeUID to the UID that the components have already makes the index forget them. *)
Theorem C43_same_uid_refuted : exists c, history tz_none fl0 hash0 c /\ In 0%nat (held c) /\ is_master (heap c 0%nat) /\
  let u := getUID (heap c 0%nat) in let c' := changeUID (fun _ => []) u u c in
  held c' = held c /\ getRecurrenceInstancesItems u c <> [] /\ getRecurrenceInstancesItems u c' = [] /\ master_of (lit "VEVENT") u c' = None.
Proof.
  exists filled. split; [exact filled_history|]. split; [left; reflexivity|]. split; [split; reflexivity|].
  split; [reflexivity|]. split; [discriminate|]. split; reflexivity.
Qed.
Print Assumptions C43_same_uid_refuted.

(** changeUID to the UID of other components makes the index forget those. *)
Theorem C43_used_uid_refuted : exists c, history tz_none fl0 hash0 c /\ getRecurrenceInstancesItems (lit "a") c = [1; 2]%nat /\
  getRecurrenceInstancesItems (lit "b") c = [6]%nat /\
  let c' := changeUID (fun _ => []) (lit "b") (lit "a") c in
  held c' = held c /\ getUID (heap c' 1%nat) = lit "a" /\ getUID (heap c' 6%nat) = lit "a" /\ getRecurrenceInstancesItems (lit "a") c' = [6]%nat.
Proof.
  exists (cal_add 6 filled). split; [|vm_compute; repeat split].
  apply H_add; [exact filled_history| |].
  - no_in.
  - intros j J [_ B]. discriminate B.
Qed.
Print Assumptions C43_used_uid_refuted.

(** removeAllComponent() empties the calendar and leaves the index as it was. *)
Theorem C43_remove_all_refuted : exists c, history tz_none fl0 hash0 c /\
  exists c', removeAllComponent tz_none fl0 hash0 None c = (c', Ok tt) /\ held c' = [] /\ getRecurrenceInstancesItems (lit "a") c' = [1; 2]%nat.
Proof. exists filled. split; [exact filled_history|]. eexists. split; [reflexivity|]. split; reflexivity. Qed.
Print Assumptions C43_remove_all_refuted.

(** getComponentByKey with the key of one component may give a component with another UID: the key is the UID followed by
    the recurrence id. *)
Theorem C43_key_refuted : exists c i j, history tz_none fl0 hash0 c /\ In i (held c) /\ In j (held c) /\
  getComponentByKey (getMapKey (heap c i)) c = Some j /\ getUID (heap c i) <> getUID (heap c j).
Proof.
  exists (cal_add 7 filled), 7%nat, 1%nat. split; [|split; [vm_compute; auto 9|split; [vm_compute; auto 9|split; [vm_compute; reflexivity|discriminate]]]].
  apply H_add; [exact filled_history| |].
  - no_in.
  - intros j J _ _ _. cbn in J. destruct J as [<-|[<-|[<-|[<-|[]]]]]; discriminate.
Qed.
Print Assumptions C43_key_refuted.
