(** Model of the Calendar object: its list of components and its index by UID (icalendar/calendar.py:71-160, 308-334,
    392-406, 490-496), component equality (componentbase.py:69-106, 150-157), and the sub-component functions of
    componentbase.py:108-145.  Components are objects here: a number is an object, the heap says what it is at the
    moment.  Definitions only. *)
From Verif Require Export ComponentModel.

(** Python dictionaries as association lists: d[k] = v, del d[k] of a key that is there, and d[k] of a
    collections.defaultdict(list). *)
Fixpoint put {A} (k : bytes) (v : A) (d : list (bytes * A)) : list (bytes * A) :=
  match d with
  | [] => [(k, v)]
  | (k', v') :: r => if beq k' k then (k', v) :: r else (k', v') :: put k v r
  end.
Fixpoint del {A} (k : bytes) (d : list (bytes * A)) : list (bytes * A) :=
  match d with
  | [] => []
  | (k', v') :: r => if beq k' k then r else (k', v') :: del k r
  end.
Definition items {A} (k : bytes) (d : list (bytes * list A)) : list A :=
  match assoc k d with Some l => l | None => [] end.

Section WithEq.
Variable tzo : tzid -> Z -> Z -> Z -> Z -> Z -> Z -> bool -> bool -> Z.
Variable fl : floats.
(** hash(property), icalendar/property.py:241-246. *)
Variable phash : prop -> Z.

(** Membership in a set of properties: an element with the same hash that is ==. *)
Fixpoint in_set (p : prop) (l : list prop) : res bool :=
  match l with
  | [] => Ok false
  | q :: r => if phash q =? phash p then do b <- prop_eq tzo fl q p; if b then Ok true else in_set p r else in_set p r
  end.
(** set.update: the elements so far, and those to come. *)
Fixpoint to_set (acc l : list prop) : res (list prop) :=
  match l with
  | [] => Ok acc
  | p :: r => do b <- in_set p acc; to_set (if b then acc else acc ++ [p]) r
  end.
Fixpoint all_in (l s : list prop) : res bool :=
  match l with
  | [] => Ok true
  | p :: r => do b <- in_set p s; if b then all_in r s else Ok false
  end.
(** componentbase.py:150-157.  Sets are equal if they have the same size and the second holds the elements of the first. *)
Definition compareProperties (ps qs : props) : res bool :=
  do mine <- to_set [] (List.concat (map snd ps));
  do theirs <- to_set [] (List.concat (map snd qs));
  if Nat.eqb (List.length mine) (List.length theirs) then all_in mine theirs else Ok false.

(** The inner loop of componentbase.py:99-105, and list.remove: the list without its first element that passes. *)
Section Take.
Context {A : Type}.
Variable f : A -> res bool.
Fixpoint take_first (l : list A) : res (option (list A)) :=
  match l with
  | [] => Ok None
  | x :: r => do b <- f x; if b then Ok (Some r)
              else do o <- take_first r; Ok (match o with Some r' => Some (x :: r') | None => None end)
  end.
End Take.
(** componentbase.py:72-75, 95-106.  Sets of components hold objects (they are hashed by identity); the order in which
    they are visited is that of the lists here. *)
Fixpoint comp_eq (c d : comp) : res bool :=
  let '(Comp k _ ps subs) := c in
  let '(Comp k' _ qs subs') := d in
  if beq (getType k) (getType k') then
    do b <- compareProperties ps qs;
    if b then
      (fix matching (mine theirs : list comp) : res bool :=
         match mine with
         | [] => Ok (match theirs with [] => true | _ => false end)
         | x :: r => do o <- take_first (comp_eq x) theirs;
                     match o with Some theirs' => matching r theirs' | None => Ok false end
         end) subs subs'
    else Ok false
  else Ok false.

(** calendar.py:71-76: mComponents, mMasterComponentsByTypeAndUID, mOverriddenComponentsByUID. *)
Record cal : Type := mkCal {
  heap : nat -> comp; held : list nat; masters : list (bytes * list (bytes * nat)); overridden : list (bytes * list nat) }.
Definition new_cal (h : nat -> comp) : cal := mkCal h [] [] [].
(** Anything that happens to an object outside the functions here. *)
Definition upd (h : nat -> comp) (i : nat) (c : comp) : nat -> comp := fun j => if Nat.eqb j i then c else h j.
Definition set_object (i : nat) (d : comp) (c : cal) : cal := mkCal (upd (heap c) i d) (held c) (masters c) (overridden c).
(** getUID and getRecurrenceID: component.py:87-88, componentrecur.py:191-192. *)
Definition getUID (c : comp) : bytes := sUID (cState c).
Definition getRecurrenceID (c : comp) : option dt := sRid (cState c).

(** calendar.py:308-320; a DateTime is never false. *)
Definition cal_add (i : nat) (c : cal) : cal :=
  let x := heap c i in
  let c1 := held c ++ [i] in
  if is_recur (cKind x) then
    match getRecurrenceID x with
    | Some _ => mkCal (heap c) c1 (masters c) (put (getUID x) (items (getUID x) (overridden c) ++ [i]) (overridden c))
    | None => let t := getType (cKind x) in
              mkCal (heap c) c1 (put t (put (getUID x) i (items t (masters c))) (masters c)) (overridden c)
    end
  else mkCal (heap c) c1 (masters c) (overridden c).

(** list.remove(component) takes out the first object that is this one or is == to it. *)
Definition is_or_equal (h : nat -> comp) (i j : nat) : res bool := if Nat.eqb j i then Ok true else comp_eq (h j) (h i).
(** calendar.py:322-334 with componentbase.py:135-136: the calendar afterwards, and the exception. *)
Definition cal_remove (i : nat) (c : cal) : cal * res unit :=
  let x := heap c i in
  match take_first (is_or_equal (heap c) i) (held c) with
  | Raise e => (c, Raise e)
  | Ok None => (c, Raise ValueError)
  | Ok (Some l) =>
    if is_recur (cKind x) then
      match getRecurrenceID x with
      | Some _ =>
        let here := items (getUID x) (overridden c) in
        match take_first (is_or_equal (heap c) i) here with
        | Raise e => (mkCal (heap c) l (masters c) (put (getUID x) here (overridden c)), Raise e)
        | Ok None => (mkCal (heap c) l (masters c) (put (getUID x) here (overridden c)), Raise ValueError)
        | Ok (Some here') => (mkCal (heap c) l (masters c) (put (getUID x) here' (overridden c)), Ok tt)
        end
      | None =>
        let t := getType (cKind x) in
        let here := items t (masters c) in
        match assoc (getUID x) here with
        | None => (mkCal (heap c) l (put t here (masters c)) (overridden c), Raise KeyError)
        | Some _ => (mkCal (heap c) l (put t (del (getUID x) here) (masters c)) (overridden c), Ok tt)
        end
      end
    else (mkCal (heap c) l (masters c) (overridden c), Ok tt)
  end.

(** component.py:90-127 and componentrecur.py:200-207; `made` is the UID that is generated for an empty one (from the
    clock, the process and a counter).  Property(UID, text) is a TEXT property (icalendar/property.py:191-201).
    mHasRecurrenceID is taken to say that mRecurrenceID is set. *)
Definition setUID (made uid : bytes) (c : comp) : comp :=
  let '(Comp k s ps subs) := c in
  let u := match uid with [] => made | _ => uid end in
  let key := if is_recur k then mapKey u (match sRid s with Some d => Some (getText d) | None => None end) else sMapKey s in
  Comp k (mkState (sUuid s) u key (sID s) (sStart s) (sRid s) (sAction s))
    (addProperty (mkProp (lit "UID") [] (Some (Single (VText u)))) (removeProperties (lit "UID") ps)) subs.
(** calendar.py:147-150: one component. *)
Definition change_one (made : nat -> bytes) (old new : bytes) (h : nat -> comp) (i : nat) : nat -> comp :=
  if beq (getUID (h i)) old then upd h i (setUID (made i) new (h i)) else h.
(** calendar.py:153-160: d[new] = d[old], then del d[old], if old is a key. *)
Definition move_key {A} (old new : bytes) (d : list (bytes * A)) : list (bytes * A) :=
  match assoc old d with Some v => del old (put new v d) | None => d end.
(** calendar.py:136-160. *)
Definition changeUID (made : nat -> bytes) (old new : bytes) (c : cal) : cal :=
  mkCal (fold_left (change_one made old new) (held c) (heap c)) (held c)
    (map (fun e => (fst e, move_key old new (snd e))) (masters c)) (move_key old new (overridden c)).

(** calendar.py:392-406. *)
Definition masterComponent (c : cal) : option nat :=
  find (fun i => is_recur (cKind (heap c i)) && match getRecurrenceID (heap c i) with None => true | Some _ => false end) (held c).
(** calendar.py:490-496. *)
Definition getRecurrenceInstancesItems (uid : bytes) (c : cal) : list nat := items uid (overridden c).
Definition getRecurrenceInstancesIds (uid : bytes) (c : cal) : list (option dt) :=
  map (fun i => getRecurrenceID (heap c i)) (items uid (overridden c)).
(** mMasterComponentsByTypeAndUID[type].get(uid). *)
Definition master_of (ty uid : bytes) (c : cal) : option nat := assoc uid (items ty (masters c)).

(** getMapKey: component.py:72-79, componentrecur.py:142-146, vtimezone.py:68-69, vunknown.py:47-48. *)
Definition getMapKey (c : comp) : bytes :=
  let s := cState c in
  match cKind c with
  | UNKNOWN _ => sUuid s
  | VTIMEZONE => sID s
  | VEVENT | VTODO | VJOURNAL | AVAILABLE => match sMapKey s with Some m => m | None => sUuid s end
  | _ => match sMapKey s with Some m => m | None => match sUID s with [] => sUuid s | u => u end end
  end.
(** componentbase.py:112-117. *)
Definition getComponentByKey (key : bytes) (c : cal) : option nat := find (fun i => beq (getMapKey (heap c i)) key) (held c).
(** componentbase.py:119-124. *)
Definition removeComponentByKey (key : bytes) (c : cal) : cal * res unit :=
  match getComponentByKey key c with Some i => cal_remove i c | None => (c, Ok tt) end.
(** componentbase.py:108-110. *)
Definition getComponents (name : option bytes) (c : cal) : list nat :=
  match name with
  | None | Some [] => held c
  | Some n => filter (fun i => beq (upper_type (heap c i)) (upper n)) (held c)
  end.
(** componentbase.py:138-145; the loop runs over a copy of the list. *)
Fixpoint remove_each (l : list nat) (c : cal) : cal * res unit :=
  match l with
  | [] => (c, Ok tt)
  | i :: r => match cal_remove i c with (c', Ok _) => remove_each r c' | (c', Raise e) => (c', Raise e) end
  end.
Definition removeAllComponent (name : option bytes) (c : cal) : cal * res unit :=
  match name with
  | None | Some [] => (mkCal (heap c) [] (masters c) (overridden c), Ok tt)
  | Some n => remove_each (filter (fun i => beq (upper_type (heap c i)) (upper n)) (held c)) c
  end.
End WithEq.
