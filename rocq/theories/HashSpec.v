(** What the theorems about hashes and == of vCards are stated with. *)
From Verif Require Export HashModel DupSpec.

(** Python's floats: those that are == have the same hash. *)
Definition floats_hash (fl : floats) (fhash : pyfloat -> Z) : Prop := forall x y, fl_eq fl x y = true -> fhash x = fhash y.
(** A DateTime whose posix time and offset were not asked for yet, as one that was just read. *)
Definition uncached (d : dt) : Prop := mPosixTimeCached d = false /\ mTZOffset d = None.
(** A date as it is read: no time, no time zone. *)
Definition bare_date (d : dt) : Prop := mDateOnly d = true /\ mTZUTC d = false /\ mTZID d = TzNone /\ mHours d = 0 /\ mMinutes d = 0 /\ mSeconds d = 0.
Definition bare_float (d : dt) : Prop := mDateOnly d = false /\ mTZUTC d = false /\ mTZID d = TzNone.
Definition fixed_time (d : dt) : Prop := mDateOnly d = false /\ floating d = false.
(** Two times of the same sort: dates, floating times, or times that are neither. *)
Definition like_times (d e : dt) : Prop :=
  uncached d /\ uncached e /\ (bare_date d /\ bare_date e \/ bare_float d /\ bare_float e \/ fixed_time d /\ fixed_time e).
(** Rules whose lists are in the same order (a list that is missing is as one without elements). *)
Definition same_list {A} (l m : option (list A)) : Prop := match l with Some x => x | None => [] end = match m with Some x => x | None => [] end.
Definition like_rules (r s : rule) : Prop :=
  (forall d e, rUntil r = Some d -> rUntil s = Some e -> like_times d e) /\
  same_list (rBySeconds r) (rBySeconds s) /\ same_list (rByMinutes r) (rByMinutes s) /\ same_list (rByHours r) (rByHours s) /\ same_list (rByDay r) (rByDay s) /\
  same_list (rByMonthDay r) (rByMonthDay s) /\ same_list (rByYearDay r) (rByYearDay s) /\ same_list (rByWeekNo r) (rByWeekNo s) /\
  same_list (rByMonth r) (rByMonth s) /\ same_list (rBySetPos r) (rBySetPos s).
Definition like_items (i j : item) : Prop :=
  match i, j with
  | VDateTime d, VDateTime e => like_times d e
  | VPeriod p, VPeriod q => like_times (pStart p) (pStart q) /\ forall d e, snd (getEnd p) = Ok d -> snd (getEnd q) = Ok e -> like_times d e
  | VRecur r, VRecur s => like_rules r s
  | _, _ => True
  end.
Definition like_values (v w : option value) : Prop :=
  match v, w with
  | Some (Single i), Some (Single j) => item_type i = item_type j -> like_items i j
  | Some (Multi _ l), Some (Multi _ m) => forall i j, In i l -> In j m -> item_type i = item_type j -> like_items i j
  | _, _ => True
  end.
(** Values of C57 with times whose posix time was not asked for yet, and dates as they are read. *)
Definition fair_item (i : item) : Prop :=
  match i with VDateTime d => uncached d /\ (mDateOnly d = false /\ mTZUTC d = true \/ bare_date d) | _ => simple_item i end.
(** Properties with such values that have a hash. *)
Definition hash_stock (tzo : tzid -> Z -> Z -> Z -> Z -> Z -> Z -> bool -> bool -> Z) (fhash : pyfloat -> Z) (p : prop) : Prop :=
  NoDup (map fst (pParams p)) /\ (exists k, prop_key tzo fhash p = Ok k) /\
  match pValue p with Some (Single i) => fair_item i | Some (Multi _ l) => Forall fair_item l | None => True end.

(** vCards: the same, with names, addresses and organisations. *)
Definition fair_citem (i : citem) : Prop := match i with CItem i => fair_item i | _ => True end.
Definition card_stock (tzo : tzid -> Z -> Z -> Z -> Z -> Z -> Z -> bool -> bool -> Z) (fhash : pyfloat -> Z) (p : cprop) : Prop :=
  NoDup (map fst (cpParams p)) /\ (exists k, cprop_key tzo fhash p = Ok k) /\
  match cpValue p with Some (CSingle i) => fair_citem i | Some (CMulti _ l) => Forall fair_citem l | None => True end.
Definition card_props (c : cprops) : list cprop := List.concat (map snd c).
(** No two of these properties with different keys have the same hash by accident. *)
Definition no_accident (tzo : tzid -> Z -> Z -> Z -> Z -> Z -> Z -> bool -> bool -> Z) (fhash : pyfloat -> Z) (H : hkey -> Z) (l : list cprop) : Prop :=
  forall p q k m, In p l -> In q l -> cprop_key tzo fhash p = Ok k -> cprop_key tzo fhash q = Ok m -> H k = H m -> k = m.
(** Every property of the one is == one of the other with the same group. *)
Definition all_found (tzo : tzid -> Z -> Z -> Z -> Z -> Z -> Z -> bool -> bool -> Z) (fl : floats) (c d : cprops) : Prop :=
  forall p, In p (card_props c) -> exists q, In q (card_props d) /\ cprop_eq tzo fl p q = Ok true /\ cpGroup p = cpGroup q.
