(** Properties of setting the value of a property: C84. *)
From Verif Require Import PyBase PyProofs ParserCtx LineModel LineSpec LineProofs DateTimeModel DateTimeText DurationModel PeriodModel PropertyModel PropertySpec PropertyProofs PropertyProofs3 RecurModel
  ComponentModel MakeModel MakeSpec MakeProofs SetValueModel SetValueSpec SetValueProofs PropComponent PropProperty.

(** setValue with a value that fits: name and parameters stay, and the value is the one given, dates being put in the zone that the
    TZID parameter names.  The value given is not changed if there is no such parameter or the type is not DATE-TIME. *)
Theorem C84_set : forall ctx z p v, name_ok (pName p) -> params_ok (pParams p) -> tzid_of (pParams p) z -> fits ctx z p v ->
  exists q w v', setValue p v = SetTo q v' /\ pName q = pName p /\ pParams q = pParams p /\ pValue q = Some w /\ took z v w /\
    (z = None \/ ~ typed (pName p) (pParams p) T_DATETIME -> v' = v).
Proof.
  intros ctx z p v N P Z F. destruct (set_ok ctx fl0 p v z N P Z F) as (q & w & v' & E & A & B & C & T & _ & U). exists q, w, v'. tauto.
Qed.
Print Assumptions C84_set.

(** The line of the property is then read as a property with that name, the other parameters and that value. *)
Theorem C84_written : forall ctx fl z p v, name_ok (pName p) -> params_ok (pParams p) -> tzid_of (pParams p) z -> fits ctx z p v ->
  exists q v' text r w w', setValue p v = SetTo q v' /\ prop_line fl q = Ok text /\ prop_parse ctx fl text = Ok r /\
    pName r = pName p /\ (forall k, k <> lit "VALUE" -> Forall2 same_param (lookup k (pParams p)) (lookup k (pParams r))) /\
    took z v w /\ pValue r = Some w' /\ same_value w w'.
Proof.
  intros ctx fl z p v N P Z F. destruct (set_ok ctx fl p v z N P Z F) as (q & w & v' & E & A & B & C & T & O & _).
  destruct (C52_round_trip ctx fl q O) as (text & r & L & R & (SN & SP & SV) & _). rewrite C in SV. destruct (pValue r) as [w'|] eqn:V; [|destruct SV].
  exists q, v', text, r, w, w'. rewrite <- B, <- A. repeat (split; [assumption || congruence|]). assumption.
Qed.
Print Assumptions C84_written.

Definition set_line (p : prop) (v : pyvalue) : option bytes :=
  match setValue p v with SetTo q _ => match prop_line fl0 q with Ok t => Some t | _ => None end | _ => None end.
Definition value_date : bytes * list param := (lit "VALUE", [(lit "VALUE", [lit "DATE"])]).
Definition at_nine : dt := newDateTime 2020 1 31 9 30 0 false TzNone.
Lemma ny_params_ok : params_ok [ny_param].
Proof.
  split; [repeat constructor; cbn; intuition discriminate|].
  repeat constructor; cbn; unfold needs_quotes; cbn; try discriminate; try (intuition discriminate);
    try (intros; reflexivity); try (intros [H|[H|H]]; exfalso; revert H; cbn; intuition discriminate).
Qed.
(** A start in New York set to another hour; an excluded date set to two; a sequence number. *)
Example C84_set_ex :
  let p := mkProp (lit "DTSTART") [ny_param] (Some (Single (VDateTime (ny_time 21)))) in
  let x := mkProp (lit "EXDATE") [value_date] None in
  name_ok (pName p) /\ params_ok (pParams p) /\ tzid_of (pParams p) (Some (lit "America/New_York")) /\
  fits default_ctx (Some (lit "America/New_York")) p (PyDateTime at_nine) /\
  setValue p (PyDateTime at_nine) = SetTo (mkProp (lit "DTSTART") [ny_param] (Some (Single (VDateTime (ny_time 9))))) (PyDateTime (ny_time 9)) /\
  fits default_ctx None x (PyDates [newDate 2020 1 31 false TzNone; newDate 2020 2 1 false TzNone]) /\
  set_line x (PyDates [newDate 2020 1 31 false TzNone; newDate 2020 2 1 false TzNone]) = Some (lit "EXDATE;VALUE=DATE:20200131,20200201") /\
  fits default_ctx None (mkProp (lit "SEQUENCE") [] None) (PyInt 7) /\ set_line (mkProp (lit "SEQUENCE") [] None) (PyInt 7) = Some (lit "SEQUENCE:7").
Proof.
  assert (D : forall name ps, lookup (lit "VALUE") ps = [] -> forall t, In (upper name) (names_with t) -> typed name ps t)
    by (intros name ps L t H; apply ty_default; [intros n v l r t0 X; congruence|exact H]).
  cbv zeta. split; [unfold name_ok, starts_ok; cbn; repeat split; try discriminate; intuition discriminate|]. split; [exact ny_params_ok|].
  split; [eapply tz_some; reflexivity|]. split.
  { split; [intros [H|H]; discriminate H|]. exists T_DATETIME. split; [apply D; [reflexivity|vm_compute; tauto]|]. split; [discriminate|]. right. split; [no_in|].
    split; [repeat split; vm_compute; discriminate|discriminate]. }
  split; [vm_compute; reflexivity|]. split.
  { split; [intros [H|H]; discriminate H|]. exists T_DATE. split; [eapply ty_param; [reflexivity|constructor]|]. split; [discriminate|]. left. split; [vm_compute; tauto|].
    split; [discriminate|]. constructor; [|constructor; [|constructor]]; (split; [repeat split; vm_compute; discriminate|reflexivity]). }
  split; [vm_compute; reflexivity|]. split; [|vm_compute; reflexivity].
  split; [intros [H|H]; discriminate H|]. exists T_INTEGER. split; [apply D; [reflexivity|vm_compute; tauto]|]. split; [discriminate|]. right. split; [no_in|exact I].
Qed.

(** A value that is not a list for a property whose values are lists: TypeError, and the old value is lost. *)
Theorem C84_no_list : forall p v, params_ok (pParams p) -> listed (pName p) -> no_list v ->
  exists t, setValue p v = Failed (mkProp (pName p) (pParams p) (Some (Multi t []))) TypeError.
Proof.
  intros p v P L N. unfold setValue. cbv zeta. rewrite (multi_listed _ L).
  assert (T : exists t, set_type (pName p) (pParams p) = Ok t).
  { unfold set_type. cbv zeta. destruct (assoc (lit "VALUE") (pParams p)) as [[|[n [|x l]] r]|] eqn:E; [| | |eexists; reflexivity].
    - exfalso. eapply params_first; eauto.
    - exfalso. eapply params_value; eauto.
    - cbn [first_value rbind]. eexists; reflexivity. }
  destruct T as [t ->]. exists t. destruct v; try contradiction; reflexivity.
Qed.
Print Assumptions C84_no_list.
Example C84_no_list_ex :
  let p := mkProp (lit "EXDATE") [ny_param] (Some (Multi T_DATETIME [VDateTime (ny_time 9)])) in
  listed (pName p) /\ no_list (PyDateTime (ny_time 21)) /\
  setValue p (PyDateTime (ny_time 21)) = Failed (mkProp (lit "EXDATE") [ny_param] (Some (Multi T_DATETIME []))) TypeError.
Proof. split; [vm_compute; tauto|]. split; [exact I|]. vm_compute. reflexivity. Qed.

(** Not true: a date-time in UTC keeps its meaning.  In a property with a TZID parameter the same hour of that zone is taken, and the
    object that the caller has given is changed too. *)
Theorem C84_instant_refuted : exists p d q, tzid_of (pParams p) (Some (lit "America/New_York")) /\ mTZUTC d = true /\
  setValue p (PyDateTime d) = SetTo q (PyDateTime (ny_time 9)) /\ pValue q = Some (Single (VDateTime (ny_time 9))) /\
  prop_line fl0 q = Ok (lit "DTSTART;TZID=America/New_York:20200131T093000") /\ d <> ny_time 9.
Proof.
  exists (mkProp (lit "DTSTART") [ny_param] (Some (Single (VDateTime (ny_time 21))))), (newDateTime 2020 1 31 9 30 0 true TzNone). eexists.
  split; [eapply tz_some; reflexivity|]. split; [reflexivity|]. split; [vm_compute; reflexivity|]. split; [reflexivity|]. split; [vm_compute; reflexivity|discriminate].
Qed.
Print Assumptions C84_instant_refuted.

(** Not true: a date-time with a zone is written with it.  setValue adds no TZID parameter (a new property with this value has one,
    C65), so the date-time that is read is floating. *)
Theorem C84_zone_refuted : exists p q v r e, setValue p (PyDateTime (ny_time 9)) = SetTo q v /\
  prop_line fl0 q = Ok (lit "DTSTART:20200131T093000") /\
  prop_parse default_ctx fl0 (lit "DTSTART:20200131T093000") = Ok r /\ pValue r = Some (Single (VDateTime e)) /\ mTZID e = TzNone /\
  match make 0 (lit "DTSTART") (PyDateTime (ny_time 9)) None with Ok p' => prop_line fl0 p' | Raise e => Raise e end
  = Ok (lit "DTSTART;TZID=America/New_York:20200131T093000").
Proof.
  exists (mkProp (lit "DTSTART") [] (Some (Single (VDateTime at_nine)))). do 4 eexists.
  split; [vm_compute; reflexivity|]. split; [vm_compute; reflexivity|]. split; [vm_compute; reflexivity|]. split; [reflexivity|]. split; [reflexivity|vm_compute; reflexivity].
Qed.
Print Assumptions C84_zone_refuted.

(** Not true: the text of a property with an unknown name is read back.  It is set as TEXT and written escaped, but read as it stands. *)
Theorem C84_unknown_refuted : exists q v r, setValue (mkProp (lit "X-NOTE") [] None) (PyStr (lit "one, two")) = SetTo q v /\
  prop_line fl0 q = Ok (lit "X-NOTE:one\, two") /\ prop_parse default_ctx fl0 (lit "X-NOTE:one\, two") = Ok r /\
  pValue r = Some (Single (VPlain PUnknown (Some (lit "one\, two")))).
Proof. do 3 eexists. split; [vm_compute; reflexivity|]. split; [vm_compute; reflexivity|]. split; [vm_compute; reflexivity|]. reflexivity. Qed.
Print Assumptions C84_unknown_refuted.

(** Not true: setting the value of a property to what its text says gives that property.  A request status becomes a single text,
    which is written with its semicolon escaped. *)
Theorem C84_status_refuted : exists p q v, prop_parse default_ctx fl0 (lit "REQUEST-STATUS:2.0;Success") = Ok p /\
  pValue p = Some (Single (VStatus [lit "2.0"; lit "Success"])) /\
  setValue p (PyStr (lit "2.0;Success")) = SetTo q v /\ pValue q = Some (Single (VText (lit "2.0;Success"))) /\
  prop_line fl0 q = Ok (lit "REQUEST-STATUS:2.0\;Success").
Proof. do 3 eexists. split; [vm_compute; reflexivity|]. split; [reflexivity|]. split; [vm_compute; reflexivity|]. split; [reflexivity|vm_compute; reflexivity]. Qed.
Print Assumptions C84_status_refuted.

(** Not true: a list property given one text has that text.  It has one value for each letter. *)
Theorem C84_letters_refuted : exists q v, setValue (mkProp (lit "CATEGORIES") [] None) (PyStr (lit "WORK")) = SetTo q v /\
  prop_line fl0 q = Ok (lit "CATEGORIES:W,O,R,K").
Proof. do 2 eexists. split; [vm_compute; reflexivity|]. vm_compute. reflexivity. Qed.
Print Assumptions C84_letters_refuted.
