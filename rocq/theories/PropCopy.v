(** Properties of copies of components and of component equality: C56 and C57. *)
From Verif Require Import PyBase PyProofs ParserCtx LineModel DateTimeModel DurationModel PropertyModel ComponentModel ComponentSpec CalendarModel DupModel
  DupSpec DupProofs EqProofs EqProofs2 PropComponent PropCalendar.

(** Every component with values in its properties can be copied, and the copy is like it all the way down. *)
Theorem C56_copy : forall uuid path c, ready c -> exists d, duplicate uuid path c = Ok d /\ copy_of c d.
Proof. intros uuid path c H. apply copies. exact H. Qed.
Print Assumptions C56_copy.
(** Every calendar that was read can be copied. *)
Theorem C56_read : forall tzo ctx fl uuids text c uuid path, parseTextData tzo ctx fl uuids text = Ok (Some c) ->
  exists d, duplicate uuid path c = Ok d /\ copy_of c d.
Proof. intros tzo ctx fl uuids text c uuid path H. apply copies. eapply read_ready. exact H. Qed.
Print Assumptions C56_read.
(** The copy is written as the same text, if the order of the sub-components does not hang on uuids. *)
Theorem C56_text : forall fl uuid path c d, ready c -> steady c -> duplicate uuid path c = Ok d -> generate fl d = generate fl c.
Proof. exact copy_text. Qed.
Print Assumptions C56_text.

(** uuids for copies: the number of the sub-component counts down from z. *)
Definition uuid_down (path : list nat) : bytes := match path with [] => lit "top" | n :: _ => [ascii_of_nat (122 - n)] end.
Ltac readies := repeat constructor; try reflexivity; eexists; (split; [reflexivity|exact I]).
Lemma cal1_ready : ready cal1.
Proof. readies. Qed.
Lemma cal1_steady : steady cal1.
Proof.
  constructor; [right; right; repeat constructor; discriminate|]. repeat constructor; cbn; auto.
Qed.
Example C56_copy_ex : ready cal1 /\ exists d, duplicate uuid_down [] cal1 = Ok d /\ d <> cal1 /\
  map getUID (cSubs d) = [[]; lit "b"; lit "a"] /\ map cKind (flat_map cSubs (cSubs d)) = [UNKNOWN (lit "X-INNER"); VALARM].
Proof. split; [exact cal1_ready|]. eexists. split; [vm_compute; reflexivity|]. split; [discriminate|]. split; reflexivity. Qed.
Example C56_read_ex : exists c d, parseTextData tz_none default_ctx fl0 uuids0 text1 = Ok (Some c) /\ duplicate uuid_down [] c = Ok d /\ d <> c.
Proof. do 2 eexists. split; [vm_compute; reflexivity|]. split; [vm_compute; reflexivity|discriminate]. Qed.
Example C56_text_ex : ready cal1 /\ steady cal1 /\ exists d, duplicate uuid_down [] cal1 = Ok d /\ d <> cal1 /\ generate fl0 d = Some (Ok text1).
Proof.
  split; [exact cal1_ready|]. split; [exact cal1_steady|]. eexists. split; [vm_compute; reflexivity|]. split; [discriminate|vm_compute; reflexivity].
Qed.

(** The alarms of an event are sorted by their action and trigger after reading, and by new uuids in a copy: the text of a
    copy may differ. *)
Definition alarm2 : comp :=
  Comp VALARM (mkState (lit "x") [] (Some (lit "1:-PT30M")) [] None None 1)
    [entry (lit "ACTION") (VText (lit "DISPLAY")); entry (lit "TRIGGER") (VDuration (mkDur false 0 0 0 30 0))] [].
Theorem C56_alarms_refuted : exists uuid text c d, parseTextData tz_none default_ctx fl0 uuids0 text = Ok (Some c) /\
  duplicate uuid [] c = Ok d /\ generate fl0 c = Some (Ok text) /\ generate fl0 d <> Some (Ok text).
Proof.
  exists uuid_down, (match generate fl0 (calendar [event (lit "a") [alarm; alarm2]]) with Some (Ok t) => t | _ => [] end).
  do 2 eexists. split; [vm_compute; reflexivity|]. split; [vm_compute; reflexivity|]. split; [vm_compute; reflexivity|]. vm_compute. discriminate.
Qed.
Print Assumptions C56_alarms_refuted.
(** A property without a value can be written, but not copied. *)
Theorem C56_no_value_refuted : exists c text, generate fl0 c = Some (Ok text) /\ forall uuid path, duplicate uuid path c = Raise AttributeError.
Proof.
  exists (Comp VEVENT (newState []) [(lit "X-A", [mkProp (lit "X-A") [] None])] []). eexists. split; [vm_compute; reflexivity|]. reflexivity.
Qed.
Print Assumptions C56_no_value_refuted.
(** recurring() is False for a component that is its own master, and True for its copy: the master of that is the original. *)
Theorem C56_recurring_refuted : forall self copy, copy <> self ->
  recurring self self = false /\ recurring copy (dup_master self self) = true.
Proof.
  intros self copy N. unfold dup_master, recurring. rewrite Nat.eqb_refl. split; [reflexivity|]. cbn [negb].
  apply Nat.eqb_neq in N. rewrite Nat.eqb_sym, N. reflexivity.
Qed.
Print Assumptions C56_recurring_refuted.
Example C56_recurring_refuted_ex : recurring 0 0 = false /\ recurring 1 (dup_master 0 0) = true.
Proof. split; reflexivity. Qed.

(** A copy is equal to the original. *)
Theorem C57_copy : forall tzo fl phash uuid path c d, ready c -> comparable tzo fl c -> duplicate uuid path c = Ok d ->
  comp_eq tzo fl phash c d = Ok true.
Proof.
  intros tzo fl phash uuid path c d R C H. destruct (copies uuid c R path) as (d' & E & K). rewrite H in E. injection E as <-.
  apply copy_equal; assumption.
Qed.
Print Assumptions C57_copy.
(** On properties where == is an equivalence that hashes respect, components are equal exactly if they are alike. *)
Theorem C57_exactly : forall tzo fl phash U c d, regular tzo fl phash U -> drawn U c -> drawn U d ->
  exists b, comp_eq tzo fl phash c d = Ok b /\ (b = true <-> alike tzo fl c d).
Proof. intros tzo fl phash U c d R C D. apply (like_spec tzo fl phash U R); assumption. Qed.
Print Assumptions C57_exactly.
(** So equality of components is an equivalence. *)
Theorem C57_equivalence : forall tzo fl phash U c d e, regular tzo fl phash U -> drawn U c -> drawn U d -> drawn U e ->
  comp_eq tzo fl phash c c = Ok true /\ comp_eq tzo fl phash c d = comp_eq tzo fl phash d c /\
  (comp_eq tzo fl phash c d = Ok true -> comp_eq tzo fl phash d e = Ok true -> comp_eq tzo fl phash c e = Ok true).
Proof.
  intros tzo fl phash U c d e R C D E. pose proof (fun x y => like_spec tzo fl phash U R x y) as S.
  split; [|split].
  - destruct (S c c C C) as (b & -> & [_ H]). rewrite H by (apply (like_refl tzo fl phash U R); assumption). reflexivity.
  - destruct (S c d C D) as (b & -> & H1). destruct (S d c D C) as (b' & -> & H2). f_equal. apply Bool.eq_iff_eq_true. rewrite H1, H2.
    split; apply (like_sym tzo fl phash U R); assumption.
  - destruct (S c d C D) as (b1 & -> & H1). destruct (S d e D E) as (b2 & -> & H2). destruct (S c e C E) as (b3 & -> & H3).
    intros Q1 Q2. injection Q1 as ->. injection Q2 as ->. f_equal. apply H3. apply (like_trans tzo fl phash U R c d e); auto; [apply H1|apply H2]; reflexivity.
Qed.
Print Assumptions C57_equivalence.
(** Texts, numbers, addresses, durations, statuses and UTC times are such properties. *)
Theorem C57_simple : forall tzo fl phash,
  (forall p q, simple_prop p -> simple_prop q -> prop_eq tzo fl p q = Ok true -> phash p = phash q) -> regular tzo fl phash simple_prop.
Proof. exact simple_regular. Qed.
Print Assumptions C57_simple.

Ltac simples := repeat (constructor; [intros p P; repeat (destruct P as [<-|P]; [split; [constructor|first [exact I|split; reflexivity]]|]); destruct P|]); repeat constructor.
Lemma cal1_drawn : drawn simple_prop cal1.
Proof.
  constructor; [intros p P; repeat (destruct P as [<-|P]; [split; [constructor|first [exact I|split; reflexivity]]|]); destruct P|].
  cbn [cSubs cal1 calendar]. repeat (apply Forall_cons || apply Forall_nil);
  repeat (constructor; [intros p P; repeat (destruct P as [<-|P]; [split; [constructor|first [exact I|split; reflexivity]]|]); destruct P|]; cbn [cSubs event unknown alarm]; repeat (apply Forall_cons || apply Forall_nil)).
Qed.
Definition respects : forall p q, simple_prop p -> simple_prop q -> prop_eq tz_none fl0 p q = Ok true -> hash0 p = hash0 q := fun p q _ _ _ => eq_refl.
Example C57_simple_ex : regular tz_none fl0 hash0 simple_prop /\ drawn simple_prop cal1.
Proof. split; [apply C57_simple; exact respects|exact cal1_drawn]. Qed.
(** The same components in another order. *)
Definition cal1' : comp := calendar [event (lit "a") []; unknown (lit "X-OUTER") [unknown (lit "X-INNER") []]; event (lit "b") [alarm]].
Example C57_exactly_ex : regular tz_none fl0 hash0 simple_prop /\ drawn simple_prop cal1 /\ comp_eq tz_none fl0 hash0 cal1 cal1' = Ok true /\
  comp_eq tz_none fl0 hash0 cal1 (calendar (cSubs cal1 ++ [event (lit "a") []])) = Ok false.
Proof. split; [apply C57_simple; exact respects|]. split; [exact cal1_drawn|]. split; vm_compute; reflexivity. Qed.
Example C57_equivalence_ex : regular tz_none fl0 hash0 simple_prop /\ drawn simple_prop cal1 /\ cal1 <> cal1' /\
  comp_eq tz_none fl0 hash0 cal1 cal1' = Ok true /\ comp_eq tz_none fl0 hash0 cal1' cal1 = Ok true.
Proof. split; [apply C57_simple; exact respects|]. split; [exact cal1_drawn|]. split; [discriminate|]. split; vm_compute; reflexivity. Qed.
Example C57_copy_ex : ready cal1 /\ comparable tz_none fl0 cal1 /\ exists d, duplicate uuid_down [] cal1 = Ok d /\ d <> cal1.
Proof.
  split; [exact cal1_ready|]. split; [|eexists; split; [vm_compute; reflexivity|discriminate]].
  assert (H : forall c, drawn simple_prop c -> comparable tz_none fl0 c).
  { destruct (C57_simple tz_none fl0 hash0 respects) as (T & S & _). induction c as [k s ps subs IH] using ComponentProofs3.comp_tree_ind. intro D.
    inversion D as [? F Ds E]; subst. constructor; [intros; apply T; apply F; assumption|intros; apply S, F; assumption|].
    cbn [cSubs] in *. rewrite Forall_forall in *. auto. }
  apply H. exact cal1_drawn.
Qed.

(** How often a property is there does not count. *)
Theorem C57_count_refuted : exists c d p, comp_eq tz_none fl0 hash0 c d = Ok true /\
  getProperties (lit "COMMENT") (cProps c) = [p; p] /\ getProperties (lit "COMMENT") (cProps d) = [p].
Proof.
  exists (Comp VEVENT (newState []) [(lit "COMMENT", [mkProp (lit "COMMENT") [] (Some (Single (VText (lit "x")))); mkProp (lit "COMMENT") [] (Some (Single (VText (lit "x"))))])] []),
    (Comp VEVENT (newState []) [entry (lit "COMMENT") (VText (lit "x"))] []), (mkProp (lit "COMMENT") [] (Some (Single (VText (lit "x"))))).
  split; [vm_compute; reflexivity|]. split; reflexivity.
Qed.
Print Assumptions C57_count_refuted.

(** The sets of properties compare hashes first, and times that are == may have different hashes: components whose
    properties are all equal may be different.  The hash here is that of the time (datetime.py:118-119). *)
Definition time_hash (p : prop) : Z :=
  match pValue p with Some (Single (VDateTime d)) => match dt_hash tz_none d with Ok n => n | Raise _ => 0 end | _ => 0 end.
Theorem C57_hash_refuted : exists c d, alike tz_none fl0 c d /\ comp_eq tz_none fl0 time_hash c d = Ok false.
Proof.
  exists (Comp VEVENT (newState []) [entry (lit "DTSTART") (VDateTime (newDateTime 2000 1 1 12 0 0 false TzNone))] []),
    (Comp VEVENT (newState []) [entry (lit "DTSTART") (VDateTime (newDateTime 2000 1 1 12 0 0 false (TzInt 3600)))] []).
  split; [|vm_compute; reflexivity]. apply (alike_intro _ _ _ _ []); try reflexivity.
  - intros p [<-|[]]. eexists. split; [left; reflexivity|vm_compute; reflexivity].
  - intros p [<-|[]]. eexists. split; [left; reflexivity|vm_compute; reflexivity].
  - constructor.
Qed.
Print Assumptions C57_hash_refuted.

(** A calendar that was read has in every component only components of the types that it may hold: what stands elsewhere
    is rejected. *)
Theorem C40_nesting : forall tzo ctx fl uuids text c, parseTextData tzo ctx fl uuids text = Ok (Some c) -> nested c.
Proof. intros tzo ctx fl uuids text c H. apply ready_nested. eapply read_ready. exact H. Qed.
Print Assumptions C40_nesting.
Example C40_nesting_ex : exists c, parseTextData tz_none default_ctx fl0 uuids0 text1 = Ok (Some c) /\
  map (fun c => map cKind (cSubs c)) (cSubs c) = [[]; [VALARM]; [UNKNOWN (lit "X-INNER")]] /\
  read0 [lit "BEGIN:VCALENDAR"; lit "VERSION:2.0"; lit "BEGIN:VTODO"; lit "UID:1"; lit "BEGIN:VEVENT"; lit "UID:2"; lit "END:VEVENT"; lit "END:VTODO"; lit "END:VCALENDAR"] = Raise ValueError.
Proof. eexists. split; [vm_compute; reflexivity|]. split; [reflexivity|vm_compute; reflexivity]. Qed.
