(** C88: the JSON form of properties with registered names. *)
From Verif Require Import PyBase ParserCtx LineModel DateTimeModel PropertyModel PropertySpec RegJsonModel RegJsonSpec.
From Verif Require RegisterProofs RegJsonProofs PropComponent PropJson PropRegister.
Notation fl0 := PropComponent.fl0.
Notation nm0 := PropJson.nm0.
Notation two_calls := PropRegister.two_calls.

(** Reading: the values have the type that the array names, else the one of the standard for the name, else that of the first call for it. *)
Theorem C88_types : forall calls ctx fl nm jn jps n vs p, reg_parseJSON (after_calls calls) ctx fl nm (JArr (jn :: jps :: JText n :: vs)) = Ok p -> no_value_member jps ->
  exists t, json_typed calls (pName p) n t /\
  let s := structured (pName p) t in
  if existsb (beq (upper (pName p))) list_names
  then exists l, pValue p = Some (Multi s l) /\ Forall (made_by s) l
  else exists i, pValue p = Some (Single i) /\ made_by s i.
Proof. exact RegJsonProofs.reg_json_typed. Qed.
Print Assumptions C88_types.
Definition count_json (n : bytes) : json := JArr [JText (lit "x-count"); JObj [(lit "x-a", JText (lit "1"))]; JText n; JText (lit "12")].
Example C88_types_ex : exists p, reg_parseJSON (after_calls two_calls) default_ctx fl0 nm0 (count_json (lit "novel")) = Ok p /\
  no_value_member (JObj [(lit "x-a", JText (lit "1"))]) /\ json_typed two_calls (pName p) (lit "novel") T_INTEGER /\ pValue p = Some (Single (VInteger 12)).
Proof.
  eexists. split; [vm_compute; reflexivity|]. split; [intros m [= <-]; repeat constructor; discriminate|]. split; [|reflexivity].
  apply jt_default; [intros u H; remember (upper (lit "novel")) as w; destruct H; discriminate Heqw|exact PropRegister.count_default].
Qed.
(** The VALUE parameter of what is read: the type of the array if that is not the default of the name. *)
Theorem C88_parameter : forall calls ctx fl nm jn jps n vs p a d, reg_parseJSON (after_calls calls) ctx fl nm (JArr (jn :: jps :: JText n :: vs)) = Ok p -> no_value_member jps ->
  array_type n a -> name_type calls (pName p) d -> (a = d -> lookup (lit "VALUE") (pParams p) = []) /\ (a <> d -> lookup (lit "VALUE") (pParams p) = [(lit "VALUE", [upper n])]).
Proof. exact RegJsonProofs.reg_json_param. Qed.
Print Assumptions C88_parameter.
Example C88_parameter_ex : array_type (lit "integer") T_INTEGER /\ name_type two_calls (lit "X-COUNT") T_INTEGER /\ array_type (lit "date") T_DATE /\
  exists p, reg_parseJSON (after_calls two_calls) default_ctx fl0 nm0 (count_json (lit "integer")) = Ok p /\ pName p = lit "X-COUNT" /\ lookup (lit "VALUE") (pParams p) = [].
Proof.
  split; [apply at_named; constructor|]. split; [apply nt_default; exact PropRegister.count_default|]. split; [apply at_named; constructor|].
  eexists. split; [vm_compute; reflexivity|]. split; reflexivity.
Qed.
(** What is written is read, whatever the order of the members of its objects, as the same property by a program that made any calls,
    if no value of unknown type meets a reader that has a type for the name. *)
Theorem C88_round_trip : forall calls ctx fl nm p, reg_json_ok calls p ->
  exists j, prop_writeJSON p = Ok j /\ forall j', reordered j j' -> exists q, reg_parseJSON (after_calls calls) ctx fl nm j' = Ok q /\ same_json p q.
Proof. exact RegJsonProofs.reg_json_read. Qed.
Print Assumptions C88_round_trip.
Definition three_calls : list registration := mkCall ICalendar (lit "X-COUNT") T_TEXT false :: two_calls.
Definition counted : prop := mkProp (lit "x-Count") [(lit "X-A", [(lit "x-a", [lit "1"])])] (Some (Single (VInteger 12))).
Lemma counted_ok calls : reg_json_ok calls counted.
Proof.
  split.
  - split; [repeat constructor; intros []|]. constructor; [|constructor]. split; [repeat constructor|]. intros _. eexists. eexists. split; [reflexivity|].
    apply PropJson.ascii_check. vm_compute. reflexivity.
  - eexists. exists None. split; [reflexivity|]. split; [apply PropertySpec.tz_none; reflexivity|]. split; [|exact I].
    split; [cbn; intuition discriminate|]. repeat split; discriminate.
Qed.
Definition counted_json : json := JArr [JText (lit "x-count"); JObj [(lit "x-a", JText (lit "1"))]; JText (lit "integer"); JNum 12].
Example C88_round_trip_ex : reg_json_ok three_calls counted /\ prop_writeJSON counted = Ok counted_json /\
  exists q, reg_parseJSON (after_calls three_calls) default_ctx fl0 nm0 counted_json = Ok q /\ pValue q = pValue counted /\ lookup (lit "VALUE") (pParams q) = [(lit "VALUE", [lit "INTEGER"])].
Proof. split; [apply counted_ok|]. split; [vm_compute; reflexivity|]. eexists. split; [vm_compute; reflexivity|]. split; reflexivity. Qed.
(** So the calls of the reader do not matter for values of known types, other than for text (C87_reader_refuted). *)
Theorem C88_portable : forall ctx fl nm p v, reg_json_ok [] p -> pValue p = Some v -> value_type v <> T_UNKNOWN ->
  exists j, prop_writeJSON p = Ok j /\ forall calls j', reordered j j' -> exists q, reg_parseJSON (after_calls calls) ctx fl nm j' = Ok q /\ same_json p q.
Proof.
  intros ctx fl nm p v (Hp & v' & z & Ev & Hz & (T1 & T2 & T3 & T4 & T5 & _) & Hv) E U. rewrite E in Ev. injection Ev as <-.
  assert (R : forall calls, reg_json_ok calls p).
  { intro calls. split; [exact Hp|]. exists v, z. split; [exact E|]. split; [exact Hz|]. split; [|exact Hv].
    split; [exact T1|]. split; [exact T2|]. split; [exact T3|]. split; [exact T4|]. split; [exact T5|]. intro X. destruct (U X). }
  destruct (RegJsonProofs.reg_json_read [] ctx fl nm p (R [])) as (j & J & _). exists j. split; [exact J|].
  intros calls j' Q. destruct (RegJsonProofs.reg_json_read calls ctx fl nm p (R calls)) as (k & K & P). rewrite J in K. injection K as <-. exact (P j' Q).
Qed.
Print Assumptions C88_portable.
Example C88_portable_ex : reg_json_ok [] counted /\ value_type (Single (VInteger 12)) <> T_UNKNOWN /\
  exists q, reg_parseJSON (after_calls [mkCall ICalendar (lit "X-COUNT") T_DATE true]) default_ctx fl0 nm0 counted_json = Ok q /\ pValue q = pValue counted.
Proof. split; [apply counted_ok|]. split; [discriminate|]. eexists. split; vm_compute; reflexivity. Qed.
(** Properties of other names are read as without the calls. *)
Theorem C88_others : forall calls ctx fl nm n rest, untouched calls n ->
  reg_parseJSON (after_calls calls) ctx fl nm (JArr (JText n :: rest)) = prop_parseJSON ctx fl nm (JArr (JText n :: rest)).
Proof. exact RegJsonProofs.reg_json_untouched. Qed.
Print Assumptions C88_others.
Example C88_others_ex : untouched two_calls (lit "x-other") /\
  exists p, prop_parseJSON default_ctx fl0 nm0 (JArr [JText (lit "x-other"); JObj []; JText (lit "unknown"); JText (lit "12")]) = Ok p /\ pValue p = Some (Single (VPlain PUnknown (Some (lit "12")))).
Proof. split; [repeat constructor; vm_compute; discriminate|]. eexists. split; vm_compute; reflexivity. Qed.
(** JSON that cannot be read gives InvalidProperty; RuntimeError stands for what is not modelled (JsonModel). *)
Theorem C88_errors : forall g ctx fl nm j e, reg_parseJSON g ctx fl nm j = Raise e -> e = InvalidProperty \/ e = RuntimeError.
Proof. intros g ctx fl nm j e. unfold reg_parseJSON. destruct (reg_read g ctx fl nm j) as [|x]; [discriminate|]. destruct x; intro H; injection H as <-; auto. Qed.
Print Assumptions C88_errors.
Example C88_errors_ex : reg_parseJSON (after_calls two_calls) default_ctx fl0 nm0 (JArr [JText (lit "x-count"); JObj []; JText (lit "unknown"); JText (lit "many")]) = Raise InvalidProperty.
Proof. vm_compute. reflexivity. Qed.

(** ** What does not hold *)
(** A value of unknown type is read as one of the registered type, although the array says unknown. *)
Theorem C88_unknown_refuted : exists calls p j q, reg_json_ok [] p /\ prop_writeJSON p = Ok j /\ reg_parseJSON (after_calls calls) default_ctx fl0 nm0 j = Ok q /\ ~ same_json p q.
Proof.
  exists two_calls, (mkProp (lit "X-COUNT") [] (Some (Single (VPlain PUnknown (Some (lit "12")))))). eexists. eexists.
  split; [|split; [vm_compute; reflexivity|split; [vm_compute; reflexivity|intros (_ & _ & H & _); discriminate H]]].
  split; [split; constructor|]. eexists. exists None. split; [reflexivity|]. split; [apply PropertySpec.tz_none; reflexivity|].
  split; [|discriminate]. split; [cbn; intuition discriminate|]. do 4 (split; [discriminate|]). intros _ t D. apply RegisterProofs.default_table in D. vm_compute in D. discriminate D.
Qed.
Print Assumptions C88_unknown_refuted.
(** Pairs of floats under a registered name are written as float and cannot be read. *)
Theorem C88_pair_refuted : exists calls p j, default_of calls (upper (pName p)) T_GEO /\ (exists a b, pValue p = Some (Single (VGeo a b))) /\
  prop_writeJSON p = Ok j /\ reg_parseJSON (after_calls calls) default_ctx fl0 nm0 j = Raise InvalidProperty.
Proof.
  exists [mkCall ICalendar (lit "X-PLACE") T_GEO false], (mkProp (lit "X-PLACE") [] (Some (Single (VGeo 1 2)))). eexists. split; [|split; [exists 1, 2; reflexivity|split; [vm_compute; reflexivity|vm_compute; reflexivity]]].
  apply (do_call _ _ [] _ false []); [apply PropRegister.ordinary; vm_compute; reflexivity|reflexivity|constructor].
Qed.
Print Assumptions C88_pair_refuted.
