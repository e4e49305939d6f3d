(** C87: properties with registered names. *)
From Verif Require Import PyBase ParserCtx LineModel DateTimeModel PropertyModel PropertySpec RegisterModel RegisterSpec.
From Verif Require PyProofs LineProofs RegisterProofs RegisterProofs2 PropComponent.
Notation fl0 := PropComponent.fl0.

(** The calls of the examples. *)
Definition count_call : registration := mkCall ICalendar (lit "X-COUNT") T_INTEGER false.
Definition day_call : registration := mkCall ICalendar (lit "X-DAY") T_DATE true.
Definition two_calls : list registration := [count_call; day_call].
Lemma ordinary N : existsb (fun e => beq (fst e) N) default_types = false -> forall t, ~ In N (names_with t).
Proof.
  intros H t I. apply PropertyProofs.default_spec, PropertyProofs.assoc_some in I. assert (T : existsb (fun e => beq (fst e) N) default_types = true); [|congruence].
  apply existsb_exists. exists (N, t). split; [exact I|]. apply PyProofs.beq_refl.
Qed.
Lemma count_default : default_of two_calls (lit "X-COUNT") T_INTEGER.
Proof. apply (do_call _ _ [] _ false [day_call]); [apply ordinary; vm_compute; reflexivity|reflexivity|constructor]. Qed.
Lemma day_default : default_of two_calls (lit "X-DAY") T_DATE.
Proof. apply (do_call _ _ [count_call] _ true []); [apply ordinary; vm_compute; reflexivity|reflexivity|]. constructor; [|constructor]. intros [_ H]. discriminate H. Qed.

(** Reading: the values have the type that VALUE names, else the one of the standard for the name, else that of the first call for it. *)
Theorem C87_types : forall calls ctx fl text p, reg_parse (after_calls calls) ctx fl text = Ok p ->
  exists t, reg_typed calls (pName p) (pParams p) t /\
  let s := structured (pName p) t in
  if existsb (beq (upper (pName p))) list_names
  then exists l, pValue p = Some (Multi s l) /\ Forall (made_by s) l
  else exists i, pValue p = Some (Single i) /\ made_by s i.
Proof. exact RegisterProofs2.reg_prop_typed. Qed.
Print Assumptions C87_types.
Example C87_types_ex : exists p, reg_parse (after_calls two_calls) default_ctx fl0 (lit "x-Count;X-A=1:12") = Ok p /\
  reg_typed two_calls (pName p) (pParams p) T_INTEGER /\ pValue p = Some (Single (VInteger 12)).
Proof.
  eexists. split; [vm_compute; reflexivity|]. split; [|reflexivity]. apply rt_default; [intros n v l r t H; vm_compute in H; discriminate H|exact count_default].
Qed.
(** What is written is read as the same property, and written again as the same text. *)
Theorem C87_round_trip : forall calls ctx fl p, reg_ok calls ctx fl p ->
  exists text q, reg_line (after_calls calls) fl p = Ok text /\ reg_parse (after_calls calls) ctx fl text = Ok q /\ same_prop p q /\ reg_line (after_calls calls) fl q = Ok text.
Proof. exact RegisterProofs2.reg_round. Qed.
Print Assumptions C87_round_trip.
Definition counted : prop := mkProp (lit "X-COUNT") [] (Some (Single (VInteger 12))).
Definition dated : prop := mkProp (lit "X-Day") [] (Some (Single (VDateTime (newDate 2020 1 31 false TzNone)))).
Lemma counted_ok : reg_ok two_calls default_ctx fl0 counted.
Proof.
  split; [split; [discriminate|cbn; intuition discriminate]|]. split; [split; constructor|]. eexists. exists None. split; [reflexivity|]. split; [apply PropertySpec.tz_none; reflexivity|].
  split; [|exact I]. split; [cbn; intuition discriminate|]. split; [discriminate|]. split; [discriminate|]. intros _. left. split; [exact count_default|].
  intros (c & [<-|[<-|[]]] & N & W); discriminate.
Qed.
Example C87_round_trip_ex : reg_ok two_calls default_ctx fl0 counted /\ reg_line (after_calls two_calls) fl0 counted = Ok (lit "X-COUNT:12").
Proof. split; [exact counted_ok|]. vm_compute. reflexivity. Qed.
(** VALUE is written for values of another type than the default, and for all if a call said so; it is not written for values of the default type otherwise. *)
Theorem C87_written : forall calls ctx fl p v, reg_ok calls ctx fl p -> pValue p = Some v -> ~ special (pName p) ->
  exists text q, reg_line (after_calls calls) fl p = Ok text /\ reg_parse (after_calls calls) ctx fl text = Ok q /\
    (says_type calls (pName p) v -> exists n, value_param n (value_type v) /\ lookup (lit "VALUE") (pParams q) = [(lit "VALUE", [n])]) /\
    (default_of calls (upper (pName p)) (value_type v) -> ~ always calls (upper (pName p)) -> lookup (lit "VALUE") (pParams q) = []).
Proof. exact RegisterProofs2.reg_written. Qed.
Print Assumptions C87_written.
Lemma dated_told : nameable T_DATE /\ always two_calls (lit "X-DAY") /\ ~ special (lit "X-Day").
Proof. split; [exists (lit "DATE"); constructor|]. split; [exists day_call; cbn; auto|]. intros [H|H]; vm_compute in H; discriminate H. Qed.
Lemma dated_ok : reg_ok two_calls default_ctx fl0 dated.
Proof.
  split; [split; [discriminate|cbn; intuition discriminate]|]. split; [split; constructor|]. eexists. exists None. split; [reflexivity|]. split; [apply PropertySpec.tz_none; reflexivity|].
  split.
  - split; [cbn; intuition discriminate|]. split; [discriminate|]. split; [discriminate|]. intros _. right. left. split; [apply dated_told|]. left. exists T_DATE. exact day_default.
  - cbn [prop_value_ok item_ok]. split; [repeat split; vm_compute; congruence|]. left. reflexivity.
Qed.
Example C87_written_ex : reg_ok two_calls default_ctx fl0 dated /\ ~ special (pName dated) /\
  says_type two_calls (pName dated) (Single (VDateTime (newDate 2020 1 31 false TzNone))) /\
  reg_line (after_calls two_calls) fl0 dated = Ok (lit "X-Day;VALUE=DATE:20200131").
Proof.
  split; [exact dated_ok|]. split; [apply dated_told|]. split; [|vm_compute; reflexivity]. split; [apply dated_told|]. left. exists T_DATE. split; [exact day_default|right; apply dated_told].
Qed.
(** If VALUE is always written, a program that made any other calls reads the same property. *)
Theorem C87_portable : forall calls others ctx fl p v z, name_ok (pName p) -> params_ok (pParams p) -> pValue p = Some v -> tzid_of (pParams p) z ->
  fits_list (pName p) v -> prop_value_ok ctx fl z v -> ~ special (pName p) -> nameable (value_type v) ->
  always calls (upper (pName p)) -> (exists t, default_of calls (upper (pName p)) t) ->
  exists text q, reg_line (after_calls calls) fl p = Ok text /\ reg_parse (after_calls others) ctx fl text = Ok q /\ same_prop p q.
Proof. exact RegisterProofs2.reg_portable. Qed.
Print Assumptions C87_portable.
Example C87_portable_ex : reg_ok two_calls default_ctx fl0 dated /\ nameable T_DATE /\ always two_calls (upper (pName dated)) /\ ~ special (pName dated) /\ default_of two_calls (upper (pName dated)) T_DATE /\
  exists q, reg_parse (after_calls [mkCall ICalendar (lit "X-DAY") T_INTEGER false]) default_ctx fl0 (lit "X-Day;VALUE=DATE:20200131") = Ok q /\ pValue q = pValue dated.
Proof.
  split; [exact dated_ok|]. split; [apply dated_told|]. split; [apply dated_told|]. split; [apply dated_told|]. split; [exact day_default|]. eexists. split; vm_compute; reflexivity.
Qed.
(** Properties of other names are read and written as without the calls. *)
Theorem C87_others : forall calls ctx fl,
  (forall p, untouched calls (pName p) -> reg_line (after_calls calls) fl p = prop_line fl p) /\
  (forall text p, untouched calls (pName p) -> (reg_parse (after_calls calls) ctx fl text = Ok p <-> prop_parse ctx fl text = Ok p)).
Proof.
  intros calls ctx fl. split; [intros p H; apply RegisterProofs.reg_line_untouched; exact H|].
  intros text p H. unfold reg_parse, prop_parse. destruct (ical_parseLine (List.length text) text) as [[l|e]|]; [|tauto|tauto].
  split; intro E.
  - destruct (reg_value _ _ _ _ _ _) as [v|] eqn:V; [|discriminate E]. injection E as <-. cbn [pName] in H. rewrite (RegisterProofs.reg_value_untouched _ _ _ _ _ _ H) in V. rewrite V. reflexivity.
  - destruct (line_value _ _ _ _ _) as [v|] eqn:V; [|discriminate E]. injection E as <-. cbn [pName] in H. rewrite (RegisterProofs.reg_value_untouched _ _ _ _ _ _ H), V. reflexivity.
Qed.
Print Assumptions C87_others.
Example C87_others_ex : untouched two_calls (lit "X-Other") /\ exists p, prop_parse default_ctx fl0 (lit "X-Other:12") = Ok p /\ pValue p = Some (Single (VPlain PUnknown (Some (lit "12")))).
Proof. split; [repeat constructor; vm_compute; discriminate|]. eexists. split; vm_compute; reflexivity. Qed.
(** Another call for a name that has a default changes nothing, unless it is to have VALUE written. *)
Theorem C87_again : forall calls c ctx fl, cAlways c = false -> (exists t, default_of calls (cName c) t) ->
  (forall text, reg_parse (after_calls (calls ++ [c])) ctx fl text = reg_parse (after_calls calls) ctx fl text) /\
  (forall p, reg_line (after_calls (calls ++ [c])) fl p = reg_line (after_calls calls) fl p).
Proof. intros calls c ctx fl A D. rewrite (RegisterProofs2.second_call calls c A (or_intror D)). split; reflexivity. Qed.
Print Assumptions C87_again.
Example C87_again_ex : let c := mkCall ICalendar (lit "DTSTART") T_TEXT false in cAlways c = false /\ default_of two_calls (cName c) T_DATETIME /\
  reg_parse (after_calls (two_calls ++ [c])) default_ctx fl0 (lit "DTSTART:soon") = Raise InvalidProperty.
Proof. split; [reflexivity|]. split; [apply do_standard, PropertyProofs.default_spec; vm_compute; reflexivity|]. vm_compute. reflexivity. Qed.

(** A line that cannot be read gives InvalidProperty, whatever the calls were. *)
Theorem C87_errors : forall g ctx fl text e, reg_parse g ctx fl text = Raise e -> e = InvalidProperty.
Proof.
  intros g ctx fl text e. unfold reg_parse. destruct (LineProofs.ical_parse_total text (List.length text) (le_n _)) as [[l|x] ->]; [|intro H; injection H as <-; reflexivity].
  destruct (reg_value _ _ _ _ _ _); [discriminate|]. intro H. injection H as <-. reflexivity.
Qed.
Print Assumptions C87_errors.
Example C87_errors_ex : reg_parse (after_calls two_calls) default_ctx fl0 (lit "X-COUNT:many") = Raise InvalidProperty.
Proof. vm_compute. reflexivity. Qed.

(** ** What does not hold *)
(** A name registered in lower case is not found, although names of properties have no letter case. *)
Theorem C87_case_refuted : exists n t text p, reg_parse (after_calls [mkCall ICalendar n t false]) default_ctx fl0 text = Ok p /\ pName p = n /\ t = T_INTEGER /\
  pValue p = Some (Single (VPlain PUnknown (Some (lit "12")))).
Proof. exists (lit "x-count"), T_INTEGER, (lit "x-count:12"). eexists. split; [vm_compute; reflexivity|]. repeat split. Qed.
Print Assumptions C87_case_refuted.
(** Without VALUE the text means something else to a program that did not make the call. *)
Theorem C87_reader_refuted : exists calls p text q, reg_ok calls default_ctx fl0 p /\ reg_line (after_calls calls) fl0 p = Ok text /\ reg_parse (after_calls []) default_ctx fl0 text = Ok q /\ ~ same_prop p q.
Proof.
  exists two_calls, counted, (lit "X-COUNT:12"). eexists. split; [exact counted_ok|]. split; [vm_compute; reflexivity|]. split; [vm_compute; reflexivity|]. intros (_ & _ & H). discriminate H.
Qed.
Print Assumptions C87_reader_refuted.
(** VALUE=FLOAT is written for pairs of floats; that cannot be read. *)
Theorem C87_pair_refuted : exists calls p text, default_of calls (upper (pName p)) T_GEO /\ always calls (upper (pName p)) /\
  reg_parse (after_calls calls) default_ctx fl0 (lit "X-PLACE:1;2") = Ok p /\ reg_line (after_calls calls) fl0 p = Ok text /\ reg_parse (after_calls calls) default_ctx fl0 text = Raise InvalidProperty.
Proof.
  exists [mkCall ICalendar (lit "X-PLACE") T_GEO true]. eexists. eexists. split; [|split; [|split; [vm_compute; reflexivity|split; [vm_compute; reflexivity|vm_compute; reflexivity]]]].
  - apply (do_call _ _ [] _ true []); [apply ordinary; vm_compute; reflexivity|reflexivity|constructor].
  - eexists. split; [left; reflexivity|]. split; reflexivity.
Qed.
Print Assumptions C87_pair_refuted.
(** A call on the vCard class makes VALUE appear in calendars. *)
Theorem C87_classes_refuted : exists c p, cKlass c = VCard /\ prop_line fl0 p = Ok (lit "SUMMARY:x") /\ reg_line (after_calls [c]) fl0 p = Ok (lit "SUMMARY;VALUE=TEXT:x").
Proof. exists (mkCall VCard (lit "SUMMARY") T_TEXT true), (mkProp (lit "SUMMARY") [] (Some (Single (VText (lit "x"))))). split; [reflexivity|]. split; vm_compute; reflexivity. Qed.
Print Assumptions C87_classes_refuted.
