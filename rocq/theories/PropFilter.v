(** Properties of filtered output: C64. *)
From Verif Require Import PyBase PyProofs ParserCtx LineModel LineSpec DateTimeModel DurationModel PropertyModel PropertySpec
  ComponentModel ComponentSpec JsonModel JsonSpec FilterModel FilterSpec FilterProofs PropComponent PropJson.

(** What the calls on a filter have asked for is what it lets through: all properties, or the last that was said about each name;
    all sub-components, or the types of those added. *)
Theorem C64_calls : forall t calls name type,
  fst (testPropertyValue (filter_of t calls) name) = passes calls name /\
  (passes calls name = true -> snd (testPropertyValue (filter_of t calls) name) = if asks_all calls then Some false else said name calls) /\
  testSubComponent (filter_of t calls) type =
    asks_all_subs calls || existsb (fun a => match a with SubComponent g => beq (fType g) type | _ => false end) calls.
Proof.
  intros t calls name type. destruct (calls_test t calls name) as [A B]. split; [exact A|]. split; [exact B|]. apply calls_subs.
Qed.
Print Assumptions C64_calls.
Example C64_calls_ex :
  let calls := [Property (lit "UID") false; SubComponent (newFilter (lit "VALARM")); Property (lit "SUMMARY") false; Property (lit "SUMMARY") true] in
  map (testPropertyValue (filter_of (lit "VEVENT") calls)) [lit "UID"; lit "SUMMARY"; lit "DTSTART"] = [(true, Some false); (true, Some true); (false, None)] /\
  map (testPropertyValue (filter_of (lit "VEVENT") (AllProperties :: calls))) [lit "SUMMARY"; lit "DTSTART"] = [(true, Some false); (true, Some false)] /\
  map (testSubComponent (filter_of (lit "VEVENT") calls)) [lit "VALARM"; lit "VEVENT"] = [true; false].
Proof. repeat split; vm_compute; reflexivity. Qed.

(** The text written through a filter with no filters for sub-components is the text of the component without the properties, and
    if not asked for without the sub-components, that the filter holds back. *)
Theorem C64_text : forall fl t calls c, filed (cProps c) -> with_values calls c -> asks_all_subs calls = true \/ asks_subs calls = false ->
  generateFiltered fl (filter_of t calls) c = generate fl (kept calls c).
Proof. intros fl t calls c F W S. apply filtered_text; assumption. Qed.
Print Assumptions C64_text.
(** Written through such a filter, a calendar whose VERSION passes is read as that calendar without them. *)
Theorem C64_read : forall tzo ctx fl uuids t calls c, calendar_ok ctx fl c -> with_values calls c -> passes calls (lit "VERSION") = true ->
  asks_all_subs calls = true \/ asks_subs calls = false ->
  exists text c', generateFiltered fl (filter_of t calls) c = Some (Ok text) /\
    parseTextData tzo ctx fl uuids text = Ok (Some c') /\ same_tree (kept calls c) c'.
Proof.
  intros tzo ctx fl uuids t calls c H W V S. rewrite filtered_text; [|eapply ok_filed; apply H|assumption|assumption].
  apply C39_round_trip. apply kept_ok; assumption.
Qed.
Print Assumptions C64_read.

Definition only_version : list filter_call := [Property (lit "VERSION") false; AllSubComponents].
Definition two_props : comp := Comp VCALENDAR (newState []) [entry (lit "PRODID") (VText (lit "x")); entry (lit "VERSION") (VText (lit "2.0"))]
  [unknown (lit "X-ONE") []].
Lemma two_props_ok : calendar_ok default_ctx fl0 two_props.
Proof.
  split; [reflexivity|]. split; [|split; [discriminate|split]].
  - split; [repeat constructor; no_in|]. constructor; [fine; exact I|constructor; [fine; exact I|constructor]].
  - constructor; [|constructor; [|constructor]]; (split; [try reflexivity; discriminate|discriminate]).
  - constructor; [|constructor]. constructor.
    + split; [no_in|repeat split; first [discriminate|no_in]].
    + split; [repeat constructor; no_in|]. constructor; [fine; discriminate|constructor].
    + exact I.
    + constructor.
    + constructor.
Qed.
Example C64_text_ex : filed (cProps two_props) /\ with_values only_version two_props /\
  generateFiltered fl0 (filter_of (lit "VCALENDAR") only_version) two_props = Some (Ok (lines
    [lit "BEGIN:VCALENDAR"; lit "VERSION:2.0"; lit "BEGIN:X-ONE"; lit "X-A:1"; lit "END:X-ONE"; lit "END:VCALENDAR"])) /\
  generateFiltered fl0 (filter_of (lit "VCALENDAR") [AllProperties]) two_props = Some (Ok (lines
    [lit "BEGIN:VCALENDAR"; lit "VERSION:2.0"; lit "PRODID:x"; lit "END:VCALENDAR"])).
Proof.
  split; [eapply ok_filed; apply two_props_ok|]. split.
  - right. intros name H. vm_compute in H. destruct H as [<-|[<-|[]]]; vm_compute; discriminate.
  - split; vm_compute; reflexivity.
Qed.
Example C64_read_ex : calendar_ok default_ctx fl0 two_props /\ with_values only_version two_props /\ passes only_version (lit "VERSION") = true /\
  exists c', parseTextData tz_none default_ctx fl0 uuids0 (lines
    [lit "BEGIN:VCALENDAR"; lit "VERSION:2.0"; lit "BEGIN:X-ONE"; lit "X-A:1"; lit "END:X-ONE"; lit "END:VCALENDAR"]) = Ok (Some c') /\
    map fst (cProps c') = [lit "VERSION"] /\ map cKind (cSubs c') = [UNKNOWN (lit "X-ONE")].
Proof.
  split; [exact two_props_ok|]. split; [apply C64_text_ex|]. split; [reflexivity|]. eexists. split; [vm_compute; reflexivity|]. split; reflexivity.
Qed.

(** A property that is let through without its value is written as its line up to the colon. *)
Theorem C64_no_value : forall fl t calls p l, asks_all calls = false -> said (upper (pName p)) calls = Some true -> prop_line fl p = Ok l ->
  exists h v, l = (h ++ lit ":") ++ v /\ match pValue p with Some x => value_generate fl x = Ok v | None => v = [] end /\
    prop_generateFiltered fl (filter_of t calls) p = fold_line (S (List.length (h ++ lit ":"))) (h ++ lit ":").
Proof.
  intros fl t calls p l A S L. destruct (no_value_line fl p l L) as (h & v & E1 & E2 & E3). exists h, v. split; [exact E1|]. split; [exact E3|].
  unfold prop_generateFiltered. destruct (calls_test t calls (upper (pName p))) as [X Y]. assert (P : passes calls (upper (pName p)) = true).
  { unfold passes. rewrite S. apply Bool.orb_true_r. }
  specialize (Y P). rewrite A, S in Y. destruct (testPropertyValue _ _) as [b w]. cbn [fst snd] in X, Y. subst b w. rewrite P.
  unfold generateValue. rewrite E2. reflexivity.
Qed.
Print Assumptions C64_no_value.
Definition described : prop := mkProp (lit "SUMMARY") [(lit "LANGUAGE", [(lit "LANGUAGE", [lit "en"])])] (Some (Single (VText (lit "secret, too")))).
Example C64_no_value_ex : prop_line fl0 described = Ok (lit "SUMMARY;LANGUAGE=en:secret\, too") /\
  prop_generateFiltered fl0 (filter_of (lit "VEVENT") [Property (lit "SUMMARY") true]) described = Some (Ok (lit "SUMMARY;LANGUAGE=en:" ++ [CR; LF])).
Proof. split; vm_compute; reflexivity. Qed.

(** The JSON written through a filter that does not ask for sub-components is that of the component without them and without
    the properties held back. *)
Theorem C64_json : forall t calls c, filed (cProps c) -> with_values calls c ->
  cSubs c = [] \/ asks_all_subs calls = false /\ asks_subs calls = false ->
  writeJSONFiltered (filter_of t calls) c = writeJSON (kept calls c).
Proof. intros t calls c F W S. apply filtered_json; assumption. Qed.
Print Assumptions C64_json.
Example C64_json_ex : filed (cProps two_props) /\ with_values [Property (lit "VERSION") false] two_props /\
  writeJSONFiltered (filter_of (lit "VCALENDAR") [Property (lit "VERSION") false]) two_props =
  Ok (JArr [JText (lit "vcalendar"); JArr [jprop (lit "version") (lit "text") (JText (lit "2.0"))]; JArr []]).
Proof.
  split; [eapply ok_filed; apply two_props_ok|]. split.
  - right. intros name H. vm_compute in H. destruct H as [<-|[<-|[]]]; vm_compute; discriminate.
  - vm_compute; reflexivity.
Qed.

(** A filter with a filter for a type of sub-components cannot be used: generateFiltered raises AttributeError, whether or not there
    are any; writeJSONFiltered does if there are any. *)
Theorem C64_sub_filters_refuted : forall fl t g calls c, asks_all_subs calls = false -> In (SubComponent g) calls ->
  (exists text, generate fl c = Some (Ok text)) -> asks_all calls = true ->
  generateFiltered fl (filter_of t calls) c = Some (Raise AttributeError) /\
  (cSubs c <> [] -> (exists j, writeJSON c = Ok j) -> writeJSONFiltered (filter_of t calls) c = Raise AttributeError).
Proof.
  intros fl t g calls c N I [text G] A.
  assert (H : hasSubComponentFilters (filter_of t calls) = true).
  { pose proof (calls_subs t calls (fType g)) as E. rewrite N in E. cbn [orb] in E. unfold testSubComponent in E. rewrite calls_all_subs, N in E. cbn [orb] in E.
    unfold hasSubComponentFilters. destruct (fSubs _); [reflexivity|]. symmetry in E.
    assert (X : existsb (fun a => match a with SubComponent g0 => beq (fType g0) (fType g) | _ => false end) calls = true).
    { apply existsb_exists. exists (SubComponent g). split; [exact I|apply PyProofs.beq_refl]. }
    congruence. }
  destruct c as [k s ps subs]. split.
  - cbn [generateFiltered]. unfold writePropertiesFiltered, writeComponentsFiltered. rewrite calls_all, A, calls_all_subs, N, H.
    cbn [generate] in G. cbn [write_all] in *. cbn [crlf] in *.
    match type of G with match ?x with _ => _ end = _ => destruct x as [[]|] eqn:W; try discriminate end. clear G.
    assert (X : forall l R o, write_all (l ++ R) = Some (Ok o) -> write_all (l ++ [Some (Raise AttributeError)] ++ [crlf (endDelimiter k)]) = Some (Raise AttributeError)).
    { clear. induction l as [|x l IH]; intros R o W; [reflexivity|]. cbn [app write_all] in *. destruct x as [[x|]|]; try discriminate.
      destruct (write_all (l ++ R)) as [[]|] eqn:E; try discriminate. rewrite (IH R _ E). reflexivity. }
    rewrite (X _ _ _ W). reflexivity.
  - intros S [j J]. unfold writeJSONFiltered, writePropertiesFilteredJSON, writeComponentsFilteredJSON. cbn [cKind cProps cSubs] in *.
    rewrite calls_all, A, calls_all_subs, N, H. cbn [writeJSON] in J. destruct (map_r prop_writeJSON (written_props k ps)); [|discriminate].
    cbn [rbind]. destruct subs; [congruence|reflexivity].
Qed.
Print Assumptions C64_sub_filters_refuted.
Example C64_sub_filters_refuted_ex :
  generateFiltered fl0 (filter_of (lit "VCALENDAR") [AllProperties; SubComponent (setAllProperties (newFilter (lit "VEVENT")))]) cal1 = Some (Raise AttributeError) /\
  generateFiltered fl0 (filter_of (lit "VCALENDAR") [AllProperties; SubComponent (setAllProperties (newFilter (lit "VEVENT")))]) (calendar []) = Some (Raise AttributeError) /\
  writeJSONFiltered (filter_of (lit "VCALENDAR") [AllProperties; SubComponent (setAllProperties (newFilter (lit "VEVENT")))]) cal1 = Raise AttributeError.
Proof. repeat split; vm_compute; reflexivity. Qed.

(** Asked for all sub-components, writeJSONFiltered writes the component itself among its sub-components, with the properties that the
    filter holds back. *)
Theorem C64_json_all_refuted : exists calls c pl inner, with_values calls c /\ passes calls (lit "PRODID") = false /\ In AllSubComponents calls /\
  writeJSONFiltered (filter_of (lit "VCALENDAR") calls) c = Ok (JArr [JText (lit "vcalendar"); JArr pl; JArr [inner]]) /\
  writeJSON c = Ok inner /\ exists ql sl, inner = JArr [JText (lit "vcalendar"); JArr ql; JArr sl] /\ In (jprop (lit "prodid") (lit "text") (JText (lit "x"))) ql.
Proof.
  exists only_version, two_props. do 2 eexists. split; [apply C64_text_ex|]. split; [reflexivity|]. split; [right; left; reflexivity|].
  split; [vm_compute; reflexivity|]. split; [vm_compute; reflexivity|]. do 2 eexists. split; [reflexivity|]. right; left; reflexivity.
Qed.
Print Assumptions C64_json_all_refuted.
(** A property written as JSON without its value cannot be read; in text one of a type other than text cannot be read. *)
Theorem C64_no_value_refuted : exists calls p j text, prop_json_ok p /\
  prop_writeJSONFiltered (filter_of (lit "VEVENT") calls) p = Ok [j] /\ from_json j = Raise InvalidProperty /\
  prop_generateFiltered fl0 (filter_of (lit "VEVENT") calls) p = Some (Ok (text ++ [CR; LF])) /\ from_line text = Raise InvalidProperty.
Proof.
  exists [Property (lit "DTSTART") true], rome. eexists. exists (lit "dtstart;tzid=Europe/Rome;x-a=one:"). split; [apply C63_property_ex|].
  split; [vm_compute; reflexivity|]. split; [vm_compute; reflexivity|]. split; vm_compute; reflexivity.
Qed.
Print Assumptions C64_no_value_refuted.
(** Names added to a filter are not taken to upper case, those of properties are: a name in lower case lets nothing through. *)
Theorem C64_lower_case_refuted : forall fl t name v p, name <> upper name -> upper (pName p) = upper name ->
  prop_generateFiltered fl (filter_of t [Property name v]) p = Some (Ok []).
Proof.
  intros fl t name v p N E. unfold prop_generateFiltered. destruct (calls_test t [Property name v] (upper (pName p))) as [A _].
  destruct (testPropertyValue _ _) as [b w]. cbn [fst] in A. subst b. unfold passes, said. cbn [asks_all existsb orb fold_left]. rewrite E.
  destruct (LineProofs.beq_case name (upper name)) as [[X _]|[_ ->]]; [contradiction|reflexivity].
Qed.
Print Assumptions C64_lower_case_refuted.
Example C64_lower_case_refuted_ex : lit "summary" <> upper (lit "summary") /\
  prop_generateFiltered fl0 (filter_of (lit "VEVENT") [Property (lit "summary") false]) described = Some (Ok []).
Proof. split; [vm_compute; discriminate|vm_compute; reflexivity]. Qed.
