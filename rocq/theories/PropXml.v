(** Properties of the XML (xCal) form: C72. *)
From Coq Require Import Lia.
From Verif Require Import PyBase PyProofs ParserCtx TextModel LineModel LineSpec DateTimeModel DateTimeSpec2 DurationModel PeriodModel RecurModel RecurSpec
  PropertyModel PropertySpec ComponentModel ComponentSpec JsonModel JsonSpec FilterModel XmlModel XmlSpec XmlProofs XmlProofs2 XmlProofs3 PropComponent PropJson.

(** The XML text of a calendar (or of any component) is well formed, and its jCal form is the JSON that is written. *)
Theorem C72_text : forall fl c, tree_xml_ok fl c ->
  exists s j, getTextXML fl c = Ok s /\ jcal fl s = Some j /\ writeJSON c = Ok j.
Proof. exact calendar_forms. Qed.
Print Assumptions C72_text.
(** So nothing is lost: the jCal form of the XML text of a calendar is read as the same calendar. *)
Theorem C72_calendar : forall tzo ctx fl nm uuids c, calendar_json_ok c -> tree_xml_ok fl c ->
  exists s j c', getTextXML fl c = Ok s /\ jcal fl s = Some j /\ parseJSONData ctx fl nm tzo uuids j = Ok c' /\ same_json_tree c c'.
Proof.
  intros tzo ctx fl nm uuids c H T. destruct (calendar_forms fl c T) as (s & j & A & B & C). destruct (JsonProofs3.calendar_json_round tzo ctx fl nm uuids c H) as (j' & J & R).
  rewrite C in J. injection J as <-. destruct (R j (reordered_refl j)) as (c' & P & S). exists s, j, c'. repeat (split; [assumption|]). assumption.
Qed.
Print Assumptions C72_calendar.
(** A component without sub-components, written through a filter: what is left out of the XML is what is left out of the JSON. *)
Theorem C72_filtered : forall fl f c, tree_xml_ok fl c -> cSubs c = [] ->
  exists x j s, writeXMLFiltered fl f c = Ok x /\ writeJSONFiltered f c = Ok j /\ toString (element (lit "icalendar") XNone [x]) = Ok s /\ jcal fl s = Some j.
Proof. exact filtered_forms. Qed.
Print Assumptions C72_filtered.
(** Elements with a name of XML, without text of their own if they have children, and without tails. *)
Inductive well_formed : xml -> Prop :=
| wf_leaf : forall tag s, xname tag = true -> xml_text_ok s -> well_formed (Elem tag (XStr s) [] [])
| wf_branch : forall tag kids, xname tag = true -> Forall well_formed kids -> well_formed (Elem tag XNone kids []).
Inductive same_element : xml -> node -> Prop :=
| same_leaf : forall tag t tl tl', blank tl' = true -> same_element (Elem tag t [] tl) (Node tag (match t with XStr s => s | _ => [] end) [] tl')
| same_branch : forall tag t kids tl t' l tl', kids <> [] -> blank t' = true -> blank tl' = true -> Forall2 same_element kids l ->
    same_element (Elem tag t kids tl) (Node tag t' l tl').
(** The text of any such element is read as the same elements with the same texts, but for blanks between them. *)
Theorem C72_document : forall x, well_formed x -> exists s y, toString x = Ok s /\ read_document s = Some y /\ same_element x y.
Proof.
  intros x W. assert (R : raw x).
  { induction x as [tag t kids tl IH] using xml_ind2. inversion W as [tag' s N T|tag' kids' N K]; subst; [eapply raw_leaf; [exact N|reflexivity|exact T]|].
    apply raw_branch; [exact N|]. rewrite Forall_forall in *. intros k I. exact (IH k I (K k I)). }
  destruct (document x R) as (s & y & A & B & S). exists s, y. split; [exact A|]. split; [exact B|]. clear - S.
  revert y S. induction x as [tag t kids tl IH] using xml_ind2. intros y S. inversion S as [a b c d Bl|a b c d e f g NE B1 B2 F]; subst; [apply same_leaf; exact Bl|].
  apply same_branch; try assumption. clear - F IH. induction F as [|k m kids l H _ IHF]; [constructor|]. inversion IH; subst. constructor; auto.
Qed.
Print Assumptions C72_document.

(** ** Examples *)
Lemma text_check s : forallb (fun c => legal c && negb (Ascii.eqb c CR)) s = true -> xml_text_ok s.
Proof. apply plain_spec. Qed.
Ltac xtext_ok := apply text_check; vm_compute; reflexivity.
(** A calendar: an event in Rome with a summary, and components of unknown types. *)
Definition rome_start : prop := mkProp (lit "DTSTART") [(lit "TZID", [(lit "TZID", [lit "Europe/Rome"])])]
  (Some (Single (VDateTime (newDateTime 2020 1 31 9 30 0 false (TzName (lit "Europe/Rome")))))).
Definition monthly : rule := match rule_parse default_ctx (lit "FREQ=MONTHLY;COUNT=3;BYDAY=-1SU") with Ok r => r | Raise _ => rule_init end.
Definition party : comp := Comp VEVENT (newState (lit "1"))
  [(lit "DTSTART", [rome_start]); entry (lit "RRULE") (VRecur monthly); entry (lit "SUMMARY") (VText (lit "one < two & three"));
   entry (lit "UID") (VText (lit "a"))] [].
Definition cal2 : comp := calendar [unknown (lit "X-OUTER") [unknown (lit "X-INNER") []]; party].
Definition xlines (l : list bytes) : bytes := List.concat (map (fun s => s ++ [LF]) l).
Lemma monthly_ok : rule_ok monthly.
Proof.
  assert (E : monthly = mkRule MONTHLY true 3 false None 1 None None None (Some [(-1, 0)]) None None None None None 1) by (vm_compute; reflexivity).
  rewrite E. unfold rule_ok, in_ranges, limits_ok, printable; cbn. repeat split; try lia; try discriminate; try (repeat constructor; cbn; lia). intro K. destruct (K eq_refl).
Qed.
Lemma rome_start_ok : prop_json_ok rome_start.
Proof.
  split.
  - split; [repeat constructor; no_in|]. constructor; [|constructor];
    (split; [repeat constructor|intros _; eexists; eexists; split; [reflexivity|]; ascii_name]).
  - eexists. exists (Some (lit "Europe/Rome")). split; [reflexivity|]. split; [eapply PropertySpec.tz_some; reflexivity|].
    split; [json_known|]. split; [vm_compute; intuition discriminate|]. right. split; reflexivity.
Qed.
Lemma cal2_json_ok : calendar_json_ok cal2.
Proof.
  split; [reflexivity|]. split; [jprops; constructor; [jfine; exact I|constructor]|].
  constructor; [|constructor; [|constructor]].
  - constructor; [upper_type|jprops; constructor; [jfine; discriminate|constructor]|exact I|repeat constructor|].
    constructor; [|constructor]. constructor; [upper_type|jprops; constructor; [jfine; discriminate|constructor]|exact I|constructor|constructor].
  - constructor; [exact I| |exact I|constructor|constructor].
    jprops. constructor; [constructor; [split; [reflexivity|exact rome_start_ok]|constructor]|].
    constructor; [jfine; exact monthly_ok|]. constructor; [jfine; exact I|constructor; [jfine; exact I|constructor]].
Qed.
Lemma props_xml fl ps : props_json_ok ps -> Forall (fun kl => Forall (fun p => name_ok (pName p) /\
    Forall (fun kl => Forall (fun q => name_ok (fst q) /\ Forall xml_text_ok (snd q)) (snd kl)) (pParams p) /\
    match pValue p with Some v => value_xml_ok fl v | None => True end) (snd kl)) ps -> props_xml_ok fl ps.
Proof.
  intros [N J] X. split; [exact N|]. rewrite Forall_forall in *. intros kl I. specialize (J kl I). specialize (X kl I).
  rewrite Forall_forall in *. intros p Ip. destruct (J p Ip) as [_ Jp]. destruct (X p Ip) as (A & B & C). repeat split; try assumption; apply Jp.
Qed.
Ltac one_plain := constructor; [split; [vm_compute; reflexivity|split; [constructor|first [xtext_ok|exact I|exact monthly_ok|idtac]]]|constructor].
Lemma cal2_xml_ok : tree_xml_ok fl0 cal2.
Proof.
  destruct cal2_json_ok as (_ & P & T). inversion T as [|u r1 TU T1 E1]; subst. inversion T1 as [|p r2 TP T2 E2]; subst.
  inversion TU as [k s ps subs KU PU CU NU SU E]; subst. inversion TP as [k s ps subs KP PP CP NP SP E]; subst. inversion SU as [|i r3 TI T3 E3]; subst.
  inversion TI as [k s ps subs KI PI CI NI SI E]; subst.
  assert (X : forall ps, ps = [entry (lit "X-A") (VPlain PUnknown (Some (lit "1")))] -> props_json_ok ps -> props_xml_ok fl0 ps).
  { intros ps -> J. apply props_xml; [exact J|]. constructor; [one_plain|constructor]. }
  constructor; [vm_compute; reflexivity|apply props_xml; [exact P|constructor; [one_plain|constructor]]|].
  constructor; [|constructor; [|constructor]].
  - constructor; [vm_compute; reflexivity|apply X; [reflexivity|exact PU]|]. constructor; [|constructor].
    constructor; [vm_compute; reflexivity|apply X; [reflexivity|exact PI]|constructor].
  - constructor; [vm_compute; reflexivity|apply props_xml; [exact PP|]|constructor].
    constructor; [|constructor; [one_plain|constructor; [one_plain|constructor; [one_plain|constructor]]]].
    constructor; [|constructor]. split; [vm_compute; reflexivity|]. split; [|exact I].
    constructor; [|constructor]. constructor; [|constructor]. split; [vm_compute; reflexivity|]. constructor; [xtext_ok|constructor].
Qed.
Definition cal2_text : bytes := xlines
  [lit "<?xml version=""1.0"" encoding=""utf-8""?>";
   lit "<ns0:icalendar xmlns:ns0=""urn:ietf:params:xml:ns:icalendar-2.0"">";
   lit "  <ns0:vcalendar>";
   lit "    <ns0:properties>";
   lit "      <ns0:version>";
   lit "        <ns0:text>2.0</ns0:text>";
   lit "      </ns0:version>";
   lit "    </ns0:properties>";
   lit "    <ns0:components>";
   lit "      <ns0:vevent>";
   lit "        <ns0:properties>";
   lit "          <ns0:uid>";
   lit "            <ns0:text>a</ns0:text>";
   lit "          </ns0:uid>";
   lit "          <ns0:dtstart>";
   lit "            <ns0:parameters>";
   lit "              <ns0:tzid>";
   lit "                <ns0:text>Europe/Rome</ns0:text>";
   lit "              </ns0:tzid>";
   lit "            </ns0:parameters>";
   lit "            <ns0:date-time>2020-01-31T09:30:00</ns0:date-time>";
   lit "          </ns0:dtstart>";
   lit "          <ns0:rrule>";
   lit "            <ns0:recur>";
   lit "              <ns0:freq>MONTHLY</ns0:freq>";
   lit "              <ns0:count>3</ns0:count>";
   lit "              <ns0:byday>-1SU</ns0:byday>";
   lit "            </ns0:recur>";
   lit "          </ns0:rrule>";
   lit "          <ns0:summary>";
   lit "            <ns0:text>one &lt; two &amp; three</ns0:text>";
   lit "          </ns0:summary>";
   lit "        </ns0:properties>";
   lit "      </ns0:vevent>";
   lit "      <ns0:x-outer>";
   lit "        <ns0:properties>";
   lit "          <ns0:x-a>";
   lit "            <ns0:unknown>1</ns0:unknown>";
   lit "          </ns0:x-a>";
   lit "        </ns0:properties>";
   lit "        <ns0:components>";
   lit "          <ns0:x-inner>";
   lit "            <ns0:properties>";
   lit "              <ns0:x-a>";
   lit "                <ns0:unknown>1</ns0:unknown>";
   lit "              </ns0:x-a>";
   lit "            </ns0:properties>";
   lit "          </ns0:x-inner>";
   lit "        </ns0:components>";
   lit "      </ns0:x-outer>";
   lit "    </ns0:components>";
   lit "  </ns0:vcalendar>";
   lit "</ns0:icalendar>"].

Example C72_text_ex : tree_xml_ok fl0 cal2 /\ getTextXML fl0 cal2 = Ok cal2_text.
Proof. split; [exact cal2_xml_ok|vm_compute; reflexivity]. Qed.
Example C72_calendar_ex : calendar_json_ok cal2 /\ tree_xml_ok fl0 cal2 /\ exists j, jcal fl0 cal2_text = Some j /\ writeJSON cal2 = Ok j.
Proof. split; [exact cal2_json_ok|]. split; [exact cal2_xml_ok|]. eexists. split; vm_compute; reflexivity. Qed.
(** An event without its summary and with the start but not its value. *)
Definition xfilter : ofilter := filterProperty (lit "DTSTART") true (filterProperty (lit "UID") false (newFilter (lit "VEVENT"))).
Example C72_filtered_ex : tree_xml_ok fl0 party /\ cSubs party = [] /\
  exists s, (do x <- writeXMLFiltered fl0 xfilter party; toString (element (lit "icalendar") XNone [x])) = Ok s /\
    jcal fl0 s = Some (JArr [JText (lit "vevent"); JArr [JArr [JText (lit "uid"); JObj []; JText (lit "text"); JText (lit "a")];
                                                        JArr [JText (lit "dtstart"); JObj [(lit "tzid", JText (lit "Europe/Rome"))]]]; JArr []]).
Proof.
  split; [|split; [reflexivity|eexists; split; vm_compute; reflexivity]].
  pose proof cal2_xml_ok as H. inversion H as [k s ps subs N P T E]; subst. inversion T as [|u r TU TR]; subst. inversion TR; subst. assumption.
Qed.
Example C72_document_ex : well_formed (element (lit "a") XNone [element (lit "b") (XStr (lit "x < y ]]> z & """)) []; element (lit "c") XNone []]) /\
  toString (element (lit "a") XNone [element (lit "b") (XStr (lit "x < y ]]> z & """)) []; element (lit "c") XNone []]) =
  Ok (xlines [lit "<?xml version=""1.0"" encoding=""utf-8""?>"; lit "<ns0:a xmlns:ns0=""urn:ietf:params:xml:ns:icalendar-2.0"">";
              lit "  <ns0:b>x &lt; y ]]&gt; z &amp; ""</ns0:b>"; lit "  <ns0:c />"; lit "</ns0:a>"]).
Proof.
  split; [|vm_compute; reflexivity]. apply wf_branch; [reflexivity|]. constructor; [apply wf_leaf; [reflexivity|xtext_ok]|].
  constructor; [apply wf_branch; [reflexivity|constructor]|constructor].
Qed.

(** What cannot be written: a calendar with one more property of an event. *)
Definition with_line (s : bytes) : bytes :=
  lines [lit "BEGIN:VCALENDAR"; lit "VERSION:2.0"; lit "BEGIN:VEVENT"; lit "UID:a"; lit "DTSTAMP:20200101T000000Z"; s; lit "END:VEVENT"; lit "END:VCALENDAR"].
Definition read_text (s : bytes) : res (option comp) := parseTextData tz_none default_ctx fl0 uuids0 s.
Definition xml_of (s : bytes) : res (option bytes) := do c <- read_text s; match c with Some c => do x <- getTextXML fl0 c; Ok (Some x) | None => Ok None end.
(** Not every calendar that is read can be written: one with a duration (or with a period) cannot, ... *)
Theorem C72_duration_refuted : exists s c j, read_text s = Ok (Some c) /\ writeJSON c = Ok j /\ getTextXML fl0 c = Raise TypeError.
Proof. exists (with_line (lit "DURATION:PT1H")). eexists. eexists. split; [vm_compute; reflexivity|]. split; vm_compute; reflexivity. Qed.
Print Assumptions C72_duration_refuted.
Example C72_duration_refuted_ex :
  xml_of (with_line (lit "DURATION:PT1H")) = Raise TypeError /\ xml_of (with_line (lit "FREEBUSY:20200101T000000Z/PT1H")) = Raise TypeError /\
  exists x, xml_of (with_line (lit "DTEND:20200101T010000Z")) = Ok (Some x).
Proof. split; [vm_compute; reflexivity|]. split; [vm_compute; reflexivity|]. eexists. vm_compute. reflexivity. Qed.
(** ... nor one with a request status, ... *)
Theorem C72_status_refuted : exists s c j, read_text s = Ok (Some c) /\ writeJSON c = Ok j /\ getTextXML fl0 c = Raise AttributeError.
Proof. exists (with_line (lit "REQUEST-STATUS:2.0;Success")). eexists. eexists. split; [vm_compute; reflexivity|]. split; vm_compute; reflexivity. Qed.
Print Assumptions C72_status_refuted.
Example C72_status_refuted_ex : xml_of (with_line (lit "REQUEST-STATUS:2.0;Success")) = Raise AttributeError.
Proof. vm_compute. reflexivity. Qed.
(** ... nor one with a position: the elements can be made, but not their text, ... *)
Inductive inside : xml -> xml -> Prop :=
| in_self : forall x, inside x x
| in_kid : forall x y n t l r, inside x y -> In y l -> inside x (Elem n t l r).
Ltac member := (left; reflexivity) + (right; member).
Ltac inside_tac := first [apply in_self|eapply in_kid; cycle 1; [member|inside_tac]].
Theorem C72_geo_refuted : exists s c j x a b, read_text s = Ok (Some c) /\ writeJSON c = Ok j /\ writeXML fl0 c = Ok x /\
  inside (Elem (lit "geo") XNone [Elem (lit "latitude") (XFloat a) [] []; Elem (lit "longitude") (XFloat b) [] []] []) x /\
  fl_read fl0 (lit "1") = Some a /\ fl_read fl0 (lit "2") = Some b /\ a <> b /\ getTextXML fl0 c = Raise AttributeError.
Proof.
  exists (with_line (lit "GEO:1;2")). do 5 eexists. split; [vm_compute; reflexivity|]. split; [vm_compute; reflexivity|]. split; [vm_compute; reflexivity|].
  split; [|split; [vm_compute; reflexivity|split; [vm_compute; reflexivity|split; [discriminate|vm_compute; reflexivity]]]].
  inside_tac.
Qed.
Print Assumptions C72_geo_refuted.
Example C72_geo_refuted_ex : xml_of (with_line (lit "GEO:1;2")) = Raise AttributeError.
Proof. vm_compute. reflexivity. Qed.
(** ... nor one with a text outside ASCII. *)
Definition e_grave : bytes := ["195"; "168"]%char.
Theorem C72_not_ascii_refuted : exists s c j x, read_text s = Ok (Some c) /\ writeJSON c = Ok j /\ writeXML fl0 c = Ok x /\ getTextXML fl0 c = Raise ValueError.
Proof.
  exists (with_line (lit "SUMMARY:Caff" ++ e_grave)). eexists. eexists. eexists. split; [vm_compute; reflexivity|]. split; [vm_compute; reflexivity|].
  split; vm_compute; reflexivity.
Qed.
Print Assumptions C72_not_ascii_refuted.
Example C72_not_ascii_refuted_ex :
  xml_of (with_line (lit "SUMMARY:Caff" ++ e_grave)) = Raise ValueError /\ xml_of (with_line (lit "ATTENDEE;CN=Mich" ++ e_grave ++ lit "le:mailto:m@x.y")) = Raise ValueError.
Proof. split; vm_compute; reflexivity. Qed.
(** And not everything that is written is well formed: a text with a control character, or a property name with a digit at the start. *)
Theorem C72_well_formed_refuted : exists s c x, read_text s = Ok (Some c) /\ getTextXML fl0 c = Ok x /\ read_document x = None.
Proof. exists (with_line (lit "SUMMARY:a" ++ ["012"%char])). eexists. eexists. split; [vm_compute; reflexivity|]. split; vm_compute; reflexivity. Qed.
Print Assumptions C72_well_formed_refuted.
Example C72_well_formed_refuted_ex :
  (do x <- xml_of (with_line (lit "SUMMARY:a" ++ ["012"%char])); Ok (option_map read_document x)) = Ok (Some None) /\
  (do x <- xml_of (with_line (lit "9:a")); Ok (option_map read_document x)) = Ok (Some None).
Proof. split; vm_compute; reflexivity. Qed.
(** Nor does what is well formed always say the same: seconds of an offset follow a colon, ... *)
Theorem C72_offset_refuted : exists s c j x k, read_text s = Ok (Some c) /\ writeJSON c = Ok j /\ getTextXML fl0 c = Ok x /\ jcal fl0 x = Some k /\ k <> j.
Proof.
  exists (with_line (lit "TZOFFSETTO:+010030")). eexists. eexists. eexists. eexists. split; [vm_compute; reflexivity|]. split; [vm_compute; reflexivity|].
  split; [vm_compute; reflexivity|]. split; [vm_compute; reflexivity|]. intro E. discriminate E.
Qed.
Print Assumptions C72_offset_refuted.
Definition xml_prop (s : bytes) : res bytes := do p <- from_line s; do x <- prop_writeXML fl0 p; toString x.
Definition one_leaf (name type text : bytes) : bytes :=
  lit "<?xml version=""1.0"" encoding=""utf-8""?>" ++ [LF] ++ lit "<ns0:" ++ name ++ lit " xmlns:ns0=""urn:ietf:params:xml:ns:icalendar-2.0"">" ++ [LF] ++
  lit "  <ns0:" ++ type ++ lit ">" ++ text ++ lit "</ns0:" ++ type ++ lit ">" ++ [LF] ++ lit "</ns0:" ++ name ++ lit ">" ++ [LF].
Example C72_offset_refuted_ex :
  xml_prop (lit "TZOFFSETTO:+010030") = Ok (one_leaf (lit "tzoffsetto") (lit "utc-offset") (lit "+0100:30")) /\
  xml_prop (lit "TZOFFSETTO:-0330") = Ok (one_leaf (lit "tzoffsetto") (lit "utc-offset") (lit "-03:30")) /\
  (do p <- from_line (lit "TZOFFSETTO:+010030"); prop_writeJSON p) = Ok (JArr [JText (lit "tzoffsetto"); JObj []; JText (lit "utc-offset"); JText (lit "+01:00:30")]).
Proof. split; [vm_compute; reflexivity|]. split; vm_compute; reflexivity. Qed.
(** ... and a carriage return is read as a line feed. *)
Theorem C72_return_refuted : exists s c j x k, read_text s = Ok (Some c) /\ writeJSON c = Ok j /\ getTextXML fl0 c = Ok x /\ jcal fl0 x = Some k /\ k <> j.
Proof.
  exists (with_line (lit "SUMMARY:a" ++ [CR] ++ lit "b")). eexists. eexists. eexists. eexists. split; [vm_compute; reflexivity|]. split; [vm_compute; reflexivity|].
  split; [vm_compute; reflexivity|]. split; [vm_compute; reflexivity|]. intro E. discriminate E.
Qed.
Print Assumptions C72_return_refuted.
Example C72_return_refuted_ex : xml_prop (lit "SUMMARY:a" ++ [CR] ++ lit "b") = Ok (one_leaf (lit "summary") (lit "text") (lit "a" ++ [CR] ++ lit "b")) /\
  option_map (fun x => let '(Node t _ l _) := x in map (fun y => let '(Node u s _ _) := y in (u, s)) l) (read_document (one_leaf (lit "summary") (lit "text") (lit "a" ++ [CR] ++ lit "b")))
    = Some [(lit "text", lit "a" ++ [LF] ++ lit "b")].
Proof. split; vm_compute; reflexivity. Qed.
(** Filtered, components with sub-components are not written at all, or inside themselves. *)
Theorem C72_filtered_subs_refuted :
  (exists f c, tree_xml_ok fl0 c /\ writeXMLFiltered fl0 f c = Raise TypeError) /\
  (exists f c, tree_xml_ok fl0 c /\ writeXMLFiltered fl0 f c = Raise AttributeError) /\
  (exists f c tag x, tree_xml_ok fl0 c /\ writeXML fl0 c = Ok x /\ writeXMLFiltered fl0 f c =
     Ok (element tag XNone [element (lit "properties") XNone []; element (lit "components") XNone [x]])).
Proof.
  split; [|split].
  - exists (setAllSubComponents (newFilter (lit "VCALENDAR"))), cal2. split; [exact cal2_xml_ok|vm_compute; reflexivity].
  - exists (addSubComponent (newFilter (lit "VEVENT")) (newFilter (lit "VCALENDAR"))), cal2. split; [exact cal2_xml_ok|vm_compute; reflexivity].
  - exists (setAllSubComponents (newFilter (lit "X-OUTER"))), (unknown (lit "X-OUTER") [unknown (lit "X-INNER") []]), (lit "X-OUTER"). eexists.
    split; [|split; vm_compute; reflexivity].
    pose proof cal2_xml_ok as H. inversion H as [k s ps subs N P T E]; subst. inversion T; subst. assumption.
Qed.
Print Assumptions C72_filtered_subs_refuted.
Definition filtered_text (f : ofilter) (c : comp) : res bytes := do x <- writeXMLFiltered fl0 f c; toString (element (lit "icalendar") XNone [x]).
Example C72_filtered_subs_refuted_ex :
  filtered_text (setAllSubComponents (newFilter (lit "VCALENDAR"))) cal2 = Raise TypeError /\
  filtered_text (addSubComponent (newFilter (lit "VEVENT")) (newFilter (lit "VCALENDAR"))) cal2 = Raise AttributeError.
Proof. split; vm_compute; reflexivity. Qed.
