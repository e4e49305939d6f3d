(** Property C92: reading and writing in a format that is given by its name.  [loads] and [dumps] stand for json.loads and json.dumps, and are arbitrary. *)
From Verif Require Import PyBase PyProofs ParserCtx TextModel LineModel DateTimeModel PropertyModel ComponentModel ComponentSpec JsonModel JsonSpec VCardModel VCardSpec
  VCardJsonModel VCardJsonSpec CalTzModel FormatModel FormatSpec FormatProofs PropComponent PropJson PropVCard PropVCardJson PropCalTz.
From Verif Require XmlProofs3.

(** What getText writes as text, with the time zones that it adds, is read by parseData; the format is text if it has no name. *)
Theorem C92_calendar_text : forall loads dumps ctx fl nm tzo uuids lookup standard order uuid c m subs f g,
  includeMissingTimezones lookup standard order uuid m (cSubs c) = Ok subs -> let c1 := Comp (cKind c) (cState c) (cProps c) subs in
  calendar_ok ctx fl c1 -> text_name "text/calendar" f -> text_name "text/calendar" g ->
  exists text c', cal_getText dumps fl lookup standard order uuid c m f = Some (Ok (c1, Some text)) /\
    cal_parseData loads ctx fl nm tzo uuids text g = Ok (Some c') /\ same_tree c1 c'.
Proof.
  intros loads dumps ctx fl nm tzo uuids lookup standard order uuid c m subs f g E c1 H F G.
  destruct (C39_round_trip tzo ctx fl uuids c1 H) as (text & c' & W & R & S). exists text, c'. unfold cal_getText, cal_parseData, cal_text.
  rewrite (text_is _ _ F), (text_is _ _ G), E. cbn [rbind]. fold c1. rewrite W. cbn [rbind]. auto.
Qed.
Print Assumptions C92_calendar_text.

(** What it writes as JSON is read as JSON. *)
Theorem C92_calendar_json : forall loads dumps ctx fl nm tzo uuids lookup standard order uuid c m subs f,
  includeMissingTimezones lookup standard order uuid m (cSubs c) = Ok subs -> let c1 := Comp (cKind c) (cState c) (cProps c) subs in
  calendar_json_ok c1 -> (forall j, writeJSON c1 = Ok j -> json_kept loads dumps j) -> json_name_of "application/calendar+json" f ->
  exists text c', cal_getText dumps fl lookup standard order uuid c m f = Some (Ok (c1, Some text)) /\
    cal_parseData loads ctx fl nm tzo uuids text f = Ok (Some c') /\ same_json_tree c1 c'.
Proof.
  intros loads dumps ctx fl nm tzo uuids lookup standard order uuid c m subs f E c1 H K F.
  destruct (C63_calendar tzo ctx fl nm uuids c1 H) as (j & W & R). destruct (K j W) as (s & j' & D & L & Q). destruct (R j' Q) as (c' & P & S). exists s, c'.
  destruct (json_is _ _ _ cal_names F) as (A & _ & B). unfold cal_getText, cal_parseData, cal_text, cal_json, loaded. rewrite A, B, E. cbn [rbind]. fold c1. rewrite W. cbn [rbind].
  rewrite D, L, P. auto.
Qed.
Print Assumptions C92_calendar_json.

(** With any other name nothing is written, read or changed, and there is no exception. *)
Theorem C92_calendar_other : forall loads dumps ctx fl nm tzo uuids lookup standard order uuid c m data f, other_name "text/calendar" "application/calendar+json" f ->
  cal_getText dumps fl lookup standard order uuid c m f = Some (Ok (c, None)) /\ cal_parseData loads ctx fl nm tzo uuids data f = Ok None.
Proof.
  intros loads dumps ctx fl nm tzo uuids lookup standard order uuid c m data f F. destruct (other_is _ _ _ F) as (A & _ & B).
  unfold cal_getText, cal_parseData, cal_text, cal_json. rewrite A, B. auto.
Qed.
Print Assumptions C92_calendar_other.

(** What is not JSON, or not JSON of a calendar, is reported with an exception of the library (RuntimeError: outside the model). *)
Theorem C92_calendar_errors : forall loads ctx fl nm tzo uuids data f, json_name_of "application/calendar+json" f ->
  (loads data = None -> cal_parseData loads ctx fl nm tzo uuids data f = Raise InvalidData) /\
  forall e, cal_parseData loads ctx fl nm tzo uuids data f = Raise e -> In e [InvalidData; InvalidComponent; InvalidProperty; ValidationError] \/ e = RuntimeError.
Proof.
  intros loads ctx fl nm tzo uuids data f F. destruct (json_is _ _ _ cal_names F) as (A & _ & B). unfold cal_parseData, cal_text, cal_json, loaded. rewrite A, B.
  split; [intros ->; reflexivity|]. intros e. destruct (loads data) as [j|]; [|intro H; injection H as <-; left; left; reflexivity].
  destruct (parseJSONData ctx fl nm tzo uuids j) as [c|x] eqn:P; cbn [rbind]; [discriminate|]. intro H. injection H as <-. exact (C63_errors _ _ _ _ _ _ _ P).
Qed.
Print Assumptions C92_calendar_errors.

(** vCards: text. *)
Theorem C92_card_text : forall loads dumps ctx fl nm c f g, card_ok ctx fl c -> text_name "text/vcard" f -> text_name "text/vcard" g ->
  exists text d, card_getText dumps fl c f = Some (Ok (Some text)) /\ card_parseData loads ctx fl nm text g = Some (Ok (Some d)) /\ same_card c d.
Proof.
  intros loads dumps ctx fl nm c f g H F G. destruct (C70_card ctx fl c H) as (text & d & W & R & S & _). exists text, d.
  unfold card_getText, card_parseData, card_text. rewrite (text_is _ _ F), (text_is _ _ G), W. auto.
Qed.
Print Assumptions C92_card_text.
(** vCards: JSON. *)
Theorem C92_card_json : forall loads dumps ctx fl nm c f, card_json_ok c -> (forall j, card_writeJSON c = Ok j -> json_kept loads dumps j) -> json_name_of "application/vcard+json" f ->
  exists text d, card_getText dumps fl c f = Some (Ok (Some text)) /\ card_parseData loads ctx fl nm text f = Some (Ok (Some d)) /\ same_card_json c d.
Proof.
  intros loads dumps ctx fl nm c f H K F. destruct (C76_card ctx fl nm c H) as (j & W & R). destruct (K j W) as (s & j' & D & L & Q). destruct (R j' Q) as (d & P & S). exists s, d.
  destruct (json_is _ _ _ card_names F) as (A & _ & B). unfold card_getText, card_parseData, card_text, card_json, loaded. rewrite A, B, W. cbn [rbind]. rewrite D, L, P. auto.
Qed.
Print Assumptions C92_card_json.
(** Several vCards: the texts one after the other, and JSON arrays. *)
Theorem C92_cards : forall loads dumps ctx fl nm cs,
  (Forall (card_ok ctx fl) cs -> exists texts ds, Forall2 (fun c t => card_getText dumps fl c (Some (lit "text/vcard")) = Some (Ok (Some t))) cs texts /\
     card_parseMultipleData loads ctx fl nm (List.concat texts) (Some (lit "text/vcard")) = Some (Ok (Some ds)) /\ Forall2 same_card cs ds) /\
  (Forall card_json_ok cs -> forall js, Forall2 (fun c j => card_writeJSON c = Ok j) cs js -> json_kept loads dumps (JArr js) ->
     exists data ds, dumps (JArr js) = Ok data /\ card_parseMultipleData loads ctx fl nm data (Some (lit "application/vcard+json")) = Some (Ok (Some ds)) /\ Forall2 same_card_json cs ds).
Proof.
  intros loads dumps ctx fl nm cs. split.
  - intro H. destruct (C70_cards ctx fl cs H) as (texts & ds & W & R & S). exists texts, ds. unfold card_parseMultipleData, card_text. rewrite text_exactly, R. split; [|auto].
    clear - W. induction W as [|c t ? ? E _ IH]; constructor; [|exact IH]. unfold card_getText, card_text. rewrite (text_is "text/vcard") by (right; reflexivity). rewrite E. reflexivity.
  - intros H js W (s & j' & D & L & Q). destruct (C76_cards ctx fl nm cs H) as (js' & W' & R).
    assert (E : js' = js).
    { clear - W W'. revert js' W'. induction W as [|c j cs js E _ IH]; intros js' W'; inversion W' as [|? k ? ks E' W'']; subst; [reflexivity|]. rewrite E in E'. injection E' as ->. f_equal. apply IH, W''. }
    subst js'. destruct (R j' Q) as (ds & P & S). exists s, ds.
    destruct (json_is _ _ (Some (lit "application/vcard+json")) card_names eq_refl) as (_ & A & B).
    unfold card_parseMultipleData, card_text, card_json, loaded. rewrite A, B, L, P. auto.
Qed.
Print Assumptions C92_cards.
(** Other names. *)
Theorem C92_card_other : forall loads dumps ctx fl nm c data f, other_name "text/vcard" "application/vcard+json" f ->
  card_getText dumps fl c f = Some (Ok None) /\ card_parseData loads ctx fl nm data f = Some (Ok None) /\ card_parseMultipleData loads ctx fl nm data f = Some (Ok None).
Proof.
  intros loads dumps ctx fl nm c data f F. destruct (other_is _ _ _ F) as (A & A' & B).
  unfold card_getText, card_parseData, card_parseMultipleData, card_text, card_json. rewrite A, A', B. auto.
Qed.
Print Assumptions C92_card_other.
(** Data that is not JSON. *)
Theorem C92_card_errors : forall loads ctx fl nm data, loads data = None ->
  card_parseData loads ctx fl nm data (Some (lit "application/vcard+json")) = Some (Raise InvalidData) /\
  card_parseMultipleData loads ctx fl nm data (Some (lit "application/vcard+json")) = Some (Raise InvalidData).
Proof. intros loads ctx fl nm data H. unfold card_parseData, card_parseMultipleData, loaded. rewrite H. split; reflexivity. Qed.
Print Assumptions C92_card_errors.

(** ** Examples *)
(** A JSON library for one object. *)
Definition dumps0 (j : json) : res bytes := Ok (lit "j").
Definition loads0 (k : json) (s : bytes) : option json := if beq s (lit "j") then Some k else None.
Example C92_calendar_text_ex : includeMissingTimezones lookup2 standard2 (@rev tzid) uuid2 None (cSubs cal1) = Ok (cSubs cal1) /\ calendar_ok default_ctx fl0 cal1 /\
  cal_getText dumps0 fl0 lookup2 standard2 (@rev tzid) uuid2 cal1 None None = Some (Ok (cal1, Some text1)).
Proof. split; [vm_compute; reflexivity|]. split; [exact cal1_ok|]. vm_compute. reflexivity. Qed.
(** A zone is added, in text and in JSON. *)
Example C92_zones_ex : exists c text s, cal_getText dumps0 fl0 lookup2 standard2 (@rev tzid) uuid2 (calendar [meeting (lit "a") own]) None None = Some (Ok (c, Some text)) /\
  List.length (cSubs c) = 2%nat /\
  cal_getText dumps0 fl0 lookup2 standard2 (@rev tzid) uuid2 (calendar [meeting (lit "a") own]) None (Some (lit "application/calendar+json")) = Some (Ok (c, Some s)).
Proof. do 3 eexists. split; [vm_compute; reflexivity|]. split; [vm_compute; reflexivity|]. vm_compute. reflexivity. Qed.
Example C92_calendar_json_ex : calendar_json_ok cal1 /\ (forall j, writeJSON cal1 = Ok j -> json_kept (loads0 json1) dumps0 j) /\
  cal_getText dumps0 fl0 lookup2 standard2 (@rev tzid) uuid2 cal1 None (Some (lit "application/calendar+json")) = Some (Ok (cal1, Some (lit "j"))) /\
  exists c', cal_parseData (loads0 json1) default_ctx fl0 nm0 tz_none uuids0 (lit "j") (Some (lit "application/calendar+json")) = Ok (Some c') /\ generate fl0 c' = Some (Ok text1).
Proof.
  split; [exact cal1_json_ok|]. split.
  - intros j W. assert (E : writeJSON cal1 = Ok json1) by (vm_compute; reflexivity). rewrite E in W. injection W as <-. exists (lit "j"), json1.
    split; [reflexivity|]. split; [reflexivity|]. apply XmlProofs3.reordered_refl.
  - split; [vm_compute; reflexivity|]. eexists. split; [vm_compute; reflexivity|]. vm_compute. reflexivity.
Qed.
Example C92_calendar_errors_ex : loads0 json1 (lit "{") = None /\ cal_parseData (loads0 JNull) default_ctx fl0 nm0 tz_none uuids0 (lit "j") (Some (lit "application/calendar+json")) = Raise InvalidComponent.
Proof. split; vm_compute; reflexivity. Qed.
Example C92_card_text_ex : card_ok default_ctx fl0 cardA /\ exists text, card_getText dumps0 fl0 cardA None = Some (Ok (Some text)) /\
  exists d, card_parseData (loads0 json1) default_ctx fl0 nm0 text (Some (lit "text/vcard")) = Some (Ok (Some d)).
Proof. split; [exact cardA_ok|]. eexists. split; [vm_compute; reflexivity|]. eexists. vm_compute. reflexivity. Qed.
Example C92_card_json_ex : card_json_ok cardC /\ (forall j, card_writeJSON cardC = Ok j -> json_kept (loads0 jsonC) dumps0 j).
Proof.
  split; [exact cardC_json|]. intros j W. assert (E : card_writeJSON cardC = Ok jsonC) by (vm_compute; reflexivity). rewrite E in W. injection W as <-. exists (lit "j"), jsonC.
  split; [reflexivity|]. split; [reflexivity|]. apply XmlProofs3.reordered_refl.
Qed.
Example C92_cards_ex : Forall card_json_ok [cardC; cardC] /\ Forall2 (fun c j => card_writeJSON c = Ok j) [cardC; cardC] [jsonC; jsonC] /\ json_kept (loads0 (JArr [jsonC; jsonC])) dumps0 (JArr [jsonC; jsonC]).
Proof.
  split; [constructor; [exact cardC_json|constructor; [exact cardC_json|constructor]]|]. split; [repeat (constructor; [vm_compute; reflexivity|]); constructor|]. do 2 eexists. split; [reflexivity|]. split; [reflexivity|]. apply XmlProofs3.reordered_refl.
Qed.
Lemma xml_other : other_name "text/calendar" "application/calendar+json" (Some (lit "application/calendar+xml")).
Proof. split; [intros [E|E]|intro E]; discriminate E. Qed.
Example C92_calendar_other_ex : other_name "text/calendar" "application/calendar+json" (Some (lit "application/calendar+xml")) /\
  other_name "text/vcard" "application/vcard+json" (Some (lit "text/calendar")).
Proof. split; [exact xml_other|]. split; [intros [E|E]|intro E]; discriminate E. Qed.

(** Media types are the same in any letter case and with parameters (RFC 2045 5.1); here they are not: a calendar is not read, and there is no exception. *)
Theorem C92_media_type_refuted : exists data f g c, upper f = upper (lit "text/calendar") /\ g = lit "text/calendar; charset=utf-8" /\
  cal_parseData (loads0 json1) default_ctx fl0 nm0 tz_none uuids0 data (Some (lit "text/calendar")) = Ok (Some c) /\
  cal_parseData (loads0 json1) default_ctx fl0 nm0 tz_none uuids0 data (Some f) = Ok None /\
  cal_parseData (loads0 json1) default_ctx fl0 nm0 tz_none uuids0 data (Some g) = Ok None.
Proof. exists text1, (lit "Text/Calendar"), (lit "text/calendar; charset=utf-8"). eexists. split; [vm_compute; reflexivity|]. split; [reflexivity|]. split; [vm_compute; reflexivity|]. split; vm_compute; reflexivity. Qed.
Print Assumptions C92_media_type_refuted.
(** Without a name of the format one vCard is read as text, but several are not read. *)
Theorem C92_multiple_refuted : exists text d, card_parseData (loads0 json1) default_ctx fl0 nm0 text None = Some (Ok (Some d)) /\
  card_parseMultipleData (loads0 json1) default_ctx fl0 nm0 text (Some (lit "text/vcard")) = Some (Ok (Some [d])) /\
  card_parseMultipleData (loads0 json1) default_ctx fl0 nm0 text None = Some (Ok None).
Proof.
  exists (crlines [lit "BEGIN:VCARD"; lit "VERSION:3.0"; lit "FN:Kim"; lit "END:VCARD"]). eexists. split; [vm_compute; reflexivity|]. split; vm_compute; reflexivity.
Qed.
Print Assumptions C92_multiple_refuted.
