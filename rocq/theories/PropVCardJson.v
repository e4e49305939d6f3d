(** C76: the JSON form of vCards. *)
From Verif Require Import PyBase PyProofs ParserCtx TextModel LineModel DateTimeModel PropertyModel PropertySpec PropertyProofs3 ComponentModel VCardModel VCardJsonModel VCardJsonSpec
  VCardJsonProofs VCardJsonProofs2 PropProperty PropComponent PropVCard PropJson.

(** A property with a value of one of the types that vCards have in JSON is written as JSON which is read, whatever the order of the members of its objects,
    as the same property. *)
Theorem C76_property : forall ctx fl nm p, cprop_json_ok p ->
  exists j, cprop_writeJSON p = Ok j /\ forall k, reordered j k -> exists q, cprop_parseJSON ctx fl nm k = Ok q /\ same_cjson p q.
Proof. exact cprop_back. Qed.
Print Assumptions C76_property.

(** A card of such properties is read back as a card with the same properties of every name, in the same order. *)
Theorem C76_card : forall ctx fl nm c, card_json_ok c ->
  exists j, card_writeJSON c = Ok j /\ forall j', reordered j j' -> exists d, card_parseJSON ctx fl nm j' = Ok d /\ same_card_json c d.
Proof. exact card_json_back. Qed.
Print Assumptions C76_card.

(** parseMultipleJSONData: an array of what is written for some cards is read as these cards. *)
Theorem C76_cards : forall ctx fl nm cs, Forall card_json_ok cs ->
  exists js, Forall2 (fun c j => card_writeJSON c = Ok j) cs js /\ forall j', reordered (JArr js) j' ->
  exists ds, cards_parseJSON ctx fl nm j' = Ok ds /\ Forall2 same_card_json cs ds.
Proof. exact cards_json_back. Qed.
Print Assumptions C76_cards.

(** N, ADR and ORG are written with null in place of a type, and that is never read. *)
Theorem C76_structured : forall ctx fl nm p i, cpValue p = Some (CSingle i) -> structured (citem_type i) ->
  exists j, cprop_writeJSON p = Ok j /\
  forall k, reordered j k -> (forall q, cprop_parseJSON ctx fl nm k <> Ok q) /\ (params_json_ok (cpParams p) -> cprop_parseJSON ctx fl nm k = Raise InvalidProperty).
Proof. exact structured_refused. Qed.
Print Assumptions C76_structured.

(** What stands there has all the parts, in order. *)
Theorem C76_written : forall p i, cpValue p = Some (CSingle i) -> structured (citem_type i) ->
  exists m js, cprop_writeJSON p = Ok (JArr [JText (lower (cpName p)); JObj m; JNull; js]) /\ parts_written i js.
Proof. exact structured_shape. Qed.
Print Assumptions C76_written.

(** So what is written for a card with one of these is never read. *)
Theorem C76_unreadable : forall ctx fl nm c key l p i j, NoDup (map fst c) -> In (key, l) c -> In p l -> cpValue p = Some (CSingle i) -> structured (citem_type i) ->
  upper (cpName p) = key -> card_writeJSON c = Ok j -> forall k, reordered j k -> forall d, card_parseJSON ctx fl nm k <> Ok d.
Proof. exact structured_card. Qed.
Print Assumptions C76_unreadable.

(** JSON from elsewhere: with the type text, in any letter case, and an array of texts these are read as these parts. *)
Theorem C76_parts : forall ctx fl nm name ps jp tn l t, params_json_ok ps -> reordered (JObj (params_json ps)) jp -> lower tn = lit "text" ->
  In (upper name, t) [(lit "N", CT_N); (lit "ADR", CT_ADR); (lit "ORG", CT_ORG)] ->
  exists q, cprop_parseJSON ctx fl nm (JArr [JText name; jp; JText tn; JArr (map JText l)]) = Ok q /\ cpGroup q = None /\ cpName q = upper name /\
    cpValue q = Some (CSingle (as_parts t l)) /\ forall k, k <> lit "VALUE" -> Forall2 same_upper (lookup k ps) (lookup k (cpParams q)).
Proof. exact parts_read. Qed.
Print Assumptions C76_parts.

(** Nothing else than texts is read as such parts: an array of them, or the letters of a text or the keys of an object. *)
Theorem C76_parts_only : forall ctx fl nm j q i, cprop_parseJSON ctx fl nm j = Ok q -> cpValue q = Some (CSingle i) -> structured (citem_type i) ->
  exists a b c v r l, j = JArr (a :: b :: c :: v :: r) /\ i = as_parts (citem_type i) l /\
    (v = JArr (map JText l) \/ (exists s, v = JText s /\ l = map (fun c => [c]) s) \/ exists m, v = JObj m /\ l = map fst m).
Proof. exact parts_only. Qed.
Print Assumptions C76_parts_only.
(** A card is read only from an array with a name, properties that are all read, and nothing in place of the components. *)
Theorem C76_shape : forall ctx fl nm j d, card_parseJSON ctx fl nm j = Ok d -> exists n p s r l, j = JArr (n :: p :: s :: r) /\ In s [JArr []; JObj []; JText []] /\
  elements p = Ok l /\ Forall (fun x => exists q, cprop_parseJSON ctx fl nm x = Ok q) l.
Proof. exact card_shape. Qed.
Print Assumptions C76_shape.

(** JSON that is not accepted is reported with an error of the library, if it is an array at the top; the model does not know which error there is for texts that are not ASCII,
    where some texts are asked for (RuntimeError). *)
Theorem C76_errors : forall ctx fl nm j e,
  (card_parseJSON ctx fl nm j = Raise e -> In e [InvalidData; InvalidComponent; InvalidProperty; ValidationError] \/ e = RuntimeError) /\
  (cards_parseJSON ctx fl nm j = Raise e -> In e [InvalidData; InvalidComponent; InvalidProperty; ValidationError] \/ e = RuntimeError \/
     (e = TypeError /\ forall l m s, j <> JArr l /\ j <> JObj m /\ j <> JText s)).
Proof. intros. split; [apply card_json_error|apply cards_json_error]. Qed.
Print Assumptions C76_errors.

(** ** Examples *)
Definition read_cprop : json -> res cprop := cprop_parseJSON default_ctx fl0 nm0.
Definition read_card : json -> res cprops := card_parseJSON default_ctx fl0 nm0.
Definition photo0 : cprop := mkCProp None (lit "photo") [(lit "VALUE", [(lit "value", [lit "uri"])]); (lit "X-A", [(lit "x-a", [lit "one"])]); (lit "TYPE", [(lit "TYPE", [lit "png"])])]
  (Some (CSingle (CItem (VUri (Some (lit "http://example.com/kim.png")))))).
Definition photo_json (ps : list (bytes * json)) : json := JArr [JText (lit "photo"); JObj ps; JText (lit "uri"); JText (lit "http://example.com/kim.png")].
Ltac cplain := split; [split; repeat constructor|eexists; split; [reflexivity|]].
Ltac csingle := split; [no_in|split; [discriminate|split; [discriminate|split; [discriminate|split; [intros _; no_in|split; [discriminate|discriminate]]]]]].
Lemma version0_json : cprop_json_ok version0.
Proof. cplain. split; [csingle|exact I]. Qed.
Lemma nick0_json : cprop_json_ok nick0.
Proof. cplain. split; [split; [left; reflexivity|cbn; tauto]|]. repeat constructor. Qed.
Lemma rev0_json : cprop_json_ok rev0.
Proof. cplain. split; [csingle|]. split; [vm_compute; intuition discriminate|right; left; reflexivity]. Qed.
Lemma photo0_json : cprop_json_ok photo0.
Proof.
  split.
  - split; [repeat constructor; no_in|].
    constructor; [split; [repeat constructor|intro X; exfalso; apply X; reflexivity]|].
    constructor; [split; [repeat constructor|intros _; eexists; eexists; split; [reflexivity|]; ascii_name]|].
    constructor; [split; [repeat constructor|intros _; eexists; eexists; split; [reflexivity|]; ascii_name]|]. constructor.
  - eexists. split; [reflexivity|]. split; [csingle|discriminate].
Qed.
(** A photo by its URI, with parameters. *)
Example C76_property_ex : cprop_json_ok photo0 /\
  cprop_writeJSON photo0 = Ok (photo_json [(lit "type", JText (lit "png")); (lit "x-a", JText (lit "one"))]) /\
  exists q, read_cprop (photo_json [(lit "x-a", JText (lit "one")); (lit "type", JText (lit "png"))]) = Ok q /\ cpName q = lit "PHOTO" /\ cpValue q = cpValue photo0 /\
    map fst (cpParams q) = [lit "X-A"; lit "TYPE"; lit "VALUE"].
Proof. split; [exact photo0_json|]. split; [vm_compute; reflexivity|]. eexists. split; [vm_compute; reflexivity|]. repeat split. Qed.
Definition cardC : cprops := card0 [rev0; version0; photo0; nick0].
Lemma cardC_json : card_json_ok cardC.
Proof.
  assert (cardC = [(lit "REV", [rev0]); (lit "VERSION", [version0]); (lit "PHOTO", [photo0]); (lit "NICKNAME", [nick0])]) as -> by (vm_compute; reflexivity).
  split; [repeat constructor; no_in|]. repeat apply Forall_cons; try apply Forall_nil; cbn [fst snd];
  repeat apply Forall_cons; try apply Forall_nil; (split; [reflexivity|first [exact version0_json|exact nick0_json|exact rev0_json|exact photo0_json]]).
Qed.
Definition jsonC : json := JArr [JText (lit "vcard"); JArr [
  JArr [JText (lit "version"); JObj []; JText (lit "text"); JText (lit "3.0")];
  JArr [JText (lit "nickname"); JObj []; JText (lit "text"); JText (lit "Kimmie"); JText (lit "K;S")];
  photo_json [(lit "type", JText (lit "png")); (lit "x-a", JText (lit "one"))];
  JArr [JText (lit "rev"); JObj []; JText (lit "date-time"); JText (lit "2020-01-31T09:30:00Z")]]; JArr []].
Example C76_card_ex : card_json_ok cardC /\ card_writeJSON cardC = Ok jsonC /\ exists d, read_card jsonC = Ok d /\ map fst d = [lit "VERSION"; lit "NICKNAME"; lit "PHOTO"; lit "REV"].
Proof. split; [exact cardC_json|]. split; [vm_compute; reflexivity|]. eexists. split; [vm_compute; reflexivity|]. reflexivity. Qed.
Example C76_cards_ex : Forall card_json_ok [cardC; cardC] /\ exists ds, cards_parseJSON default_ctx fl0 nm0 (JArr [jsonC; jsonC]) = Ok ds /\ List.length ds = 2%nat.
Proof. split; [constructor; [exact cardC_json|constructor; [exact cardC_json|constructor]]|]. eexists. split; [vm_compute; reflexivity|reflexivity]. Qed.
Example C76_structured_ex : structured CT_ORG /\ cprop_writeJSON org0 = Ok (JArr [JText (lit "org"); JObj []; JNull; JArr [JText (lit "Acme, Inc."); JText (lit "R;D")]]) /\
  read_cprop (JArr [JText (lit "org"); JObj []; JNull; JArr [JText (lit "Acme, Inc."); JText (lit "R;D")]]) = Raise InvalidProperty.
Proof. split; [right; right; reflexivity|]. split; vm_compute; reflexivity. Qed.
Example C76_written_ex : structured CT_N /\ cprop_writeJSON name0 = Ok (JArr [JText (lit "n"); JObj [(lit "language", JText (lit "en"))]; JNull;
  JArr [JText (lit "Smith; Jones"); JText (lit "Kim"); JArr [JText (lit "A."); JText (lit "B.")]; JText (lit "Dr."); JArr []]]).
Proof. split; [left; reflexivity|]. vm_compute. reflexivity. Qed.
Example C76_unreadable_ex : exists j, card_writeJSON cardB = Ok j /\ In (lit "ORG", [org0; org0]) cardB /\ read_card j = Raise InvalidProperty.
Proof. eexists. split; [vm_compute; reflexivity|]. split; [right; left; reflexivity|vm_compute; reflexivity]. Qed.
Example C76_parts_ex : params_json_ok [(lit "TYPE", [(lit "type", [lit "home"])])] /\
  exists q, read_cprop (JArr [JText (lit "adr"); JObj [(lit "type", JText (lit "home"))]; JText (lit "Text"); JArr (map JText [lit ""; lit ""; lit "1 Main St"; lit "Town"])]) = Ok q /\
    cpValue q = Some (CSingle (CAdr [NStr []; NStr []; NStr (lit "1 Main St"); NStr (lit "Town")])) /\ lookup (lit "TYPE") (cpParams q) = [(lit "TYPE", [lit "home"])].
Proof.
  split.
  - split; [repeat constructor; no_in|]. constructor; [|constructor]. split; [repeat constructor|intros _; eexists; eexists; split; [reflexivity|]; ascii_name].
  - eexists. split; [vm_compute; reflexivity|]. split; reflexivity.
Qed.
Example C76_parts_only_ex : read_cprop (JArr [JText (lit "org"); JObj []; JText (lit "text"); JNum 5]) = Raise InvalidProperty /\
  exists q, read_cprop (JArr [JText (lit "org"); JObj []; JText (lit "text"); JText (lit "Ab")]) = Ok q /\ cpValue q = Some (CSingle (COrg [lit "A"; lit "b"])).
Proof. split; [vm_compute; reflexivity|]. eexists. split; [vm_compute; reflexivity|]. reflexivity. Qed.
Example C76_shape_ex : (exists d, read_card jsonC = Ok d) /\ read_card (JArr [JText (lit "vcard"); JArr []]) = Raise InvalidComponent /\
  exists d, read_card (JArr [JNull; JArr []; JObj []; JNull]) = Ok d.
Proof. split; [eexists; vm_compute; reflexivity|]. split; [vm_compute; reflexivity|]. eexists. vm_compute. reflexivity. Qed.
Example C76_errors_ex : read_card (JArr [JText (lit "vcard"); JArr [JArr [JText (lit "rev")]]; JArr []]) = Raise InvalidProperty /\ read_card JNull = Raise InvalidComponent /\
  cards_parseJSON default_ctx fl0 nm0 (JNull) = Raise TypeError.
Proof. repeat split; vm_compute; reflexivity. Qed.

(** ** What JSON loses *)
(** No card with a name can be read back, and every vCard has one. *)
Theorem C76_name_refuted : exists c j, card_ok default_ctx fl0 c /\ card_writeJSON c = Ok j /\ read_card j = Raise InvalidProperty.
Proof. exists cardA. eexists. split; [exact cardA_ok|]. split; [vm_compute; reflexivity|]. vm_compute. reflexivity. Qed.
Print Assumptions C76_name_refuted.
(** Groups are lost. *)
Theorem C76_group_refuted : exists p q, cpGroup p = Some (lit "item1") /\ cprop_json_ok p /\ (exists j, cprop_writeJSON p = Ok j /\ read_cprop j = Ok q) /\ cpGroup q = None.
Proof.
  exists (mkCProp (Some (lit "item1")) (lit "VERSION") [] (cpValue version0)). eexists. split; [reflexivity|]. split; [exact version0_json|].
  split; [eexists; split; [vm_compute; reflexivity|]; vm_compute; reflexivity|reflexivity].
Qed.
Print Assumptions C76_group_refuted.
(** An ORG that is one text is written as its letters. *)
Theorem C76_letters_refuted : exists p, cprop_parse default_ctx fl0 (lit "ORG:Acme") = Some (Ok p) /\
  cprop_writeJSON p = Ok (JArr [JText (lit "org"); JObj []; JNull; JArr [JText (lit "A"); JText (lit "c"); JText (lit "m"); JText (lit "e")]]).
Proof. eexists. split; [vm_compute; reflexivity|]. vm_compute. reflexivity. Qed.
Print Assumptions C76_letters_refuted.
(** jCard (RFC 7095 3.3.1.3) has an array for a part with several texts; that is refused. *)
Theorem C76_nested_refuted :
  read_cprop (JArr [JText (lit "n"); JObj []; JText (lit "text"); JArr [JText (lit "Smith"); JText (lit "Kim"); JArr [JText (lit "A."); JText (lit "B.")]; JText []; JText []]]) = Raise InvalidProperty.
Proof. vm_compute. reflexivity. Qed.
Print Assumptions C76_nested_refuted.
(** A name with fewer parts is not filled up as it is in text, so it has no full name. *)
Theorem C76_short_refuted : exists q, read_cprop (JArr [JText (lit "n"); JObj []; JText (lit "text"); JArr [JText (lit "Smith")]]) = Ok q /\ cpValue q = Some (CSingle (CName [NStr (lit "Smith")])) /\
  getFullName [NStr (lit "Smith")] = Raise IndexError /\
  exists p, cprop_parse default_ctx fl0 (lit "N:Smith") = Some (Ok p) /\ cpValue p = Some (CSingle (CName [NStr (lit "Smith"); NStr []; NStr []; NStr []; NStr []])).
Proof. eexists. split; [vm_compute; reflexivity|]. split; [reflexivity|]. split; [vm_compute; reflexivity|]. eexists. split; [vm_compute; reflexivity|]. reflexivity. Qed.
Print Assumptions C76_short_refuted.
(** A UTC offset is read back from TZ only: its type in JSON is no type of vCards. *)
Theorem C76_offset_refuted : exists p j q, cprop_parse default_ctx fl0 (lit "X-ZONE;VALUE=UTCOFFSET:+01:00") = Some (Ok p) /\ cpValue p = Some (CSingle (CItem (VOffset 3600))) /\
  cprop_writeJSON p = Ok j /\ read_cprop j = Ok q /\ cpValue q = Some (CSingle (CItem (VPlain PUnknown (Some (lit "+01:00"))))).
Proof. do 3 eexists. split; [vm_compute; reflexivity|]. split; [reflexivity|]. split; [vm_compute; reflexivity|]. split; [vm_compute; reflexivity|]. reflexivity. Qed.
Print Assumptions C76_offset_refuted.
(** The version of a card, and whether it has one, is not looked at, and neither is the name of the component. *)
Theorem C76_version_refuted :
  cards_parseJSON default_ctx fl0 nm0 (JArr [JArr [JText (lit "vcalendar"); JArr []; JArr []]; JArr [JText (lit "vcard"); JArr [JArr [JText (lit "version"); JObj []; JText (lit "text"); JText (lit "4.0")]]; JArr []]]) =
  Ok [[]; card0 [mkCProp None (lit "VERSION") [] (Some (CSingle (CItem (VText (lit "4.0")))))]].
Proof. vm_compute. reflexivity. Qed.
Print Assumptions C76_version_refuted.
