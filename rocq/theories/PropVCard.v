(** Properties of vCards: C70. *)
From Coq Require Import Sorting.Sorted.
From Verif Require Import PyBase ParserCtx TextModel TextSpec LineModel LineSpec DateTimeModel DateTimeSpec2 PropertyModel PropertySpec
  ComponentModel ComponentSpec VCardModel VCardSpec VCardProofs VCardProofs2 VCardProofs3 PropertyProofs2 PropProperty.
From Verif Require PropComponent.

(** For the examples: texts from lines. *)
Definition crlines (l : list bytes) : bytes := List.concat (map (fun x => x ++ [CR; LF]) l).
Definition card0 (l : list cprop) : cprops := fold_left (fun c p => card_addProperty p c) l [].
Definition version0 : cprop := mkCProp None (lit "VERSION") [] (Some (CSingle (CItem (VText (lit "3.0"))))).
Definition name0 : cprop :=
  mkCProp (Some (lit "item1")) (lit "N") [(lit "LANGUAGE", [(lit "LANGUAGE", [lit "en"])])]
    (Some (CSingle (CName [NStr (lit "Smith; Jones"); NStr (lit "Kim"); NTup [lit "A."; lit "B."]; NStr (lit "Dr."); NTup []]))).
Definition nick0 : cprop :=
  mkCProp None (lit "Nickname") [] (Some (CMulti (CT T_TEXT) [CItem (VText (lit "Kimmie")); CItem (VText (lit "K;S"))])).
Definition rev0 : cprop := mkCProp None (lit "REV") [] (Some (CSingle (CItem (VDateTime (newDateTime 2020 1 31 9 30 0 true TzNone))))).
Definition day0 : cprop :=
  mkCProp None (lit "REV") [(lit "VALUE", [(lit "VALUE", [lit "DATE"])])] (Some (CSingle (CItem (VDateTime (newDate 2020 1 31 false TzNone))))).
Definition org0 : cprop := mkCProp None (lit "ORG") [] (Some (CSingle (COrg [lit "Acme, Inc."; lit "R;D"]))).
Definition allow_ctx : pctx :=
  mkCtx PARSER_FIX PARSER_RAISE PARSER_FIX PARSER_ALLOW PARSER_FIX PARSER_FIX PARSER_ALLOW
        PARSER_FIX PARSER_ALLOW PARSER_FIX PARSER_FIX PARSER_FIX.
Ltac plain := unfold needs_quotes; cbn; try discriminate; try exact I; try (intuition discriminate);
  try (intros; reflexivity); try (let X := fresh in intros [X|[X|X]]; exfalso; revert X; cbn; intuition discriminate).
Ltac cok :=
  split; [unfold name_ok, starts_ok; cbn; repeat split; try discriminate; intuition discriminate|];
  split; [vm_compute; intuition discriminate|];
  split; [split; repeat constructor; plain|];
  split; [repeat constructor; plain|].
Ltac ckept :=
  unfold vcard_type_kept; cbn;
  repeat match goal with |- _ /\ _ => split end;
  try (let X := fresh in split; intro X; (reflexivity || discriminate X)); try (cbn; intuition discriminate); try discriminate; try (intros; discriminate);
  try (let N := fresh in intro N; exfalso; apply (N (CT T_TEXT)); cbn; tauto).

Ltac nobs := repeat constructor; let H := fresh in intro H; apply ends_in in H; cbn in H; intuition discriminate.
Lemma version0_ok : cprop_ok default_ctx fl0 version0.
Proof. cok. eexists. split; [reflexivity|]. split; [ckept|exact I]. Qed.
Lemma name0_ok : cprop_ok default_ctx fl0 name0.
Proof. cok. eexists. split; [reflexivity|]. split; [ckept|]. split; [reflexivity|]. cbn. nobs. Qed.
Lemma nick0_ok : cprop_ok default_ctx fl0 nick0.
Proof.
  cok. eexists. split; [reflexivity|]. split; [ckept|]. split; [exists (lit "TEXT"); constructor|]. split; [discriminate|].
  repeat constructor; eexists; (split; [vm_compute; reflexivity|cbn; intuition discriminate]).
Qed.
Lemma day0_ok : cprop_ok default_ctx fl0 day0.
Proof. cok. eexists. split; [reflexivity|]. split; [ckept|]. split; [vm_compute; intuition discriminate|left; reflexivity]. Qed.
Lemma org0_ok : cprop_ok default_ctx fl0 org0.
Proof. cok. eexists. split; [reflexivity|]. split; [ckept|]. split; [discriminate|]. cbn. nobs. Qed.

(** The line written for a property is read back as the same property, and that is written as the same line. *)
Theorem C70_property : forall ctx fl p, cprop_ok ctx fl p ->
  exists text q, cprop_line fl p = Ok text /\ cprop_parse ctx fl text = Some (Ok q) /\ same_cprop p q /\ cprop_line fl q = Ok text.
Proof. exact cprop_round. Qed.
Print Assumptions C70_property.
(** A name with a group, a parameter, a semicolon, two middle names and no suffix. *)
Example C70_property_ex :
  cprop_ok default_ctx fl0 name0 /\
  cprop_line fl0 name0 = Ok (lit "item1.N;LANGUAGE=en:Smith\; Jones;Kim;A.,B.;Dr.;") /\
  cprop_parse default_ctx fl0 (lit "item1.N;LANGUAGE=en:Smith\; Jones;Kim;A.,B.;Dr.;") =
    Some (Ok (mkCProp (Some (lit "item1")) (lit "N") (cpParams name0)
      (Some (CSingle (CName [NStr (lit "Smith; Jones"); NStr (lit "Kim"); NTup [lit "A."; lit "B."]; NStr (lit "Dr."); NStr []]))))).
Proof. split; [exact name0_ok|]. split; vm_compute; reflexivity. Qed.

(** The value has the type that the VALUE parameter names, or else the default type of the property, RFC 2426; it is a list exactly for
    NICKNAME and CATEGORIES, and a structured value for N, ADR, ORG and GEO. *)
Theorem C70_types : forall ctx fl text p, cprop_parse ctx fl text = Some (Ok p) ->
  exists t, vcard_typed (cpName p) (cpParams p) t /\
  let s := vcard_structured (cpName p) t in
  if existsb (beq (upper (cpName p))) vcard_lists
  then exists l, cpValue p = Some (CMulti s l) /\ Forall (vcard_made s) l
  else exists i, cpValue p = Some (CSingle i) /\ vcard_made s i.
Proof. exact cprop_typed. Qed.
Print Assumptions C70_types.
(** A birthday given as a text; an address; a birthday that is no date. *)
Example C70_types_ex :
  (exists p, cprop_parse default_ctx fl0 (lit "home.bday;value=TEXT:spring\, 1996") = Some (Ok p) /\
    vcard_typed (cpName p) (cpParams p) (CT T_TEXT) /\ cpValue p = Some (CSingle (CItem (VText (lit "spring, 1996"))))) /\
  (exists p, cprop_parse default_ctx fl0 (lit "ADR;TYPE=home,work:;;1 Main St,Flat 2;Town;;;UK") = Some (Ok p) /\
    vcard_typed (cpName p) (cpParams p) (CT T_TEXT) /\
    cpValue p = Some (CSingle (CAdr [NStr []; NStr []; NTup [lit "1 Main St"; lit "Flat 2"]; NStr (lit "Town"); NStr []; NStr []; NStr (lit "UK")]))) /\
  cprop_parse default_ctx fl0 (lit "BDAY:spring\, 1996") = Some (Raise InvalidProperty).
Proof.
  split; [|split; [|vm_compute; reflexivity]].
  - eexists. split; [vm_compute; reflexivity|]. split; [eapply ct_param; [reflexivity|apply cp_text]|reflexivity].
  - eexists. split; [vm_compute; reflexivity|]. split; [|reflexivity]. apply ct_default; [intros n v l r t H; discriminate H|]. vm_compute. tauto.
Qed.

(** The text of a card is read back as the same properties, and that is written as the same text. *)
Theorem C70_card : forall ctx fl c, card_ok ctx fl c ->
  exists text d, card_generate fl c = Some (Ok text) /\ card_parse ctx fl text = Some (Ok (Some d)) /\ same_card c d /\
    card_generate fl d = Some (Ok text).
Proof. exact card_round. Qed.
Print Assumptions C70_card.
Definition cardA : cprops := card0 [name0; version0; day0; org0; nick0].
Definition cardB : cprops := card0 [version0; org0; org0].
Ltac cline := eexists; split; [vm_compute; reflexivity|]; split; [|discriminate];
  apply PropComponent.ascii_line; [split; [reflexivity|split; PropComponent.no_in]|vm_compute; reflexivity].
Ltac cardok :=
  split; [vm_compute; repeat constructor; cbn; intuition discriminate|]; split; [vm_compute; tauto|];
  repeat apply Forall_cons; try apply Forall_nil;
  (split; [discriminate|]; repeat apply Forall_cons; try apply Forall_nil;
   (split; [vm_compute; reflexivity|]; split; [first [exact version0_ok|exact name0_ok|exact nick0_ok|exact day0_ok|exact org0_ok]|];
    split; [first [discriminate|reflexivity]|cline])).
Lemma cardA_ok : card_ok default_ctx fl0 cardA.
Proof. cardok. Qed.
Lemma cardB_ok : card_ok default_ctx fl0 cardB.
Proof. cardok. Qed.
Definition textA : bytes :=
  crlines [lit "BEGIN:VCARD"; lit "VERSION:3.0"; lit "item1.N;LANGUAGE=en:Smith\; Jones;Kim;A.,B.;Dr.;"; lit "Nickname:Kimmie,K\;S";
           lit "ORG:Acme\, Inc.;R\;D"; lit "REV;VALUE=DATE:20200131"; lit "END:VCARD"].
Definition textB : bytes := crlines [lit "BEGIN:VCARD"; lit "VERSION:3.0"; lit "ORG:Acme\, Inc.;R\;D"; lit "ORG:Acme\, Inc.;R\;D"; lit "END:VCARD"].
Example C70_card_ex : card_ok default_ctx fl0 cardA /\ card_generate fl0 cardA = Some (Ok textA).
Proof. split; [exact cardA_ok|vm_compute; reflexivity]. Qed.

(** The lines of the text are those of the properties, each once: VERSION first, then PRODID, UID, and the others in the order of their names;
    properties of one name keep their order. *)
Theorem C70_order : forall ctx fl c text, card_ok ctx fl c -> card_generate fl c = Some (Ok text) ->
  exists ps ls, lines_in text = lit "BEGIN:VCARD" :: ls ++ [lit "END:VCARD"] /\ Forall2 (fun p l => cprop_line fl p = Ok l) ps ls /\
    (forall name, of_name name ps = card_get name c) /\ StronglySorted vcard_before ps.
Proof. exact card_lines_order. Qed.
Print Assumptions C70_order.
Example C70_order_ex : card_ok default_ctx fl0 cardA /\ exists text, card_generate fl0 cardA = Some (Ok text) /\
  map fst cardA = [lit "N"; lit "VERSION"; lit "REV"; lit "ORG"; lit "NICKNAME"] /\ nth 1 (lines_in text) [] = lit "VERSION:3.0" /\
  nth 3 (lines_in text) [] = lit "Nickname:Kimmie,K\;S".
Proof. split; [exact cardA_ok|]. eexists. split; [vm_compute; reflexivity|]. repeat split; vm_compute; reflexivity. Qed.

(** The texts of several cards one after the other are read as these cards. *)
Theorem C70_cards : forall ctx fl cs, Forall (card_ok ctx fl) cs ->
  exists texts ds, Forall2 (fun c t => card_generate fl c = Some (Ok t)) cs texts /\
    cards_parse ctx fl (List.concat texts) = Some (Ok ds) /\ Forall2 same_card cs ds.
Proof. exact cards_round. Qed.
Print Assumptions C70_cards.
Example C70_cards_ex : Forall (card_ok default_ctx fl0) [cardA; cardB] /\
  exists c d, cards_parse default_ctx fl0 (textA ++ textB) = Some (Ok [c; d]) /\ card_get (lit "ORG") c = [org0] /\ card_get (lit "ORG") d = [org0; org0].
Proof.
  split; [constructor; [exact cardA_ok|constructor; [exact cardB_ok|constructor]]|].
  do 2 eexists. split; [vm_compute; reflexivity|]. split; vm_compute; reflexivity.
Qed.

(** What parseMultipleTextData accepts: cards with a VERSION each that is 3.0, of lines that are properties; each result has the properties
    of one card, in their order. *)
Theorem C70_accepted : forall ctx fl text,
  (forall cs, cards_parse ctx fl text = Some (Ok cs) ->
     exists ls, cards_in ctx fl (lines_in text) ls /\ Forall has_version ls /\ Forall2 holds cs ls) /\
  (forall ls, cards_in ctx fl (lines_in text) ls -> Forall has_version ls ->
     exists cs, cards_parse ctx fl text = Some (Ok cs) /\ Forall2 holds cs ls).
Proof. exact cards_accepted. Qed.
Print Assumptions C70_accepted.
(** A blank line between two cards; and a card of another version after a good one. *)
Example C70_accepted_ex :
  (exists cs, cards_parse default_ctx fl0 (textB ++ [CR; LF] ++ textA) = Some (Ok cs) /\ List.length cs = 2%nat) /\
  cards_parse default_ctx fl0 (textB ++ crlines [lit "BEGIN:VCARD"; lit "VERSION:4.0"; lit "END:VCARD"]) = Some (Raise InvalidData) /\
  cards_parse default_ctx fl0 (textB ++ crlines [lit "BEGIN:VCARD"; lit "FN:Kim"; lit "END:VCARD"]) = Some (Raise InvalidData).
Proof. split; [eexists; split; vm_compute; reflexivity|]. split; vm_compute; reflexivity. Qed.

(** What parseText accepts: any number of cards; the result has the properties of all of them, and one VERSION is enough. *)
Theorem C70_single : forall ctx fl text,
  (forall oc, card_parse ctx fl text = Some (Ok oc) ->
     exists ls, cards_in ctx fl (lines_in text) ls /\
       match oc with None => ls = [] | Some c => ls <> [] /\ has_version (List.concat ls) /\ holds c (List.concat ls) end) /\
  (forall ls, cards_in ctx fl (lines_in text) ls -> (ls = [] -> card_parse ctx fl text = Some (Ok None)) /\
     (ls <> [] -> has_version (List.concat ls) -> exists c, card_parse ctx fl text = Some (Ok (Some c)) /\ holds c (List.concat ls))).
Proof. exact card_accepted. Qed.
Print Assumptions C70_single.
Example C70_single_ex : exists c, card_parse default_ctx fl0 (textB ++ crlines [lit "BEGIN:VCARD"; lit "FN:Kim"; lit "END:VCARD"]) = Some (Ok (Some c)) /\
  List.length (card_get (lit "ORG") c) = 2%nat /\ List.length (card_get (lit "FN") c) = 1%nat.
Proof. eexists. split; [vm_compute; reflexivity|]. split; vm_compute; reflexivity. Qed.

(** Texts that are not accepted are reported with one of the two errors of the library, if reading ends. *)
Theorem C70_errors : forall ctx fl text e,
  (cards_parse ctx fl text = Some (Raise e) -> e = InvalidData \/ e = InvalidProperty) /\
  (card_parse ctx fl text = Some (Raise e) -> e = InvalidData \/ e = InvalidProperty).
Proof. intros. split; [apply cards_error|apply card_error]. Qed.
Print Assumptions C70_errors.
Example C70_errors_ex :
  cards_parse default_ctx fl0 (crlines [lit "BEGIN:VCARD"; lit "VERSION:3.0"; lit "BDAY:x"; lit "END:VCARD"]) = Some (Raise InvalidProperty) /\
  card_parse default_ctx fl0 (crlines [lit "BEGIN:VCARD"; lit "VERSION:3.0"; lit "GEO:1"; lit "END:VCARD"]) = Some (Raise InvalidProperty) /\
  card_parse default_ctx fl0 (crlines [lit "BEGIN:VCARD"; lit "VERSION:3.0"]) = Some (Raise InvalidData).
Proof. repeat split; vm_compute; reflexivity. Qed.

(** A name has five parts and an address seven, also when the text has fewer, and when it has more if those are cut off. *)
Theorem C70_parts : forall ctx fl s l,
  (citem_parse ctx fl CT_N s = Ok (CName l) -> (5 <= List.length l)%nat /\ (cuts ctx -> List.length l = 5%nat)) /\
  (citem_parse ctx fl CT_ADR s = Ok (CAdr l) -> (7 <= List.length l)%nat /\ (cuts ctx -> List.length l = 7%nat)).
Proof. exact parts_length. Qed.
Print Assumptions C70_parts.
Example C70_parts_ex :
  citem_parse default_ctx fl0 CT_N (Some (lit "Smith;Kim")) = Ok (CName [NStr (lit "Smith"); NStr (lit "Kim"); NStr []; NStr []; NStr []]) /\
  cuts default_ctx /\
  citem_parse default_ctx fl0 CT_N (Some (lit "a;b;c;d;e;f")) = Ok (CName (map (fun c => NStr [c]) (lit "abcde"))).
Proof. split; [vm_compute; reflexivity|]. split; [left; reflexivity|vm_compute; reflexivity]. Qed.

(** The full name has the words of prefix, given name, middle name, surname and suffix, in this order; and if these have no blanks too many then
    it has none. *)
Theorem C70_full_name : forall l last first middle prefix suffix rest, l = last :: first :: middle :: prefix :: suffix :: rest ->
  exists s, getFullName l = Ok s /\ words s = flat_map part_words [prefix; first; middle; last; suffix] /\
    (Forall part_tidy [prefix; first; middle; last; suffix] -> s = [] \/ tidy s).
Proof. exact full_name. Qed.
Print Assumptions C70_full_name.
Example C70_full_name_ex :
  getFullName [NStr (lit "van Gogh"); NStr (lit "Kim"); NTup [lit "A."; lit "B."]; NStr []; NTup [lit "Jr."]] = Ok (lit "Kim A. B. van Gogh Jr.") /\
  Forall part_tidy [NStr []; NStr (lit "Kim"); NTup [lit "A."; lit "B."]; NStr (lit "van Gogh"); NTup [lit "Jr."]].
Proof.
  split; [vm_compute; reflexivity|].
  repeat apply Forall_cons; try apply Forall_nil; cbn [part_tidy]; try (left; reflexivity); try right; repeat apply Forall_cons; try apply Forall_nil;
    (split; [discriminate|vm_compute; reflexivity]).
Qed.

(** The duplicate of a property that was read is equal to it: same group, name, parameters and value. *)
Theorem C70_duplicate : forall ctx fl text p, cuts ctx -> cprop_parse ctx fl text = Some (Ok p) -> cprop_duplicate p = Ok p.
Proof. exact prop_duplicate. Qed.
Print Assumptions C70_duplicate.
Example C70_duplicate_ex : exists p, cprop_parse default_ctx fl0 (lit "item1.ADR;TYPE=home:;;1 Main St;Town;;;UK;x") = Some (Ok p) /\
  cprop_duplicate p = Ok p /\ cpGroup p = Some (lit "item1").
Proof. eexists. split; [vm_compute; reflexivity|]. split; vm_compute; reflexivity. Qed.

(** A name with a sixth part, under a policy that lets it pass, cannot be duplicated. *)
Theorem C70_duplicate_refuted : exists ctx text p, cprop_parse ctx fl0 text = Some (Ok p) /\ cprop_duplicate p = Raise TypeError.
Proof. exists allow_ctx, (lit "N:a;b;c;d;e;f"). eexists. split; vm_compute; reflexivity. Qed.
Print Assumptions C70_duplicate_refuted.

(** A UTC offset is written without the colon that reading wants. *)
Theorem C70_offset_refuted : exists p q text, cprop_parse default_ctx fl0 (lit "TZ:-05:00") = Some (Ok p) /\
  cmake 0 None (lit "TZ") (GOffset (-18000)) = Ok q /\ cpValue p = cpValue q /\ cprop_line fl0 p = Ok text /\
  text = lit "TZ:-0500" /\ cprop_parse default_ctx fl0 text = Some (Raise InvalidProperty).
Proof. do 3 eexists. split; [vm_compute; reflexivity|]. split; [vm_compute; reflexivity|]. split; [reflexivity|]. split; [vm_compute; reflexivity|]. split; vm_compute; reflexivity. Qed.
Print Assumptions C70_offset_refuted.

(** The text of a new card, to which a name was added, is rejected: VERSION and PRODID were taken for groups. *)
Theorem C70_default_refuted : exists text,
  card_generate fl0 (card_addProperty org0 card_default) = Some (Ok text) /\
  text = crlines [lit "BEGIN:VCARD"; lit "PRODID.-//calendarserver.org//PyCalendar v1//EN:"; lit "VERSION.3.0:"; lit "ORG:Acme\, Inc.;R\;D"; lit "END:VCARD"] /\
  card_parse default_ctx fl0 text = Some (Raise InvalidData).
Proof. eexists. split; [vm_compute; reflexivity|]. split; vm_compute; reflexivity. Qed.
Print Assumptions C70_default_refuted.

(** Properties that differ in their group are equal. *)
Theorem C70_group_refuted : exists p q tzo, cpGroup p <> cpGroup q /\ cprop_line fl0 p <> cprop_line fl0 q /\ cprop_eq tzo fl0 p q = Ok true.
Proof.
  exists (mkCProp (Some (lit "item1")) (lit "TEL") [] (Some (CSingle (CItem (VText (lit "1")))))),
         (mkCProp (Some (lit "item2")) (lit "TEL") [] (Some (CSingle (CItem (VText (lit "1")))))), PropComponent.tz_none.
  split; [discriminate|]. split; [vm_compute; discriminate|vm_compute; reflexivity].
Qed.
Print Assumptions C70_group_refuted.

(** A property made with a list of texts fails, except for ORG; and a name made with a text is written with its semicolons escaped. *)
Theorem C70_make_refuted :
  cmake 0 None (lit "NICKNAME") (GList [lit "a"; lit "b"]) = Raise AttributeError /\
  exists p text q, cmake 0 None (lit "N") (GText (lit "Smith;Kim")) = Ok p /\ cprop_line fl0 p = Ok text /\ text = lit "N:Smith\;Kim" /\
    cprop_parse default_ctx fl0 text = Some (Ok q) /\ cpValue q = Some (CSingle (CName [NStr (lit "Smith;Kim"); NStr []; NStr []; NStr []; NStr []])).
Proof.
  split; [vm_compute; reflexivity|]. do 3 eexists. split; [vm_compute; reflexivity|]. split; [vm_compute; reflexivity|]. split; [reflexivity|].
  split; vm_compute; reflexivity.
Qed.
Print Assumptions C70_make_refuted.

(** A card inside a card is taken for a property of it, and the END of the inner card ends the outer one. *)
Theorem C70_nested_refuted : exists c, 
  card_parse default_ctx fl0 (crlines [lit "BEGIN:VCARD"; lit "VERSION:3.0"; lit "BEGIN:VCARD"; lit "FN:Kim"; lit "END:VCARD"]) = Some (Ok (Some c)) /\
  card_has (lit "BEGIN") c = true.
Proof. eexists. split; vm_compute; reflexivity. Qed.
Print Assumptions C70_nested_refuted.

(** Reading does not end for some texts, whatever the policies are. *)
Theorem C70_ends_refuted : exists text, forall ctx fl, cards_parse ctx fl text = None /\ card_parse ctx fl text = None.
Proof.
  exists (crlines [lit "BEGIN:VCARD"; lit "X;P=" ++ DQUOTE :: lit "a" ++ DQUOTE :: lit "b:c"]). intros ctx fl.
  assert (H : cprop_parse ctx fl (lit "X;P=" ++ DQUOTE :: lit "a" ++ DQUOTE :: lit "b:c") = None) by (unfold cprop_parse; rewrite LineProofs.vcard_loops; reflexivity).
  unfold cards_parse, card_parse.
  match goal with |- context [read_lines ?n None ?t] =>
    replace (read_lines n None t) with [lit "BEGIN:VCARD"; lit "X;P=" ++ DQUOTE :: lit "a" ++ DQUOTE :: lit "b:c"] by (vm_compute; reflexivity) end.
  cbn [cards_lines card_lines]. 
  change (cards_line ctx fl (lit "BEGIN:VCARD") (false, [], [])) with (Some (Ok (true, @nil cprops, @nil (bytes * list cprop)))).
  change (card_line ctx fl (lit "BEGIN:VCARD") (false, false, [])) with (Some (Ok (true, true, @nil (bytes * list cprop)))). cbv iota beta.
  unfold cards_line, card_line. cbn [negb].
  match goal with |- context [beq ?a (lit "END:VCARD")] => change (beq a (lit "END:VCARD")) with false end. cbv iota.
  change (lit "X;P=" ++ DQUOTE :: lit "a" ++ DQUOTE :: lit "b:c") with ("X"%char :: lit ";P=" ++ DQUOTE :: lit "a" ++ DQUOTE :: lit "b:c") in *. cbv iota.
  rewrite H. split; reflexivity.
Qed.
Print Assumptions C70_ends_refuted.
