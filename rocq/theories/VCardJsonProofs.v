(** Proofs about the JSON form of vCards. *)
From Coq Require Import Lia ZifyBool ZifyNat.
From Verif Require Import PyBase PyProofs ParserCtx TextModel TextSpec TextProofs LineModel LineSpec LineProofs
  DateTimeModel DateTimeText DateTimeSpec2 DateTimeTextProofs PropertyModel PropertySpec PropertyProofs PropertyProofs2 PropertyProofs3
  ComponentModel ComponentProofs ComponentProofs2 JsonModel JsonSpec JsonProofs JsonProofs2 VCardModel VCardSpec VCardProofs VCardProofs2 VCardJsonModel VCardJsonSpec.
Ltac Zify.zify_post_hook ::= Z.div_mod_to_equations.

(** ** The type. *)
Definition cdflt (name : bytes) : ctype := match assoc (upper name) cdefault_types with Some t => t | None => CT T_UNKNOWN end.
Definition cwith_type (name n : bytes) (ps : params) : params :=
  let value_type := match assoc (upper n) cvalue_types with Some t => t | None => CT T_UNKNOWN end in
  let default_type := match assoc (upper name) cdefault_types with Some t => t | None => CT T_UNKNOWN end in
  if ctype_eqb default_type value_type then ps else add_param (lit "VALUE") (lit "VALUE", [upper n]) ps.
Lemma ctype_eqb_refl t : ctype_eqb t t = true.
Proof. apply ctype_eqb_spec. reflexivity. Qed.
Lemma cdetermine_json name n ps : ~ In (lit "VALUE") (map fst ps) ->
  cdetermine name (cwith_type name n ps) =
  Ok (let t := match assoc (upper n) cvalue_types with Some t => t | None => cdflt name end in
      match assoc (upper name) cspecials with Some s => if ctype_eqb t (cdflt name) then s else t | None => t end).
Proof.
  intro N. unfold cwith_type, cdetermine. cbv zeta. fold (cdflt name).
  destruct (ctype_eqb (cdflt name) _) eqn:E.
  - apply ctype_eqb_spec in E. rewrite (assoc_out _ _ N). cbn [rbind]. destruct (assoc (upper n) cvalue_types) as [t|]; [subst t|]; reflexivity.
  - rewrite add_new by exact N. rewrite assoc_app, (assoc_out _ _ N). cbn [assoc]. rewrite beq_refl. reflexivity.
Qed.
Lemma lookup_cwith name n ps k : k <> lit "VALUE" -> lookup k (cwith_type name n ps) = lookup k ps.
Proof.
  intro H. unfold cwith_type. cbv zeta. destruct (ctype_eqb _ _); [reflexivity|]. clear - H. induction ps as [|[k' l] ps IH]; cbn [add_param lookup].
  - destruct (beq_case (lit "VALUE") k) as [[E _]|[_ ->]]; [congruence|reflexivity].
  - destruct (beq_case k' (lit "VALUE")) as [[-> E]|[_ E]]; rewrite ?E; cbn [lookup].
    + destruct (beq_case (lit "VALUE") k) as [[E' _]|[_ ->]]; [congruence|reflexivity].
    + rewrite IH. reflexivity.
Qed.

Definition text_types : list ctype := [CT T_BINARY; CT T_DATE; CT T_DATETIME; CT T_FLOAT; CT T_GEO; CT T_INTEGER; CT T_TEXT; CT T_URI; CT T_UTC_OFFSET; CT T_UNKNOWN].
Lemma known_name t : In t text_types -> exists n, ctype_json t = Ok (JText n) /\ is_ascii n = true.
Proof. intro I. cbn [text_types In] in I. repeat (destruct I as [<-|I]; [eexists; split; reflexivity|]). contradiction. Qed.
Lemma single_type i : citem_json_ok i -> citem_type i <> CT T_CALADDRESS -> In (citem_type i) text_types.
Proof.
  intros H C. destruct i as [i|l|l|l]; try contradiction. destruct i as [s|[] s|s|n|n|x|a b|d|d|p|r|l]; try contradiction; cbn in *; try tauto; try congruence.
  destruct (mDateOnly d); tauto.
Qed.
Ltac no_special E := rewrite <- E in *; cbn in *.
Lemma single_back name i n : vcard_json_type name (CSingle i) -> citem_json_ok i -> ctype_json (citem_type i) = Ok (JText n) ->
  forall t, t = (let t := match assoc (upper n) cvalue_types with Some t => t | None => cdflt name end in
      match assoc (upper name) cspecials with Some s => if ctype_eqb t (cdflt name) then s else t | None => t end) ->
  vcard_made t i /\ (t = CT_VCARD \/ t = citem_type i).
Proof.
  intros (_ & Hc & Hg & Hf & Ht & Ho & Hu) K J t ->. pose proof (single_type i K Hc) as I.
  assert (M : forall u, u = citem_type i -> vcard_made u i).
  { intros u ->. destruct i as [i| | |]; try contradiction K. exact (made_by_type i). }
  assert (A : forall u n, ctype_json u = Ok (JText n) -> In u text_types -> u <> CT T_GEO -> u <> CT T_UNKNOWN -> u <> CT T_UTC_OFFSET -> assoc (upper n) cvalue_types = Some u).
  { intros u m Y I' N1 N2 N3. cbn [text_types In] in I'. repeat (destruct I' as [<-|I']; [injection Y as <-; (reflexivity || congruence)|]). contradiction. }
  set (u := citem_type i) in *. cbv zeta.
  assert (S : forall u', In u' text_types -> u' <> CT T_GEO -> (u' = CT T_FLOAT -> upper name <> lit "GEO") -> (u' = CT T_TEXT -> ~ In (upper name) [lit "N"; lit "ADR"; lit "ORG"]) ->
    match assoc (upper name) cspecials with Some s => if ctype_eqb u' (cdflt name) then s else u' | None => u' end = u').
  { intros u' I' G1 G2 G3. rewrite cspecials_assoc. unfold cdflt.
    destruct (beq_case (lit "ADR") (upper name)) as [[E ->]|[_ ->]].
    { rewrite <- E in *. change (assoc (lit "ADR") cdefault_types) with (Some (CT T_TEXT)). destruct (ctype_eqb u' (CT T_TEXT)) eqn:Y; [|reflexivity]. apply ctype_eqb_spec in Y. destruct (G3 Y). cbn; tauto. }
    destruct (beq_case (lit "GEO") (upper name)) as [[E ->]|[_ ->]].
    { rewrite <- E in *. change (assoc (lit "GEO") cdefault_types) with (Some (CT T_FLOAT)). destruct (ctype_eqb u' (CT T_FLOAT)) eqn:Y; [|reflexivity]. apply ctype_eqb_spec in Y. destruct (G2 Y). reflexivity. }
    destruct (beq_case (lit "N") (upper name)) as [[E ->]|[_ ->]].
    { rewrite <- E in *. change (assoc (lit "N") cdefault_types) with (Some (CT T_TEXT)). destruct (ctype_eqb u' (CT T_TEXT)) eqn:Y; [|reflexivity]. apply ctype_eqb_spec in Y. destruct (G3 Y). cbn; tauto. }
    destruct (beq_case (lit "ORG") (upper name)) as [[E ->]|[_ ->]]; [|reflexivity].
    rewrite <- E in *. change (assoc (lit "ORG") cdefault_types) with (Some (CT T_TEXT)). destruct (ctype_eqb u' (CT T_TEXT)) eqn:Y; [|reflexivity]. apply ctype_eqb_spec in Y. destruct (G3 Y). cbn; tauto. }
  destruct (ctype_eqb u (CT T_GEO)) eqn:Yg; [apply ctype_eqb_spec in Yg|].
  { rewrite Yg in J. injection J as <-. unfold cdflt. rewrite (Hg Yg). change (CT T_GEO) with (CT T_GEO).
    change (assoc (upper (lit "float")) cvalue_types) with (Some (CT T_FLOAT)). cbn [cdefault_types]. change (assoc (lit "GEO") cspecials) with (Some (CT T_GEO)).
    change (match assoc (lit "GEO") cdefault_types with Some t => t | None => CT T_UNKNOWN end) with (CT T_FLOAT). cbv beta iota. cbn [ctype_eqb veqb]. split; [apply M; symmetry; exact Yg|right; symmetry; exact Yg]. }
  assert (Ng : u <> CT T_GEO) by (intro E; rewrite E in Yg; discriminate Yg).
  destruct (ctype_eqb u (CT T_UTC_OFFSET)) eqn:Yo; [apply ctype_eqb_spec in Yo|].
  { rewrite Yo in J. injection J as <-. change (assoc (upper (lit "utc-offset")) cvalue_types) with (@None ctype). cbv iota.
    assert (cdflt name = CT T_UTC_OFFSET) as -> by (unfold cdflt; rewrite (Ho Yo); reflexivity). rewrite (Ho Yo). change (assoc (lit "TZ") cspecials) with (@None ctype).
    split; [apply M; symmetry; exact Yo|right; symmetry; exact Yo]. }
  assert (No : u <> CT T_UTC_OFFSET) by (intro E; rewrite E in Yo; discriminate Yo).
  destruct (ctype_eqb u (CT T_UNKNOWN)) eqn:Yu; [apply ctype_eqb_spec in Yu|].
  { rewrite Yu in J. injection J as <-. change (assoc (upper (lit "unknown")) cvalue_types) with (@None ctype). cbv iota.
    assert (Du : cdflt name = CT_VCARD \/ cdflt name = CT T_UNKNOWN).
    { unfold cdflt. destruct (assoc (upper name) cdefault_types) as [t|] eqn:E; [|right; reflexivity]. left. apply (Hu Yu). apply cdefault_spec. exact E. }
    assert (Sp : assoc (upper name) cspecials = None).
    { rewrite cspecials_assoc. unfold cdflt in Du.
      destruct (beq_case (lit "ADR") (upper name)) as [[E _]|[_ ->]]; [rewrite <- E in Du; destruct Du as [Du|Du]; discriminate Du|].
      destruct (beq_case (lit "GEO") (upper name)) as [[E _]|[_ ->]]; [rewrite <- E in Du; destruct Du as [Du|Du]; discriminate Du|].
      destruct (beq_case (lit "N") (upper name)) as [[E _]|[_ ->]]; [rewrite <- E in Du; destruct Du as [Du|Du]; discriminate Du|].
      destruct (beq_case (lit "ORG") (upper name)) as [[E _]|[_ ->]]; [rewrite <- E in Du; destruct Du as [Du|Du]; discriminate Du|reflexivity]. }
    rewrite Sp. destruct Du as [-> | ->]; [|split; [apply M; symmetry; exact Yu|right; symmetry; exact Yu]]. split; [|left; reflexivity].
    unfold u in Yu. destruct i as [i| | |]; try contradiction K. destruct i as [s|[] s|s|m|m|x|a b|d|d|p|r|l]; try discriminate Yu; cbn in Yu |- *; try exact Logic.I; destruct (mDateOnly d); discriminate Yu. }
  assert (Nu : u <> CT T_UNKNOWN) by (intro E; rewrite E in Yu; discriminate Yu).
  rewrite (A u n J I Ng Nu No). cbv iota. rewrite (S u I Ng Hf Ht). split; [apply M; reflexivity|right; reflexivity].
Qed.
Lemma multi_back name t l n : vcard_json_type name (CMulti t l) -> ctype_json t = Ok (JText n) ->
  (let t := match assoc (upper n) cvalue_types with Some t => t | None => cdflt name end in
      match assoc (upper name) cspecials with Some s => if ctype_eqb t (cdflt name) then s else t | None => t end) = t.
Proof.
  intros [M I] J. cbn [vcard_lists In] in M. unfold cdflt. assert (assoc (upper name) cspecials = None) as -> by (destruct M as [<-|[<-|[]]]; reflexivity). cbv zeta.
  cbn [In] in I. repeat (destruct I as [<-|I]; [injection J as <-; reflexivity|]). contradiction.
Qed.

(** ** Values. *)
Lemma vcard_xml_read ctx d : printable d -> vcard_when d -> exists e, dt_parseText ctx true (getXMLText d) = Ok e /\ same_when d e.
Proof.
  intros P Z. exists (said d). split.
  - apply xml_round_trip; [assumption|]. intros E U. destruct Z as [Z|[Z|(_ & n & Z & O)]]; [congruence|rewrite Z; exact Logic.I|rewrite Z; auto].
  - unfold same_when, said. destruct (mDateOnly d) eqn:E.
    + cbn; repeat split; congruence.
    + split; [reflexivity|]. split; [cbn; reflexivity|]. intros _. cbn. split; [reflexivity|]. split; [reflexivity|].
      destruct Z as [Z|[Z|(U & n & Z & O)]]; [congruence|rewrite Z; destruct (mTZUTC d); reflexivity|rewrite Z, U; reflexivity].
Qed.
Section Read.
Variables (ctx : pctx) (fl : floats) (nm : jnums).
Lemma citem_back t i : vcard_made t i -> citem_json_ok i -> exists j, citem_json i = Ok j /\ forall k, reordered j k ->
  exists i', citem_parseJSON ctx fl nm t k = Ok i' /\ same_citem i i' /\ citem_type i' = citem_type i.
Proof.
  intros M K. destruct i as [i|l|l|l]; try contradiction K. cbn [citem_json].
  destruct t as [t| | | |]; try contradiction M.
  - cbn [vcard_made] in M. destruct i as [s|p s|s|n|n|x|a b|d|d|p|r|l];       try (exfalso; exact K);
      try (match type of M with made_by ?t ?i => destruct (item_json_read ctx fl nm None t i M K) as (j & J & R); [auto|]; exists j; split; [exact J|]; intros k Q;
             destruct (R k Q) as (i' & P & S & Y); exists (CItem i'); cbn [citem_parseJSON]; rewrite P; cbn [rbind];
             assert (Z : app_zone t None i' = i') by (destruct t; reflexivity); rewrite Z in S, Y;
             split; [reflexivity|]; split; [exact S|cbn [citem_type]; rewrite Y; reflexivity] end).
    destruct K as [P W]. destruct (vcard_xml_read ctx d P W) as (e & E & S). exists (JText (getXMLText d)). split; [reflexivity|]. intros k Q.
    apply re_scalar in Q; [subst|exact Logic.I]. exists (CItem (VDateTime e)).
    assert (P' : citem_parseJSON ctx fl nm (CT t) (JText (getXMLText d)) = Ok (CItem (VDateTime e))).
    { destruct t; try contradiction M; cbn [citem_parseJSON item_parseJSON jstr]; rewrite ascii_xml; cbn [rbind]; rewrite E; reflexivity. }
    split; [exact P'|]. split; [exact S|]. cbn. destruct S as (_ & -> & _). reflexivity.
  - destruct i as [s|[] s|s|n|n|x|a b|d|d|p|r|l]; try contradiction M. cbn in K. destruct s as [s|]; [|congruence]. exists (JText s). split; [reflexivity|].
    intros k Q. apply re_scalar in Q; [subst|exact Logic.I]. exists (CItem (VPlain PUnknown (Some s))). split; [reflexivity|]. split; reflexivity.
Qed.
Lemma citems_back t l : Forall (fun i => vcard_made t i /\ citem_json_ok i) l -> exists js, map_r citem_json l = Ok js /\ forall ks, Forall2 reordered js ks ->
  exists is, map_r (citem_parseJSON ctx fl nm t) ks = Ok is /\ Forall2 same_citem l is.
Proof.
  induction 1 as [|i l [M K] F (js & J & R)].
  - exists []. split; [reflexivity|]. intros ks Q. inversion Q; subst. exists []. split; [reflexivity|constructor].
  - destruct (citem_back t i M K) as (j & J1 & R1). exists (j :: js). cbn [map_r]. rewrite J1. cbn [rbind]. rewrite J. cbn [rbind]. split; [reflexivity|].
    intros ks Q. inversion Q as [|? k ? ks' Q1 Q2]; subst. destruct (R1 k Q1) as (i' & P & S & _). destruct (R ks' Q2) as (is & P' & S').
    exists (i' :: is). cbn [map_r]. rewrite P. cbn [rbind]. rewrite P'. split; [reflexivity|]. constructor; assumption.
Qed.
Lemma cis_multi_spec name : cis_multi name = true <-> In (upper name) vcard_lists.
Proof.
  unfold cis_multi. rewrite existsb_exists. split.
  - intros (x & I & E). destruct (beq_case (upper name) x) as [[-> _]|[_ E']]; [exact I|congruence].
  - intro I. exists (upper name). split; [exact I|apply beq_refl].
Qed.

(** ** A property. *)
Lemma cprop_back p : cprop_json_ok p -> exists j, cprop_writeJSON p = Ok j /\ forall k, reordered j k ->
  exists q, cprop_parseJSON ctx fl nm k = Ok q /\ same_cjson p q.
Proof.
  destruct p as [g name ps ov]. intros (Hp & v & Ev & Ht & Hv). cbn [cpGroup cpName cpParams cpValue] in *. subst ov.
  assert (Jn : exists n, ctype_json (cvalue_type v) = Ok (JText n) /\ is_ascii n = true).
  { apply known_name. destruct v as [i|t l]; [apply single_type; [exact Hv|apply Ht]|]. destruct Ht as [_ I]. cbn [cvalue_type]. cbn [In text_types] in *. tauto. }
  destruct Jn as (n & Jn & An).
  set (t := let t := match assoc (upper n) cvalue_types with Some t => t | None => cdflt (upper name) end in
      match assoc (upper (upper name)) cspecials with Some s => if ctype_eqb t (cdflt (upper name)) then s else t | None => t end).
  assert (Td : t = let t := match assoc (upper n) cvalue_types with Some t => t | None => cdflt name end in
      match assoc (upper name) cspecials with Some s => if ctype_eqb t (cdflt name) then s else t | None => t end) by (unfold t, cdflt; rewrite upper_twice; reflexivity).
  assert (V : exists js, cvalue_json v = Ok (JText n :: js) /\ forall ks, Forall2 reordered js ks ->
    exists w, (if cis_multi (upper name) then do l <- map_r (citem_parseJSON ctx fl nm t) ks; Ok (CMulti t l)
             else match ks with
                  | j :: _ => do i <- citem_parseJSON ctx fl nm t j; Ok (CSingle i)
                  | [] => Raise IndexError
                  end) = Ok w /\ cvalue_type v = cvalue_type w /\ same_cvalue v w).
  { unfold cvalue_json. rewrite Jn. cbn [rbind]. destruct v as [i|t0 l].
    - assert (cis_multi (upper name) = false) as -> by (destruct (cis_multi _) eqn:E; [apply cis_multi_spec in E; rewrite upper_twice in E; destruct Ht as [Ht _]; contradiction|reflexivity]).
      destruct (single_back name i n Ht Hv Jn t Td) as [M _]. destruct (citem_back t i M Hv) as (j & J & R). rewrite J. cbn [rbind]. exists [j]. split; [reflexivity|].
      intros ks Q. inversion Q as [|? k ? ks' Q1 Q2]; subst. destruct (R k Q1) as (i' & P & S & Y). rewrite P. cbn [rbind]. exists (CSingle i'). split; [reflexivity|].
      split; [symmetry; exact Y|exact S].
    - assert (cis_multi (upper name) = true) as -> by (apply cis_multi_spec; rewrite upper_twice; apply Ht).
      assert (Et : t = t0) by (rewrite Td; exact (multi_back name t0 l n Ht Jn)). rewrite Et.
      destruct (citems_back t0 l Hv) as (js & J & R). rewrite J. cbn [rbind]. exists js. split; [reflexivity|].
      intros ks Q. destruct (R ks Q) as (is & P & S). rewrite P. cbn [rbind]. exists (CMulti t0 is). split; [reflexivity|]. split; [reflexivity|]. split; [reflexivity|exact S]. }
  destruct V as (js & V & R). unfold cprop_writeJSON. cbn [cpName cpParams cpValue]. rewrite V. cbn [rbind].
  eexists. split; [reflexivity|]. intros k Q. inversion Q as [| | | | |l m Q'|]; subst. clear Q.
  inversion Q' as [|? k1 ? m1 Q1 Q2]; subst. inversion Q2 as [|? k2 ? m2 Q3 Q4]; subst. inversion Q4 as [|? k3 ? ks Q5 Q6]; subst. clear Q' Q2 Q4.
  apply re_scalar in Q1; [subst|exact Logic.I]. apply re_scalar in Q5; [subst|exact Logic.I].
  destruct (params_read nm ps k2 Hp Q3) as (qs & P1 & P2 & P3 & P4). destruct (R ks Q6) as (w & P5 & P6 & P7).
  exists (mkCProp None (upper name) (cwith_type (upper name) n qs) (Some w)). split.
  - unfold cprop_parseJSON, cprop_read. cbn [jencode rbind]. rewrite P1. cbn [rbind]. unfold uupper. rewrite An. cbn [rbind]. rewrite upper_of_lower.
    cbv zeta. fold (cwith_type (upper name) n qs). rewrite (cdetermine_json _ _ _ P3). fold t. cbn [rbind]. rewrite P5. reflexivity.
  - split; [reflexivity|]. split; [reflexivity|]. cbn [cpName cpParams cpValue]. split; [|split; assumption].
    intros key Hk. rewrite lookup_cwith by assumption. apply P4; assumption.
Qed.

(** ** Cards. *)
Lemma fold_cprops l qs : Forall2 (fun j q => cprop_parseJSON ctx fl nm j = Ok q) l qs -> forall ps,
  fold_left (fun r j => do ps <- r; do p <- cprop_parseJSON ctx fl nm j; Ok (card_addProperty p ps)) l (Ok ps) = Ok (fold_left cput qs ps).
Proof. induction 1 as [|j q l qs E F IH]; intro ps; [reflexivity|]. cbn [fold_left rbind]. rewrite E. cbn [rbind]. apply IH. Qed.
Lemma cprops_back W : Forall cprop_json_ok W -> exists pl, map_r cprop_writeJSON W = Ok pl /\ forall pl', Forall2 reordered pl pl' ->
  exists qs, Forall2 same_cjson W qs /\ Forall2 (fun j q => cprop_parseJSON ctx fl nm j = Ok q) pl' qs.
Proof.
  induction 1 as [|p W H F (pl & E & R)].
  - exists []. split; [reflexivity|]. intros pl' Q. inversion Q; subst. exists []. split; constructor.
  - destruct (cprop_back p H) as (j & J & R1). exists (j :: pl). cbn [map_r]. rewrite J. cbn [rbind]. rewrite E. split; [reflexivity|].
    intros pl' Q. inversion Q as [|? k ? ks Q1 Q2]; subst. destruct (R1 k Q1) as (q & P & S). destruct (R ks Q2) as (qs & S' & P'). exists (q :: qs). split; constructor; assumption.
Qed.
Lemma same_of_name_json name ls qs : Forall2 same_cjson ls qs -> Forall2 same_cjson (of_name name ls) (of_name name qs).
Proof.
  unfold of_name. induction 1 as [|p q ls qs J F IH]; [constructor|]. cbn [filter].
  assert (En : cpName q = upper (cpName p)) by apply J. rewrite En, upper_twice. destruct (beq _ name); [constructor; assumption|assumption].
Qed.
Lemma card_json_back c : card_json_ok c -> exists j, card_writeJSON c = Ok j /\ forall j', reordered j j' ->
  exists d, card_parseJSON ctx fl nm j' = Ok d /\ same_card_json c d.
Proof.
  intros [N F]. assert (U : forall k l p, In (k, l) c -> In p l -> upper (cpName p) = k /\ cprop_json_ok p).
  { intros k l p I J. rewrite Forall_forall in F. specialize (F _ I). cbn [fst snd] in F. rewrite Forall_forall in F. exact (F p J). }
  assert (G : Forall cprop_json_ok (card_written c)).
  { apply Forall_forall. intros p I. destruct (cwritten_in c p I) as (key & l & I1 & I2). apply (U _ _ _ I1 I2). }
  destruct (cprops_back _ G) as (pl & E & R). unfold card_writeJSON. rewrite E. cbn [rbind]. eexists. split; [reflexivity|]. intros j' Q.
  inversion Q as [| | | | |l m Q'|]; subst. clear Q. inversion Q' as [|? k1 ? m1 Q1 Q2]; subst. inversion Q2 as [|? k2 ? m2 Q3 Q4]; subst. inversion Q4 as [|? k3 ? m3 Q5 Q6]; subst.
  inversion Q6; subst. inversion Q5 as [| | | | |l m Q7|]; subst. inversion Q7; subst. inversion Q3 as [| | | | |l m Q8|]; subst.
  destruct (R m Q8) as (qs & S & P). exists (fold_left cput qs []). split.
  - unfold card_parseJSON, card_props. cbn [elements rbind]. rewrite (fold_cprops _ _ P). reflexivity.
  - intro name. rewrite cget_puts. cbn [card_get assoc app]. rewrite <- (cwritten_filter c N (fun k l p I J => proj1 (U k l p I J))). apply same_of_name_json. exact S.
Qed.
Lemma cards_json_back cs : Forall card_json_ok cs -> exists js, Forall2 (fun c j => card_writeJSON c = Ok j) cs js /\ forall j', reordered (JArr js) j' ->
  exists ds, cards_parseJSON ctx fl nm j' = Ok ds /\ Forall2 same_card_json cs ds.
Proof.
  intro F. assert (H : exists js, Forall2 (fun c j => card_writeJSON c = Ok j) cs js /\ forall ks, Forall2 reordered js ks ->
    exists ds, map_r (card_parseJSON ctx fl nm) ks = Ok ds /\ Forall2 same_card_json cs ds).
  { induction F as [|c cs H F (js & W & R)].
    - exists []. split; [constructor|]. intros ks Q. inversion Q; subst. exists []. split; [reflexivity|constructor].
    - destruct (card_json_back c H) as (j & J & R1). exists (j :: js). split; [constructor; assumption|]. intros ks Q. inversion Q as [|? k ? ks' Q1 Q2]; subst.
      destruct (R1 k Q1) as (d & P & S). destruct (R ks' Q2) as (ds & P' & S'). exists (d :: ds). cbn [map_r]. rewrite P. cbn [rbind]. rewrite P'. split; [reflexivity|constructor; assumption]. }
  destruct H as (js & W & R). exists js. split; [exact W|]. intros j' Q. inversion Q as [| | | | |l m Q'|]; subst. destruct (R m Q') as (ds & P & S). exists ds. split; [exact P|exact S].
Qed.
End Read.
