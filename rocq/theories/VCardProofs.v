(** Proofs about vCards: one property. *)
From Coq Require Import Lia ZifyBool ZifyNat.
From Verif Require Import PyBase PyProofs ParserCtx TextModel TextSpec TextProofs LineModel LineSpec LineProofs
  DateTimeModel DateTimeText DateTimeSpec2 DateTimeTextProofs RecurModel RecurTextProofs PropertyModel PropertySpec PropertyProofs PropertyProofs2 PropertyProofs3
  ComponentModel ComponentSpec ComponentProofs ComponentProofs2 VCardModel VCardSpec.
Ltac Zify.zify_post_hook ::= Z.div_mod_to_equations.

(** ** The VALUE parameter. *)
Definition cvname (name : bytes) (v : cvalue) : option bytes :=
  let dflt := assoc (upper name) cdefault_types in
  let actual := match assoc (upper name) cspecials with Some _ => dflt | None => Some (cvalue_type v) end in
  if match dflt, actual with Some d, Some a => negb (ctype_eqb d a) | None, _ => true | Some _, None => true end then
    match actual with
    | Some a => match ctype_name a with
                | Some n => if match dflt with Some _ => true | None => negb (ctype_eqb a (CT T_TEXT)) end then Some n else None
                | None => None
                end
    | None => None
    end
  else None.
Lemma csetup_eq name ps v : csetup name ps (Some v) =
  del_param (lit "VALUE") ps ++ match cvname name v with Some n => [(lit "VALUE", [(lit "VALUE", [n])])] | None => [] end.
Proof.
  unfold csetup, cvname. cbv zeta.
  assert (H : forall p, add_param (lit "VALUE") p (del_param (lit "VALUE") ps) = del_param (lit "VALUE") ps ++ [(lit "VALUE", [p])])
    by (intro p; apply add_absent, assoc_del).
  repeat match goal with
  | |- context [if ?b then _ else _] => destruct b
  | |- context [match ?b with Some _ => _ | None => _ end] => destruct b
  end; rewrite ?app_nil_r; try reflexivity; apply H.
Qed.
Lemma ctype_eqb_spec a b : ctype_eqb a b = true <-> a = b.
Proof.
  destruct a, b; cbn; split; try congruence.
  - intro H. apply veqb_spec in H. congruence.
  - intros [= ->]. apply veqb_spec. reflexivity.
Qed.
Lemma ctype_name_back a n : ctype_name a = Some n -> a <> CT T_GEO -> a <> CT_ADR -> a <> CT_N -> a <> CT_ORG -> assoc n cvalue_types = Some a.
Proof. destruct a as [[]| | | |]; cbn [ctype_name]; intros [= <-]; try congruence; reflexivity. Qed.

Lemma cvalue_read name ps v : NoDup (map fst ps) ->
  assoc (lit "VALUE") (sorted_params (csetup name ps (Some v))) = option_map (fun n => [(lit "VALUE", [n])]) (cvname name v).
Proof.
  intros Hn. rewrite csetup_eq.
  rewrite assoc_sorted.
  - rewrite assoc_app, assoc_del. destruct (cvname name v); reflexivity.
  - rewrite map_app. destruct (cvname name v); cbn [map fst].
    + eapply Permutation_NoDup; [apply Permutation_cons_append|]. constructor; [|apply del_NoDup; assumption].
      intro H. apply del_keys in H. tauto.
    + rewrite app_nil_r. apply del_NoDup; assumption.
Qed.
Lemma cspecials_assoc n : assoc n cspecials =
  if beq (lit "ADR") n then Some CT_ADR else if beq (lit "GEO") n then Some (CT T_GEO) else
  if beq (lit "N") n then Some CT_N else if beq (lit "ORG") n then Some CT_ORG else None.
Proof. reflexivity. Qed.

Lemma cdefault_spec k t : assoc k cdefault_types = Some t <-> In k (vcard_names t).
Proof.
  split.
  - intro H. apply assoc_some in H.
    assert (F : Forall (fun e => existsb (beq (fst e)) (vcard_names (snd e)) = true) cdefault_types)
      by (unfold cdefault_types; repeat (constructor; [reflexivity|]); constructor).
    rewrite Forall_forall in F. specialize (F _ H). cbn [fst snd] in F. apply existsb_exists in F. destruct F as (x & I & E).
    destruct (beq_case k x) as [[-> _]|[_ E']]; [assumption|congruence].
  - intro I. assert (F : Forall (fun k => assoc k cdefault_types = Some t) (vcard_names t)).
    { destruct t as [[]| | | |]; cbn [vcard_names]; repeat (constructor; [reflexivity|]); constructor. }
    rewrite Forall_forall in F. auto.
Qed.
Lemma cdefault_none k : assoc k cdefault_types = None <-> forall t, ~ In k (vcard_names t).
Proof.
  split.
  - intros H t I. apply cdefault_spec in I. congruence.
  - intro H. destruct (assoc k cdefault_types) as [t|] eqn:E; [|reflexivity]. apply cdefault_spec in E. destruct (H t E).
Qed.

(** The types that can be read from a line with a VALUE parameter, or are read without one. *)
Definition plain_ctype (t : ctype) : Prop := ctype_name t <> None \/ t = CT T_UNKNOWN.

Definition read_type (v : cvalue) (t : ctype) : Prop := t = cvalue_type v \/ (cvalue_type v = CT T_UNKNOWN /\ t = CT_VCARD).
Lemma ctype_read name ps v : NoDup (map fst ps) -> vcard_type_kept name v -> plain_ctype (cvalue_type v) ->
  exists t, cdetermine name (sorted_params (csetup name ps (Some v))) = Ok t /\ read_type v t.
Proof.
  intros Hn (_ & Hg & Ha & Hna & Ho & Hd & Hu) Hpl. unfold cdetermine. cbv zeta. rewrite cvalue_read by assumption.
  unfold cvname. rewrite cspecials_assoc.
  destruct (beq_case (lit "ADR") (upper name)) as [[E ->]|[Ea ->]].
  { rewrite <- E. assert (cvalue_type v = CT_ADR) as X by (apply Ha; auto). exists CT_ADR. split; [reflexivity|left; auto]. }
  destruct (beq_case (lit "GEO") (upper name)) as [[E ->]|[Eg ->]].
  { rewrite <- E. assert (cvalue_type v = CT T_GEO) as X by (apply Hg; auto). exists (CT T_GEO). split; [reflexivity|left; auto]. }
  destruct (beq_case (lit "N") (upper name)) as [[E ->]|[En ->]].
  { rewrite <- E. assert (cvalue_type v = CT_N) as X by (apply Hna; auto). exists CT_N. split; [reflexivity|left; auto]. }
  destruct (beq_case (lit "ORG") (upper name)) as [[E ->]|[Eo ->]].
  { rewrite <- E. assert (cvalue_type v = CT_ORG) as X by (apply Ho; auto). exists CT_ORG. split; [reflexivity|left; auto]. }
  assert (Hg' : cvalue_type v <> CT T_GEO) by (intro H; apply Eg; symmetry; apply Hg; assumption).
  assert (Ha' : cvalue_type v <> CT_ADR) by (intro H; apply Ea; symmetry; apply Ha; assumption).
  assert (Hn' : cvalue_type v <> CT_N) by (intro H; apply En; symmetry; apply Hna; assumption).
  assert (Ho' : cvalue_type v <> CT_ORG) by (intro H; apply Eo; symmetry; apply Ho; assumption).
  cbv zeta.
  destruct (assoc (upper name) cdefault_types) as [d|] eqn:Ed.
  - destruct (ctype_eqb d (cvalue_type v)) eqn:Ev; cbn [negb].
    + apply ctype_eqb_spec in Ev; subst. exists (cvalue_type v). split; [reflexivity|left; auto].
    + destruct (ctype_name (cvalue_type v)) as [n|] eqn:Ety.
      * cbn [option_map first_value rbind]. rewrite (ctype_name_back _ _ Ety) by assumption. exists (cvalue_type v). split; [reflexivity|left; auto].
      * destruct Hpl as [H|H]; [congruence|]. cbn [option_map rbind]. exists d. split; [reflexivity|]. right. split; [assumption|].
        apply cdefault_spec in Ed.
        assert (K : d <> CT_VCARD -> False) by (intro K; apply (Hd (ex_intro _ d (conj K Ed))); assumption).
        destruct d; try reflexivity; exfalso; apply K; discriminate.
  - destruct (ctype_name (cvalue_type v)) as [n|] eqn:Ety.
    + destruct (ctype_eqb (cvalue_type v) (CT T_TEXT)) eqn:Et; [apply ctype_eqb_spec in Et; destruct (Hu (proj1 (cdefault_none _) Ed) Et)|].
      cbn [negb option_map first_value rbind]. rewrite (ctype_name_back _ _ Ety) by assumption. exists (cvalue_type v). split; [reflexivity|left; auto].
    + cbn [option_map rbind]. destruct Hpl as [H|H]; [congruence|]. exists (CT T_UNKNOWN). split; [reflexivity|left; auto].
Qed.

(** ** The parameters of the line. *)
Lemma ctype_name_ok n a : ctype_name a = Some n -> param_ok (lit "VALUE") (lit "VALUE", [n]).
Proof.
  intro H. unfold param_ok; cbn [fst snd]. split; [reflexivity|]. split; [split; discriminate|].
  split; [cbn; intuition discriminate|]. split; [discriminate|]. constructor; [|constructor].
  unfold value_ok, needs_quotes.
  destruct a as [[]| | | |]; cbn in H; try discriminate; injection H as <-; cbn;
    (split; [intros [?|[?|?]]; intuition discriminate|split; [discriminate|intuition discriminate]]).
Qed.
Lemma cvname_ok name v n : cvname name v = Some n -> exists a, ctype_name a = Some n.
Proof.
  unfold cvname. cbv zeta. intro H.
  destruct (assoc (upper name) cdefault_types) as [d|], (assoc (upper name) cspecials) as [sp|]; cbv beta iota in H;
    try discriminate.
  - destruct (negb (ctype_eqb d d)); [|discriminate]. destruct (ctype_name d) eqn:E; [|discriminate]. injection H as <-; eauto.
  - destruct (negb (ctype_eqb d (cvalue_type v))); [|discriminate]. destruct (ctype_name (cvalue_type v)) eqn:E; [|discriminate].
    injection H as <-; eauto.
  - destruct (ctype_name (cvalue_type v)) eqn:E; [|discriminate]. destruct (negb _); [|discriminate]. injection H as <-; eauto.
Qed.
Lemma csetup_params_ok name ps v : params_ok ps -> params_ok (csetup name ps (Some v)).
Proof.
  intros [H1 H2]. rewrite csetup_eq. split.
  - rewrite map_app. destruct (cvname name v); cbn [map fst].
    + eapply Permutation_NoDup; [apply Permutation_cons_append|]. constructor; [|apply del_NoDup; assumption].
      intro H. apply del_keys in H. tauto.
    + rewrite app_nil_r. apply del_NoDup; assumption.
  - apply Forall_app. split; [apply del_Forall; assumption|].
    destruct (cvname name v) as [n|] eqn:E; [|constructor]. constructor; [|constructor]. cbn [fst snd].
    split; [discriminate|]. constructor; [|constructor]. destruct (cvname_ok _ _ _ E) as [a Ha]. eapply ctype_name_ok; eauto.
Qed.
Definition tokens (ps : params) : Prop :=
  Forall (fun kl : bytes * list param => Forall (fun p => ~ In ":"%char (fst p) /\ ~ In ";"%char (fst p)) (snd kl)) ps.
Lemma csetup_tokens name ps v : tokens ps -> tokens (csetup name ps (Some v)).
Proof.
  intro H. rewrite csetup_eq. apply Forall_app. split; [apply del_Forall; assumption|].
  destruct (cvname name v) as [n|]; [|constructor]. constructor; [|constructor]. constructor; [|constructor].
  cbn; intuition discriminate.
Qed.
Lemma lookup_csetup name ps v k : k <> lit "VALUE" -> lookup k (csetup name ps (Some v)) = lookup k ps.
Proof.
  intros Hk. rewrite !assoc_lookup, csetup_eq, assoc_app, assoc_del_other by assumption.
  destruct (assoc k ps) as [l|]; [reflexivity|]. destruct (cvname name v); [|reflexivity]. cbn [assoc].
  destruct (beq_case (lit "VALUE") k) as [[E _]|[_ ->]]; [congruence|reflexivity].
Qed.
Lemma csetup_again name ps v w : NoDup (map fst ps) -> cvalue_type v = cvalue_type w ->
  Permutation (csetup name (sorted_params (csetup name ps (Some v))) (Some w)) (sorted_params (csetup name ps (Some v))).
Proof.
  intros Hn Ht. set (ps1 := csetup name ps (Some v)). rewrite csetup_eq.
  assert (Ev : cvname name w = cvname name v) by (unfold cvname; rewrite Ht; reflexivity). rewrite Ev.
  set (V := match cvname name v with Some n => [(lit "VALUE", [(lit "VALUE", [n])])] | None => [] end).
  assert (P : Permutation (sorted_params ps1) (map sortv (del_param (lit "VALUE") ps) ++ V)).
  { unfold sorted_params. change (fun kl : bytes * list param => (fst kl, map sorted_param (snd kl))) with sortv.
    rewrite sort_perm. unfold ps1, V. rewrite csetup_eq, map_app. destruct (cvname name v); reflexivity. }
  rewrite (del_perm _ _ _ P), P, del_app.
  rewrite (del_absent _ (map sortv _)) by (rewrite map_sortv_fst; intro H; apply del_keys in H; tauto).
  assert (E : del_param (lit "VALUE") V = []) by (unfold V; destruct (cvname name v); reflexivity). rewrite E, app_nil_r. reflexivity.
Qed.
Definition prefix (g : option bytes) : bytes := match g with Some g => match g with [] => [] | _ => g ++ lit "." end | None => [] end.
Lemma gen_line_group g name ps v : gen_line (mkLine g name ps v) = prefix g ++ gen_line (mkLine None name ps v).
Proof. reflexivity. Qed.

(** ** Values. *)
Lemma vcard_when_read ctx d : printable d -> vcard_when d -> exists e, dt_parseText ctx true (getText d) = Ok e /\ same_when d e.
Proof.
  intros P Z. exists (said d). split.
  - apply text_round_trip; [assumption|]. intros E U. destruct Z as [Z|[Z|(_ & n & Z & O)]]; [congruence|rewrite Z; exact I|rewrite Z; auto].
  - unfold same_when, said. destruct (mDateOnly d) eqn:E.
    + cbn; repeat split; congruence.
    + split; [reflexivity|]. split; [cbn; reflexivity|]. intros _. cbn. split; [reflexivity|]. split; [reflexivity|].
      destruct Z as [Z|[Z|(U & n & Z & O)]]; [congruence|rewrite Z; destruct (mTZUTC d); reflexivity|rewrite Z, U; reflexivity].
Qed.
Lemma leaves_normal l : leaves (map normal l) = leaves l.
Proof.
  unfold leaves. induction l as [|n l IH]; [reflexivity|]. cbn [map flat_map]. rewrite IH. f_equal.
  destruct n as [s|[|x [|y t]]]; reflexivity.
Qed.
Lemma write_normal n : write_element (normal n) = write_element n.
Proof. destruct n as [s|[|x [|y t]]]; cbn; rewrite ?app_nil_r; reflexivity. Qed.
Lemma double_normal l : generateDoubleNestedList (map normal l) = generateDoubleNestedList l.
Proof. unfold generateDoubleNestedList. rewrite map_map. f_equal. apply map_ext. apply write_normal. Qed.
Lemma parts_read ctx n l : parts_ok (S n) l -> parseDoubleNestedList ctx (generateDoubleNestedList l) (S n) = Ok (map normal l).
Proof.
  intros (L & F). rewrite nested_round_trip; [|intros ->; discriminate|lia|assumption].
  rewrite L, Nat.sub_diag. cbn [repeat]. rewrite app_nil_r. reflexivity.
Qed.
Lemma org_read ctx l : l <> [] -> Forall (fun x => ~ ends_with_backslash x) (but_last l) ->
  parseTextList ctx ";" (generateTextList ";" l) = Ok l.
Proof. intros H1 H2. apply list_round_trip; try assumption. left; reflexivity. Qed.

Lemma same_item_refl i : match i with VDateTime _ | VDuration _ | VPeriod _ | VRecur _ => False | _ => True end -> same_item i i.
Proof. destruct i; cbn; tauto. Qed.

Lemma citem_read ctx fl t i : vcard_made t i -> citem_ok ctx fl i ->
  exists s j, citem_generate fl i = Ok s /\ citem_parse ctx fl t (Some s) = Ok j /\ same_citem i j /\
    citem_generate fl j = Ok s /\ citem_type j = citem_type i.
Proof.
  intros M K. destruct i as [i|l|l|l].
  - destruct t as [t| | | |]; try contradiction M.
    + assert (D : (exists d, i = VDateTime d) \/ (forall d, i <> VDateTime d)) by (destruct i; eauto; right; discriminate).
      destruct D as [[d ->]|D].
      * destruct K as [P W]. destruct (vcard_when_read ctx d P W) as (e & R & S).
        exists (getText d), (CItem (VDateTime e)). split; [reflexivity|].
        split; [destruct t; try contradiction M; cbn [citem_parse]; rewrite R; reflexivity|]. split; [exact S|].
        split; [cbn [citem_generate item_generate]; rewrite (same_when_text _ _ S); reflexivity|].
        cbn. destruct S as (_ & -> & _). reflexivity.
      * assert (K' : item_ok ctx fl None i /\ (forall s, i <> VOffset s)).
        { cbn [citem_ok] in K. destruct i; try (destruct K; fail); try (split; [exact K|discriminate]).
          destruct k; [|destruct K|]; (split; [exact K|discriminate]).
          destruct (D _ eq_refl). }
        destruct K' as [K1 K2].
        destruct (item_read ctx fl None t i M K1) as (s & j & G & P & S & T & Y); [auto|].
        assert (Z : app_zone t None j = j) by (destruct t; reflexivity). rewrite Z in *.
        exists s, (CItem j). split; [exact G|].
        split; [|split; [exact S|split; [exact T|cbn [citem_type]; congruence]]].
        destruct t; cbn [citem_parse]; try (rewrite P; reflexivity); exfalso;
          destruct i as [|[]| | | | | | | | | |]; try contradiction M; try (eapply D; reflexivity); eapply K2; reflexivity.
    + destruct i as [|[]| | | | | | | | | |]; try contradiction M. destruct s as [s|]; [|cbn in K; congruence].
      exists s, (CItem (VPlain PUnknown (Some s))). repeat split.
  - destruct t as [t| | | |]; try contradiction M. exists (generateDoubleNestedList l), (CAdr (map normal l)). split; [reflexivity|].
    split; [cbn [citem_parse]; rewrite (parts_read ctx 6) by exact K; reflexivity|]. split; [reflexivity|].
    split; [cbn [citem_generate]; rewrite double_normal; reflexivity|reflexivity].
  - destruct t as [t| | | |]; try contradiction M. exists (generateDoubleNestedList l), (CName (map normal l)). split; [reflexivity|].
    split; [cbn [citem_parse]; rewrite (parts_read ctx 4) by exact K; reflexivity|]. split; [reflexivity|].
    split; [cbn [citem_generate]; rewrite double_normal; reflexivity|reflexivity].
  - destruct t as [t| | | |]; try contradiction M. destruct K as [K1 K2]. exists (generateTextList ";" l), (COrg l). split; [reflexivity|].
    split; [cbn [citem_parse]; rewrite org_read by assumption; reflexivity|]. repeat split.
Qed.
Lemma cmade_by_type i : vcard_made (citem_type i) i.
Proof. destruct i; cbn; auto. apply made_by_type. Qed.

Lemma cmulti_text fl l ss : Forall2 (fun i s => citem_generate fl i = Ok s) l ss -> cmulti_generate fl true l = join_char "," ss.
Proof.
  assert (K : forall l ss, Forall2 (fun i s => citem_generate fl i = Ok s) l ss -> ss <> [] ->
    cmulti_generate fl false l = ","%char :: join_char "," ss).
  { clear. induction 1 as [|i s l ss H F IH]; [congruence|]. intros _. cbn [cmulti_generate join_char]. rewrite H.
    destruct ss as [|s' ss]; [inversion F; subst; cbn; rewrite app_nil_r; reflexivity|]. rewrite IH by discriminate. reflexivity. }
  intros H. destruct H as [|i s l ss H F]; [reflexivity|]. cbn [cmulti_generate join_char app]. rewrite H.
  destruct ss as [|s' ss]; [inversion F; subst; cbn; apply app_nil_r|]. rewrite (K _ _ F) by discriminate. reflexivity.
Qed.
Lemma citems_read ctx fl t l :
  Forall (fun i => vcard_made t i /\ citem_ok ctx fl i /\ exists s, citem_generate fl i = Ok s /\ ~ In ","%char s) l ->
  exists ss js, Forall2 (fun i s => citem_generate fl i = Ok s) l ss /\ Forall (fun s => cin "," s = false) ss /\
    map_r (fun tok => citem_parse ctx fl t (Some tok)) ss = Ok js /\ Forall2 same_citem l js /\
    Forall2 (fun i s => citem_generate fl i = Ok s) js ss.
Proof.
  induction 1 as [|i l (M & K & s & G & C) F IH]; [exists [], []; repeat split; constructor|].
  destruct IH as (ss & js & A & B & D & E & H).
  destruct (citem_read ctx fl t i M K) as (s' & j & G' & P & S & T & _).
  rewrite G in G'. injection G' as <-.
  exists (s :: ss), (j :: js). split; [constructor; assumption|]. split; [constructor; [apply cin_no; assumption|assumption]|].
  split; [cbn [map_r]; rewrite P; cbn [rbind]; rewrite D; reflexivity|].
  split; constructor; assumption.
Qed.
Lemma cis_multi_names n : cis_multi n = true <-> In (upper n) vcard_lists.
Proof.
  unfold cis_multi. change [lit "NICKNAME"; lit "CATEGORIES"] with vcard_lists. rewrite existsb_exists. split.
  - intros (x & I & E). destruct (beq_case (upper n) x) as [[-> _]|[_ E']]; [assumption|congruence].
  - intro I. exists (upper n). split; [assumption|apply beq_refl].
Qed.
Lemma param_name n t : vcard_param n t -> ctype_name t <> None.
Proof. destruct 1; discriminate. Qed.

Lemma ok_plain ctx fl v : cvalue_ok ctx fl v -> plain_ctype (cvalue_type v).
Proof.
  destruct v as [i|t l]; cbn [cvalue_ok cvalue_type].
  - destruct i as [i|l|l|l]; cbn [citem_type citem_ok]; intro K; try (left; discriminate).
    destruct i as [|[]| | | | | |d| | | |]; try (left; discriminate); try (right; reflexivity); try (destruct K; fail).
    cbn. left. destruct (mDateOnly d); discriminate.
  - intros ((n & P) & _). left. eapply param_name; eassumption.
Qed.

Lemma cvalue_round ctx fl name ps v : params_ok ps -> vcard_type_kept name v -> cvalue_ok ctx fl v ->
  exists s w, cvalue_generate fl v = Ok s /\
    cline_value ctx fl name (sorted_params (csetup name ps (Some v))) (Some s) = Ok w /\
    same_cvalue v w /\ cvalue_generate fl w = Ok s /\ cvalue_type w = cvalue_type v.
Proof.
  intros Hp Ht Hv. unfold cline_value.
  destruct (ctype_read name ps v (proj1 Hp) Ht (ok_plain _ _ _ Hv)) as (t & -> & R).
  destruct Ht as (Hm & _). cbn [rbind]. destruct v as [i|m l]; cbn [cvalue_type] in *.
  - assert (cis_multi name = false) as ->.
    { destruct (cis_multi name) eqn:E; [|reflexivity]. apply cis_multi_names in E. contradiction. }
    assert (M : vcard_made t i).
    { destruct R as [->|[E ->]]; [apply cmade_by_type|]. cbn [cvalue_type] in E. destruct i as [[|[]| | | | | |d| | | |]|l|l|l]; cbn in E; try discriminate.
      - exact I.
      - destruct (mDateOnly d); discriminate. }
    destruct (citem_read ctx fl t i M Hv) as (s & j & G & P & S & T & Y).
    exists s, (CSingle j). split; [exact G|]. rewrite P. cbn [rbind]. auto.
  - assert (cis_multi name = true) as -> by (apply cis_multi_names; assumption).
    destruct Hv as ((n & Hn) & Hl & Hf).
    assert (t = m) as ->. { destruct R as [->|[E _]]; [reflexivity|]. cbn [cvalue_type] in E. subst m. apply param_name in Hn. destruct (Hn eq_refl). }
    destruct (citems_read ctx fl m l Hf) as (ss & js & A & B & D & E & H).
    assert (ss <> []) by (destruct A; congruence).
    exists (join_char "," ss), (CMulti m js).
    split; [cbn [cvalue_generate]; rewrite (cmulti_text _ _ _ A); reflexivity|].
    unfold cmulti_parse. rewrite split_join by assumption. rewrite D. cbn [rbind]. split; [reflexivity|]. split; [split; [reflexivity|assumption]|].
    split; [|reflexivity]. cbn [cvalue_generate]. rewrite (cmulti_text _ _ _ H). reflexivity.
Qed.

(** ** The line. *)
Definition cimg (fl : floats) (p q : cprop) : Prop :=
  same_cprop p q /\ cprop_line fl q = cprop_line fl p /\ cpName q = cpName p /\ cpGroup q = cpGroup p /\
  match cpValue p, cpValue q with Some v, Some w => cvalue_generate fl v = cvalue_generate fl w /\ cvalue_type v = cvalue_type w | _, _ => False end /\
  gen_line (mkLine (cpGroup p) (cpName p) (csetup (cpName p) (cpParams p) (cpValue p)) None) =
  gen_line (mkLine (cpGroup q) (cpName q) (csetup (cpName q) (cpParams q) (cpValue q)) None).
Lemma cprop_image ctx fl p : cprop_ok ctx fl p ->
  exists text q, cprop_line fl p = Ok text /\ cprop_parse ctx fl text = Some (Ok q) /\ cimg fl p q.
Proof.
  destruct p as [g name ps ov]. intros (Hn & Hg & Hp & Hk & v & E & Ht & Hv). cbn [cpGroup cpName cpParams cpValue] in *. subst ov.
  destruct (cvalue_round ctx fl name ps v Hp Ht Hv) as (s & w & G & L & S & T & Y).
  set (ps1 := csetup name ps (Some v)) in *.
  assert (Hp1 : params_ok ps1) by (apply csetup_params_ok; assumption).
  assert (Hk1 : tokens ps1) by (apply csetup_tokens; assumption).
  assert (GL : forall x, gen_line (mkLine g name ps1 x) = gen_line (mkLine g name (csetup name (sorted_params ps1) (Some w)) x)).
  { intro x. rewrite !(gen_line_group g). f_equal. rewrite <- (gen_line_sorted name ps1). symmetry. apply gen_line_perm.
    + eapply Permutation_NoDup; [apply Permutation_map; symmetry; apply csetup_again; [apply Hp|congruence]|].
      unfold sorted_params. rewrite map_map. cbn [fst]. rewrite <- map_map with (f := fst) (g := fun x => x), map_id.
      eapply Permutation_NoDup; [apply Permutation_map; symmetry; apply sort_perm|apply Hp1].
    + apply csetup_again; [apply Hp|congruence]. }
  exists (gen_line (mkLine g name ps1 (Some s))), (mkCProp g name (sorted_params ps1) (Some w)).
  split; [|split].
  - unfold cprop_line; cbn [cpGroup cpName cpParams cpValue]. rewrite G. reflexivity.
  - unfold cprop_parse. rewrite vcard_read_back by auto. cbn [lGroup lName lParams lValue]. rewrite L. reflexivity.
  - split; [|split; [|split; [reflexivity|split; [reflexivity|split; [cbn; split; congruence|]]]]].
    + split; [reflexivity|]. split; [reflexivity|]. cbn [cpName cpParams cpValue]. split; [|assumption].
      intros k Hk'. rewrite <- (lookup_csetup name ps v k Hk'). apply sorted_params_same, Hp1.
    + unfold cprop_line; cbn [cpGroup cpName cpParams cpValue]. rewrite T, G. cbn [rbind]. f_equal. symmetry. apply GL.
    + cbn [cpGroup cpName cpParams cpValue]. apply GL.
Qed.
Lemma cprop_round ctx fl p : cprop_ok ctx fl p ->
  exists text q, cprop_line fl p = Ok text /\ cprop_parse ctx fl text = Some (Ok q) /\ same_cprop p q /\ cprop_line fl q = Ok text.
Proof.
  intro H. destruct (cprop_image ctx fl p H) as (text & q & A & B & C & D & _). exists text, q. repeat split; auto; try apply C. congruence.
Qed.

(** ** The type of the value of a line. *)
Lemma cvalue_types_spec n t : assoc n cvalue_types = Some t <-> vcard_param n t.
Proof.
  split.
  - intro H. apply assoc_some in H. cbn [cvalue_types In] in H.
    repeat (destruct H as [[= <- <-]|H]; [constructor|]). contradiction.
  - destruct 1; vm_compute; reflexivity.
Qed.
Lemma ctype_typed name ps s : cdetermine name ps = Ok s -> exists t, vcard_typed name ps t /\ s = vcard_structured name t.
Proof.
  unfold cdetermine. cbv zeta.
  set (dflt := match assoc (upper name) cdefault_types with Some t => t | None => CT T_UNKNOWN end).
  assert (D : (forall n v l r t, lookup (lit "VALUE") ps = (n, v :: l) :: r -> ~ vcard_param v t) -> vcard_typed name ps dflt).
  { intro N. unfold dflt. destruct (assoc (upper name) cdefault_types) as [t|] eqn:E.
    - apply ct_default; [assumption|]. apply cdefault_spec; assumption.
    - apply ct_unknown; [assumption|]. apply cdefault_none; assumption. }
  assert (S : forall t, match assoc (upper name) cspecials with Some s => if ctype_eqb t dflt then s else t | None => t end = vcard_structured name t).
  { intro t. unfold vcard_structured. rewrite cspecials_assoc.
    destruct (beq_case (lit "ADR") (upper name)) as [[E ->]|[E1 ->]]; [unfold dflt; rewrite <- E; destruct t as [[]| | | |]; reflexivity|].
    destruct (beq_case (lit "GEO") (upper name)) as [[E ->]|[E2 ->]]; [unfold dflt; rewrite <- E; destruct t as [[]| | | |]; reflexivity|].
    destruct (beq_case (lit "N") (upper name)) as [[E ->]|[E3 ->]]; [unfold dflt; rewrite <- E; destruct t as [[]| | | |]; reflexivity|].
    destruct (beq_case (lit "ORG") (upper name)) as [[E ->]|[E4 ->]]; [unfold dflt; rewrite <- E; destruct t as [[]| | | |]; reflexivity|].
    destruct (beq_case (upper name) (lit "GEO")) as [[X _]|[_ ->]]; [congruence|].
    destruct (beq_case (upper name) (lit "ADR")) as [[X _]|[_ ->]]; [congruence|].
    destruct (beq_case (upper name) (lit "N")) as [[X _]|[_ ->]]; [congruence|].
    destruct (beq_case (upper name) (lit "ORG")) as [[X _]|[_ ->]]; [congruence|].
    destruct t as [[]| | | |]; reflexivity. }
  destruct (assoc (lit "VALUE") ps) as [L|] eqn:EL.
  - destruct (first_value L) as [v|] eqn:EF; cbn [rbind]; [|discriminate]. intro H. apply Ok_inj in H. subst s. rewrite S.
    eexists. split; [|reflexivity]. destruct (assoc v cvalue_types) as [t|] eqn:E.
    + apply cvalue_types_spec in E. destruct L as [|[n [|w l]] r]; try discriminate. cbn in EF. injection EF as ->.
      apply (ct_param _ _ n v l r); [rewrite assoc_lookup, EL; reflexivity|assumption].
    + apply D. intros n w l r t H C. apply lookup_first in H. destruct H as (L' & E1 & E2).
      rewrite EL in E1; injection E1 as <-. rewrite EF in E2; injection E2 as <-. apply cvalue_types_spec in C. congruence.
  - cbn [rbind]. intro H. apply Ok_inj in H. subst s. rewrite S. eexists. split; [|reflexivity]. apply D.
    intros n w l r t H C. apply lookup_first in H. destruct H as (L' & E1 & E2). congruence.
Qed.
Lemma citem_made ctx fl t data i : citem_parse ctx fl t data = Ok i -> vcard_made t i.
Proof.
  assert (B : forall t, (do i <- item_parse ctx fl t data; Ok (CItem i)) = Ok i -> vcard_made (CT t) i).
  { intros t0 H. unfold rbind in H. destruct (item_parse ctx fl t0 data) as [j|] eqn:E; [|discriminate]. injection H as <-.
    eapply item_made; exact E. }
  intro H. destruct t as [t| | | |].
  - destruct t; cbn [citem_parse] in H; try (apply B; exact H); destruct data as [s|]; try (apply B; exact H); unfold rbind in H.
    + destruct (dt_parseText ctx true s); [|discriminate]. injection H as <-. exact I.
    + destruct (dt_parseText ctx true s); [|discriminate]. injection H as <-. exact I.
    + destruct (utcoffset_parse true s 0) as [n [u|e]]; [|discriminate]. injection H as <-. exact I.
  - destruct data as [s|]; [|discriminate]. cbn [citem_parse] in H. unfold rbind in H. destruct (parseDoubleNestedList ctx s 7); [|discriminate]. injection H as <-. exact I.
  - destruct data as [s|]; [|discriminate]. cbn [citem_parse] in H. unfold rbind in H. destruct (parseDoubleNestedList ctx s 5); [|discriminate]. injection H as <-. exact I.
  - destruct data as [s|]; [|discriminate]. cbn [citem_parse] in H. unfold rbind in H. destruct (parseTextList ctx ";" s); [|discriminate]. injection H as <-. exact I.
  - cbn [citem_parse] in H. injection H as <-. exact I.
Qed.
Lemma citems_made ctx fl t ss : forall l, map_r (fun tok => citem_parse ctx fl t (Some tok)) ss = Ok l -> Forall (vcard_made t) l.
Proof.
  induction ss as [|s ss IH]; cbn [map_r]; intros l H; [injection H as <-; constructor|]. unfold rbind in H.
  destruct (citem_parse ctx fl t (Some s)) as [i|] eqn:E; [|discriminate].
  destruct (map_r _ ss) as [m|]; [|discriminate]. injection H as <-. constructor; [eapply citem_made; exact E|apply IH; reflexivity].
Qed.
Lemma cprop_typed ctx fl text p : cprop_parse ctx fl text = Some (Ok p) ->
  exists t, vcard_typed (cpName p) (cpParams p) t /\
  let s := vcard_structured (cpName p) t in
  if existsb (beq (upper (cpName p))) vcard_lists
  then exists l, cpValue p = Some (CMulti s l) /\ Forall (vcard_made s) l
  else exists i, cpValue p = Some (CSingle i) /\ vcard_made s i.
Proof.
  unfold cprop_parse. destruct (vcard_parseLine ctx _ text) as [[l|]|]; try discriminate.
  destruct (cline_value _ _ _ _ _) as [v|] eqn:E; [|discriminate]. intros [= <-]. cbn [cpName cpParams cpValue].
  unfold cline_value, rbind in E. destruct (cdetermine _ _) as [s|] eqn:Et; [|discriminate].
  apply ctype_typed in Et. destruct Et as (t & T & ->). exists t. split; [assumption|]. cbv zeta.
  change (existsb (beq (upper (lName l))) vcard_lists) with (cis_multi (lName l)).
  destruct (cis_multi (lName l)).
  - unfold cmulti_parse, rbind in E. destruct (lValue l) as [x|]; [|discriminate].
    destruct (map_r _ _) as [k|] eqn:Em; [|discriminate]. injection E as <-. eexists. split; [reflexivity|]. eapply citems_made; exact Em.
  - destruct (citem_parse _ _ _ _) as [i|] eqn:Ei; [|discriminate]. injection E as <-. eexists. split; [reflexivity|]. eapply citem_made; exact Ei.
Qed.
