(** Lemmas about the JSON form of properties with registered names; the round trip is as in JsonProofs2. *)
From Coq Require Import Lia.
From Verif Require Import PyBase PyProofs ParserCtx TextModel TextSpec TextProofs LineModel LineSpec LineProofs
  DateTimeModel DateTimeText DateTimeSpec2 DurationModel RecurModel RecurSpec
  PropertyModel PropertySpec PropertyProofs PropertyProofs2 PropertyProofs3
  ComponentModel ValidateModel ValidateProofs2 JsonModel JsonSpec JsonProofs JsonProofs2
  RegisterModel RegisterSpec RegisterProofs RegisterProofs2 RegJsonModel RegJsonSpec.

(** ** Types. *)
Definition rwith (g : registry) (name n : bytes) (ps : params) : params :=
  let value_type := match assoc (upper n) value_types with Some t => t | None => T_UNKNOWN end in
  let default_type := match assoc (upper name) (gTypes g) with Some t => t | None => T_UNKNOWN end in
  if veqb default_type value_type then ps else add_param (lit "VALUE") (lit "VALUE", [upper n]) ps.
Lemma rtype_back calls name v n ps : reg_type_json_ok calls name v -> json_name (value_type v) = Some n -> ~ In (lit "VALUE") (map fst ps) ->
  reg_type (after_calls calls) name (rwith (after_calls calls) name n ps) = Ok (value_type v).
Proof.
  intros (_ & H1 & H2 & H3 & H4 & H5) J Nv. destruct (json_name_back _ _ J) as (_ & B1 & B2). set (t := value_type v) in *. clearbody t.
  unfold rwith, reg_type. cbv zeta. rewrite B1. rewrite specials_assoc.
  destruct (veqb _ (json_type t)) eqn:V.
  - apply veqb_spec in V. rewrite (assoc_out _ _ Nv). cbn [rbind].
    destruct (beq_case (lit "GEO") (upper name)) as [[E ->]|[E ->]].
    { rewrite <- E in *. rewrite geo_default in *. cbn [veqb]. f_equal.
      specialize (H3 eq_refl). destruct t; cbn in V; try discriminate; try congruence. }
    destruct (beq_case (lit "REQUEST-STATUS") (upper name)) as [[E' ->]|[E' ->]].
    { rewrite <- E' in *. rewrite status_default in *. cbn [veqb]. f_equal.
      specialize (H4 eq_refl). destruct t; cbn in V; try discriminate; try congruence. }
    f_equal. rewrite V. destruct t; try reflexivity; [destruct (E (eq_sym (H1 eq_refl)))|destruct (E' (eq_sym (H2 eq_refl)))].
  - rewrite add_new by assumption. rewrite assoc_app, (assoc_out _ _ Nv). cbn [assoc]. rewrite beq_refl. cbn [first_value rbind].
    assert (Hu : t <> T_UNKNOWN).
    { intro E. subst t. specialize (H5 eq_refl). cbn [json_type] in V.
      destruct (assoc (upper name) (gTypes (after_calls calls))) as [d|] eqn:Ed; [|discriminate V]. apply default_table in Ed. rewrite (H5 d Ed) in V. discriminate V. }
    rewrite (B2 Hu).
    destruct (beq_case (lit "GEO") (upper name)) as [[E ->]|[E ->]].
    { rewrite <- E in *. rewrite geo_default in *. cbv iota in V |- *.
      assert (veqb (json_type t) T_FLOAT = false) as -> by (destruct t; cbn in *; congruence). f_equal.
      destruct t; cbn in V; try discriminate; try reflexivity. specialize (H2 eq_refl). discriminate. }
    destruct (beq_case (lit "REQUEST-STATUS") (upper name)) as [[E' ->]|[E' ->]].
    { rewrite <- E' in *. rewrite status_default in *. cbv iota in V |- *.
      assert (veqb (json_type t) T_TEXT = false) as -> by (destruct t; cbn in *; congruence). f_equal.
      destruct t; cbn in V; try discriminate; try reflexivity. specialize (H1 eq_refl). discriminate. }
    f_equal. destruct t; try reflexivity; [destruct (E (eq_sym (H1 eq_refl)))|destruct (E' (eq_sym (H2 eq_refl)))].
Qed.

Lemma rwith_lookup g name n ps k : k <> lit "VALUE" -> lookup k (rwith g name n ps) = lookup k ps.
Proof.
  intro H. unfold rwith. cbv zeta. destruct (veqb _ _); [reflexivity|]. clear - H. induction ps as [|[k' l] ps IH]; cbn [add_param lookup].
  - destruct (beq_case (lit "VALUE") k) as [[E _]|[_ ->]]; [congruence|reflexivity].
  - destruct (beq_case k' (lit "VALUE")) as [[-> E]|[_ E]]; rewrite ?E; cbn [lookup].
    + destruct (beq_case (lit "VALUE") k) as [[E' _]|[_ ->]]; [congruence|reflexivity].
    + rewrite IH. reflexivity.
Qed.

Lemma rzone_back g ps qs z t n name w : params_json_ok ps -> tzid_of ps z -> (forall key, key <> lit "VALUE" -> Forall2 same_upper (lookup key ps) (lookup key qs)) ->
  params_good qs -> ~ In (lit "VALUE") (map fst qs) ->
  postCreateValue t (rwith g name n qs) w =
  Ok (match w with Single i => Single (app_zone t z i) | Multi m l => Multi m (map (app_zone t z) l) end).
Proof.
  intros Hp Hz L G Nv. unfold postCreateValue.
  assert (T : assoc (lit "TZID") (rwith g name n qs) = assoc (lit "TZID") qs).
  { unfold rwith. cbv zeta. destruct (veqb _ _); [reflexivity|]. rewrite add_new by assumption. rewrite assoc_app. destruct (assoc _ qs); reflexivity. }
  rewrite T. clear T.
  assert (H : match z with Some z => exists l, assoc (lit "TZID") qs = Some l /\ first_value l = Ok z | None => assoc (lit "TZID") qs = None end).
  { specialize (L (lit "TZID") ltac:(discriminate)). destruct (lookup (lit "TZID") qs) as [|q0 r'] eqn:El.
    - inversion Hz as [E|m y r E]; subst; rewrite E in L; [|inversion L].
      destruct (assoc (lit "TZID") qs) as [l|] eqn:Ea; [|reflexivity]. exfalso. rewrite assoc_lookup, Ea in El. subst l.
      destruct G as [_ G]. rewrite Forall_forall in G. apply assoc_some in Ea. destruct (G _ Ea) as (? & ? & ? & X). discriminate.
    - inversion Hz as [E|m y r E]; subst; rewrite E in L; [inversion L|]. inversion L as [|? ? ? ? [S1 S2] ?]; subst.
      rewrite assoc_lookup in El. destruct (assoc (lit "TZID") qs) as [l'|]; [|discriminate]. subst l'.
      exists (q0 :: r'). split; [reflexivity|]. destruct q0 as [? ?]. cbn [snd] in S2. subst. reflexivity. }
  destruct (veqb t T_TIME || veqb t T_DATETIME) eqn:E.
  - destruct z as [z|].
    + destruct H as (l & -> & F). rewrite F. cbn [rbind]. destruct t; try discriminate; reflexivity.
    + rewrite H. destruct w as [i|m l]; destruct t; try discriminate; cbn [app_zone]; try reflexivity;
      f_equal; f_equal; symmetry; apply map_id.
  - destruct w as [i|m l]; destruct t; try discriminate; try reflexivity; cbn [app_zone]; f_equal; f_equal; symmetry; apply map_id.
Qed.

(** ** The round trip. *)
Lemma reg_json_read calls ctx fl nm p : reg_json_ok calls p -> exists j, prop_writeJSON p = Ok j /\ forall k, reordered j k ->
  exists q, reg_parseJSON (after_calls calls) ctx fl nm k = Ok q /\ same_json p q.
Proof.
  destruct p as [name ps ov]. intros (Hp & v & z & Ev & Hz & Ht & Hv). cbn [pName pParams pValue] in *. subst ov.
  assert (Jn : exists n, json_name (value_type v) = Some n).
  { destruct Ht as (Hm & _). destruct v as [[|[]| | | | | |d| | | |]|t l]; cbn [value_type item_type json_name]; eauto; [destruct (mDateOnly d); cbn; eauto|].
    destruct Hm as (_ & M1 & M2). destruct t; cbn [json_name]; eauto; congruence. }
  destruct Jn as [n Jn]. destruct (json_name_back _ _ Jn) as (An & _).
  assert (V : exists js, value_json v = Ok (JText n :: js) /\ forall ks, Forall2 reordered js ks ->
    exists v0, (if is_multi (upper name) then do l <- map_r (item_parseJSON ctx fl nm (value_type v)) ks; Ok (Multi (value_type v) l)
             else match ks with
                  | j :: _ => do i <- item_parseJSON ctx fl nm (value_type v) j; Ok (Single i)
                  | [] => Raise IndexError
                  end) = Ok v0 /\
      let w := match v0 with Single i => Single (app_zone (value_type v) z i) | Multi m l => Multi m (map (app_zone (value_type v) z) l) end in
      value_type v = value_type w /\ same_value v w).
  { destruct Ht as (Hm & _). unfold value_json. rewrite Jn. unfold is_multi. rewrite upper_twice. destruct v as [i|t l]; cbn [value_type] in *.
    - assert (existsb (beq (upper name)) multi_names = false) as ->.
      { destruct (existsb _ _) eqn:E; [|reflexivity]. apply existsb_names in E. contradiction. }
      destruct (item_json_read ctx fl nm z (item_type i) i (made_by_type i) Hv) as (j & J & R); [auto|]. rewrite J. cbn [rbind].
      exists [j]. split; [reflexivity|]. intros ks Q. inversion Q as [|? k ? ks' Q1 Q2]; subst. destruct (R k Q1) as (i' & P & S & Y).
      rewrite P. cbn [rbind]. exists (Single i'). split; [reflexivity|]. split; [symmetry; exact Y|exact S].
    - destruct Hm as (Hm & _). assert (existsb (beq (upper name)) multi_names = true) as -> by (apply existsb_names; assumption).
      destruct (items_json_read ctx fl nm z t l Hv) as (js & J & R). rewrite J. cbn [rbind]. exists js. split; [reflexivity|].
      intros ks Q. destruct (R ks Q) as (is & P & S). rewrite P. cbn [rbind]. exists (Multi t is). split; [reflexivity|]. split; [reflexivity|]. split; [reflexivity|exact S]. }
  destruct V as (js & V & R). unfold prop_writeJSON. cbn [pName pParams pValue]. rewrite V. cbn [rbind].
  eexists. split; [reflexivity|]. intros k Q. inversion Q as [| | | | |l m Q'|]; subst. clear Q.
  inversion Q' as [|? k1 ? m1 Q1 Q2]; subst. inversion Q2 as [|? k2 ? m2 Q3 Q4]; subst. inversion Q4 as [|? k3 ? ks Q5 Q6]; subst. clear Q' Q2 Q4.
  apply re_scalar in Q1; [subst|exact I]. apply re_scalar in Q5; [subst|exact I].
  destruct (params_read nm ps k2 Hp Q3) as (qs & P1 & P2 & P3 & P4). destruct (R ks Q6) as (v0 & P5 & P6). cbv zeta in P6. destruct P6 as [P6 P7].
  set (w := match v0 with Single i => Single (app_zone (value_type v) z i) | Multi m l => Multi m (map (app_zone (value_type v) z) l) end) in *.
  assert (Tj : reg_type_json_ok calls (upper name) v) by (unfold reg_type_json_ok; rewrite upper_twice; exact Ht).
  exists (mkProp (upper name) (rwith (after_calls calls) (upper name) n qs) (Some w)). split.
  - unfold reg_parseJSON, reg_read. cbn [jencode rbind]. rewrite P1. cbn [rbind]. unfold uupper. rewrite An. cbn [rbind]. rewrite upper_of_lower.
    cbv zeta. fold (rwith (after_calls calls) (upper name) n qs). rewrite (rtype_back _ _ _ _ _ Tj Jn P3). cbn [rbind]. rewrite P5. cbn [rbind].
    rewrite (rzone_back _ ps qs z) by assumption. cbn [rbind]. reflexivity.
  - split; [reflexivity|]. cbn [pName pParams pValue]. split; [|split; assumption].
    intros key Hk. rewrite rwith_lookup by assumption. apply P4; assumption.
Qed.

(** ** The type of what is read. *)
Lemma special_type calls name t : match assoc (upper name) specials with
  | Some s => if veqb t (match assoc (upper name) (gTypes (after_calls calls)) with Some d => d | None => T_UNKNOWN end) then s else t
  | None => t end = structured name t.
Proof.
  unfold structured. rewrite specials_assoc. destruct (beq_case (lit "GEO") (upper name)) as [[E ->]|[E ->]].
  - rewrite <- E, geo_default. destruct t; reflexivity.
  - destruct (beq_case (lit "REQUEST-STATUS") (upper name)) as [[E' ->]|[E' ->]].
    + rewrite <- E', status_default. destruct t; reflexivity.
    + destruct (beq_case (upper name) (lit "GEO")) as [[E1 _]|[_ ->]]; [congruence|].
      destruct (beq_case (upper name) (lit "REQUEST-STATUS")) as [[E1 _]|[_ ->]]; [congruence|]. destruct t; reflexivity.
Qed.
Lemma rwith_type calls name n ps s : ~ In (lit "VALUE") (map fst ps) -> reg_type (after_calls calls) name (rwith (after_calls calls) name n ps) = Ok s ->
  exists t, json_typed calls name n t /\ s = structured name t.
Proof.
  intros Nv. unfold rwith, reg_type. cbv zeta. set (d := match assoc (upper name) (gTypes (after_calls calls)) with Some d => d | None => T_UNKNOWN end).
  intro H. exists (match assoc (upper n) value_types with Some u => u | None => d end). split.
  - destruct (assoc (upper n) value_types) as [u|] eqn:A; [apply jt_named, value_types_spec; exact A|].
    assert (forall u, ~ value_param (upper n) u) by (intros u U; apply value_types_spec in U; congruence).
    unfold d. destruct (assoc (upper name) (gTypes (after_calls calls))) as [t|] eqn:D; [apply jt_default; [assumption|]|apply jt_unknown; [assumption|]].
    + apply default_table; exact D.
    + apply default_table_none; exact D.
  - rewrite <- (special_type calls). fold d. destruct (veqb d _) eqn:V in H.
    + apply veqb_spec in V. rewrite (assoc_out _ _ Nv) in H. cbn [rbind] in H. apply Ok_inj in H. rewrite <- H.
      destruct (assoc (upper n) value_types) as [u|]; [rewrite <- V; reflexivity|reflexivity].
    + rewrite add_new in H by assumption. rewrite assoc_app, (assoc_out _ _ Nv) in H. cbn [assoc] in H. rewrite beq_refl in H. cbn [first_value rbind] in H.
      apply Ok_inj in H. rewrite <- H. reflexivity.
Qed.
Lemma add_keys k p ps x : In x (map fst (add_param k p ps)) -> x = k \/ In x (map fst ps).
Proof.
  induction ps as [|[k' l] ps IH]; cbn [add_param map fst In]; [intuition|]. destruct (beq k' k); cbn [map fst In]; intuition.
Qed.
Lemma members_no_value nm j ps : no_value_member j -> params_parseJSON nm j = Ok ps -> ~ In (lit "VALUE") (map fst ps).
Proof.
  intros H. unfold params_parseJSON. destruct (truthy nm j); [|intros [= <-]; intros []]. destruct j as [| | | | | |m]; try discriminate.
  specialize (H m eq_refl).
  assert (G : forall r, (forall qs, r = Ok qs -> ~ In (lit "VALUE") (map fst qs)) -> fold_left
      (fun r e => do ps <- r; do name <- uupper (fst e); do v <- jencode (snd e); Ok (add_param name (name, [v]) ps)) m r = Ok ps -> ~ In (lit "VALUE") (map fst ps)).
  { induction H as [|e m E F IH]; intros r R; cbn [fold_left]; [apply R|]. apply IH. intros qs. destruct r as [ps0|]; cbn [rbind]; [|discriminate].
    unfold uupper. destruct (is_ascii (fst e)); cbn [rbind]; [|discriminate]. destruct (jencode (snd e)) as [v|]; cbn [rbind]; [|discriminate].
    intros [= <-] I. apply add_keys in I. destruct I as [I|I]; [exact (E (eq_sym I))|exact (R ps0 eq_refl I)]. }
  apply G. intros qs [= <-] [].
Qed.
Lemma json_item_made ctx fl nm t j i : item_parseJSON ctx fl nm t j = Ok i -> made_by t i.
Proof.
  destruct t; cbn [item_parseJSON]; unfold status_json, rbind; intro H;
  repeat match type of H with
         | match ?x with _ => _ end = Ok _ => destruct x; try discriminate H
         end; injection H as <-; exact I.
Qed.
Lemma json_items_made ctx fl nm t js : forall l, map_r (item_parseJSON ctx fl nm t) js = Ok l -> Forall (made_by t) l.
Proof.
  induction js as [|j js IH]; cbn [map_r]; intro l; [intros [= <-]; constructor|]. destruct (item_parseJSON ctx fl nm t j) as [i|] eqn:E; cbn [rbind]; [|discriminate].
  destruct (map_r _ js) as [k|]; cbn [rbind]; [|discriminate]. intros [= <-]. constructor; [eapply json_item_made, E|apply IH; reflexivity].
Qed.
Lemma post_made s ps v w : postCreateValue s ps v = Ok w ->
  match v with
  | Single i => made_by s i -> exists j, w = Single j /\ made_by s j
  | Multi m k => Forall (made_by s) k -> exists k', w = Multi m k' /\ Forall (made_by s) k'
  end.
Proof.
  intros H. unfold postCreateValue in H. destruct (_ || _); [destruct (assoc _ ps) as [L|]; [unfold rbind in H; destruct (first_value L) as [z|]; [|discriminate]|]|];
    injection H as <-; destruct v as [i|m k]; intro M; eexists; split; try reflexivity; try assumption.
  - apply made_zone; assumption.
  - apply Forall_forall. intros x I. apply in_map_iff in I. destruct I as (y & <- & I). rewrite Forall_forall in M. apply made_zone; auto.
Qed.
Lemma reg_json_typed calls ctx fl nm jn jps n vs p : reg_parseJSON (after_calls calls) ctx fl nm (JArr (jn :: jps :: JText n :: vs)) = Ok p -> no_value_member jps ->
  exists t, json_typed calls (pName p) n t /\
  let s := structured (pName p) t in
  if existsb (beq (upper (pName p))) list_names
  then exists l, pValue p = Some (Multi s l) /\ Forall (made_by s) l
  else exists i, pValue p = Some (Single i) /\ made_by s i.
Proof.
  intros H M. unfold reg_parseJSON in H.
  destruct (reg_read (after_calls calls) ctx fl nm (JArr (jn :: jps :: JText n :: vs))) as [q|e] eqn:R; [|destruct e; discriminate H].
  apply Ok_inj in H. subst q. unfold reg_read in R. destruct (jencode jn) as [n0|]; cbn [rbind] in R; [|discriminate].
  destruct (params_parseJSON nm jps) as [ps|] eqn:P; cbn [rbind] in R; [|discriminate]. apply members_no_value in P; [|exact M].
  unfold uupper in R. destruct (is_ascii n); cbn [rbind] in R; [|discriminate]. cbv zeta in R. fold (rwith (after_calls calls) (upper n0) n ps) in R.
  destruct (reg_type _ _ _) as [s|] eqn:T; cbn [rbind] in R; [|discriminate]. apply rwith_type in T; [|exact P]. destruct T as (t & T & ->).
  exists t. unfold is_multi in R. change multi_names with list_names in R.
  destruct (existsb (beq (upper (upper n0))) list_names) eqn:B.
  - destruct (map_r _ vs) as [l|] eqn:L; cbn [rbind] in R; [|discriminate]. destruct (postCreateValue _ _ _) as [w|] eqn:W; cbn [rbind] in R; [|discriminate].
    apply Ok_inj in R. subst p. cbn [pName pValue]. split; [exact T|]. cbv zeta. rewrite B. apply post_made in W. destruct (W (json_items_made _ _ _ _ _ _ L)) as (k & -> & F). eauto.
  - destruct vs as [|j vs]; [discriminate R|]. destruct (item_parseJSON _ _ _ _ j) as [i|] eqn:L; cbn [rbind] in R; [|discriminate].
    destruct (postCreateValue _ _ _) as [w|] eqn:W; cbn [rbind] in R; [|discriminate].
    apply Ok_inj in R. subst p. cbn [pName pValue]. split; [exact T|]. cbv zeta. rewrite B. apply post_made in W. destruct (W (json_item_made _ _ _ _ _ _ L)) as (k & -> & F). eauto.
Qed.

(** ** Other names. *)
Lemma reg_json_untouched calls ctx fl nm n rest : untouched calls n ->
  reg_parseJSON (after_calls calls) ctx fl nm (JArr (JText n :: rest)) = prop_parseJSON ctx fl nm (JArr (JText n :: rest)).
Proof.
  intro U. assert (U' : untouched calls (upper n)) by (unfold untouched; rewrite upper_twice; exact U).
  unfold reg_parseJSON, prop_parseJSON, reg_read, prop_read. destruct rest as [|jps [|jt vs]]; try reflexivity. cbn [jencode rbind].
  destruct (params_parseJSON nm jps) as [ps|]; cbn [rbind]; [|reflexivity]. destruct jt; try reflexivity. cbn [rbind]. destruct (uupper _) as [tu|]; cbn [rbind]; [|reflexivity].
  cbv zeta. rewrite (untouched_types calls _ U'), (reg_type_untouched calls _ _ U'). reflexivity.
Qed.

(** ** The VALUE parameter. *)
Lemma reg_json_param calls ctx fl nm jn jps n vs p a d : reg_parseJSON (after_calls calls) ctx fl nm (JArr (jn :: jps :: JText n :: vs)) = Ok p -> no_value_member jps ->
  array_type n a -> name_type calls (pName p) d -> (a = d -> lookup (lit "VALUE") (pParams p) = []) /\ (a <> d -> lookup (lit "VALUE") (pParams p) = [(lit "VALUE", [upper n])]).
Proof.
  intros H M Ha Hd. unfold reg_parseJSON in H.
  destruct (reg_read (after_calls calls) ctx fl nm (JArr (jn :: jps :: JText n :: vs))) as [q|e] eqn:R; [|destruct e; discriminate H].
  apply Ok_inj in H. subst q. unfold reg_read in R. destruct (jencode jn) as [n0|]; cbn [rbind] in R; [|discriminate].
  destruct (params_parseJSON nm jps) as [ps|] eqn:P; cbn [rbind] in R; [|discriminate]. apply members_no_value in P; [|exact M].
  unfold uupper in R. destruct (is_ascii n); cbn [rbind] in R; [|discriminate]. cbv zeta in R. fold (rwith (after_calls calls) (upper n0) n ps) in R.
  destruct (reg_type _ _ _) as [s|]; cbn [rbind] in R; [|discriminate].
  match type of R with rbind ?x _ = _ => destruct x as [v|]; cbn [rbind] in R; [|discriminate] end.
  destruct (postCreateValue _ _ _) as [w|]; cbn [rbind] in R; [|discriminate]. apply Ok_inj in R. subst p. cbn [pName pParams] in *.
  assert (A : match assoc (upper n) value_types with Some t => t | None => T_UNKNOWN end = a).
  { destruct Ha as [t T|T]; [apply value_types_spec in T; rewrite T; reflexivity|]. destruct (assoc (upper n) value_types) as [t|] eqn:E; [|reflexivity].
    apply value_types_spec in E. destruct (T t E). }
  assert (D : match assoc (upper (upper n0)) (gTypes (after_calls calls)) with Some t => t | None => T_UNKNOWN end = d).
  { destruct Hd as [t T|T]; [apply default_table in T|apply default_table_none in T]; rewrite T; reflexivity. }
  unfold rwith. cbv zeta. rewrite A, D. destruct (veqb d a) eqn:V.
  - apply veqb_spec in V. split; [intros _|congruence]. rewrite assoc_lookup, (assoc_out _ _ P). reflexivity.
  - split; [intros ->; rewrite veqb_refl in V; discriminate V|]. intros _. rewrite add_new by exact P. rewrite assoc_lookup, assoc_app, (assoc_out _ _ P). reflexivity.
Qed.
