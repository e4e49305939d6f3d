(** Lemmas about registered names. *)
From Coq Require Import Permutation.
From Verif Require Import PyBase PyProofs ParserCtx TextModel TextSpec TextProofs RecurModel RecurSpec RecurTextProofs LineModel LineSpec LineProofs PropertyModel PropertySpec PropertyProofs PropertyProofs2 PropertyProofs3 RegisterModel RegisterSpec.

(** ** The tables. *)
Fixpoint first_call (N : bytes) (calls : list registration) : option vtype :=
  match calls with
  | [] => None
  | c :: r => match cKlass c with ICalendar => if beq (cName c) N then Some (cType c) else first_call N r | VCard => first_call N r end
  end.
Lemma assoc_calls N calls : forall g, assoc N (gTypes (fold_left registerDefaultValue calls g)) =
  match assoc N (gTypes g) with Some t => Some t | None => first_call N calls end.
Proof.
  induction calls as [|c r IH]; intro g; cbn [fold_left first_call]; [destruct (assoc N (gTypes g)); reflexivity|]. rewrite IH.
  unfold registerDefaultValue. cbn [gTypes]. destruct (cKlass c); [|reflexivity].
  destruct (assoc (cName c) (gTypes g)) as [t|] eqn:A.
  - destruct (beq_case (cName c) N) as [[E ->]|[_ ->]]; [|reflexivity]. subst. rewrite A. reflexivity.
  - rewrite assoc_app. destruct (assoc N (gTypes g)) as [t|] eqn:B; [reflexivity|]. cbn [assoc]. destruct (beq (cName c) N); reflexivity.
Qed.
Lemma first_call_spec N calls t : first_call N calls = Some t <->
  exists a w b, calls = a ++ mkCall ICalendar N t w :: b /\ Forall (fun c => ~ call_for N c) a.
Proof.
  split.
  - induction calls as [|c r IH]; [discriminate|]. cbn [first_call]. destruct c as [k n u w]. cbn [cKlass cName cType].
    assert (S : first_call N r = Some t -> ~ call_for N (mkCall k n u w) ->
      exists a w' b, mkCall k n u w :: r = a ++ mkCall ICalendar N t w' :: b /\ Forall (fun c => ~ call_for N c) a).
    { intros H C. destruct (IH H) as (a & w' & b & -> & F). exists (mkCall k n u w :: a), w', b. split; [reflexivity|]. constructor; assumption. }
    destruct k; [|intro H; apply S; [exact H|intros [C _]; discriminate C]].
    destruct (beq_case n N) as [[-> ->]|[D ->]].
    + intros [= ->]. exists [], w, r. split; [reflexivity|constructor].
    + intro H. apply S; [exact H|]. intros [_ C]. exact (D C).
  - intros (a & w & b & -> & F). induction F as [|c a C F IH]; cbn [app first_call cKlass cName cType].
    + rewrite beq_refl. reflexivity.
    + destruct c as [k n u w']. cbn [cKlass cName]. destruct k; [|exact IH]. destruct (beq_case n N) as [[-> _]|[_ ->]]; [|exact IH].
      exfalso. apply C. split; reflexivity.
Qed.
Lemma default_table calls N t : assoc N (gTypes (after_calls calls)) = Some t <-> default_of calls N t.
Proof.
  unfold after_calls. rewrite assoc_calls. cbn [loaded gTypes]. split.
  - destruct (assoc N default_types) as [u|] eqn:A.
    + intros [= ->]. apply do_standard, default_spec, A.
    + intro H. apply first_call_spec in H. destruct H as (a & w & b & E & F). eapply do_call; [apply default_none, A|exact E|exact F].
  - intros [u H|a u w b H E F].
    + apply default_spec in H. rewrite H. reflexivity.
    + apply default_none in H. rewrite H. apply first_call_spec. eauto.
Qed.
Lemma default_table_none calls N : assoc N (gTypes (after_calls calls)) = None <-> forall t, ~ default_of calls N t.
Proof.
  split.
  - intros H t D. apply default_table in D. congruence.
  - intro H. destruct (assoc N (gTypes (after_calls calls))) as [t|] eqn:E; [|reflexivity]. apply default_table in E. destruct (H t E).
Qed.
Lemma always_calls N calls : forall g, existsb (beq N) (gAlways (fold_left registerDefaultValue calls g)) = true <-> always calls N \/ existsb (beq N) (gAlways g) = true.
Proof.
  induction calls as [|c r IH]; intro g; cbn [fold_left].
  - split; [auto|]. intros [(c & [] & _)|H]; exact H.
  - rewrite IH. unfold registerDefaultValue. cbn [gAlways]. split.
    + intros [(x & I & H)|H]; [left; exists x; split; [right; exact I|exact H]|].
      destruct (cAlways c) eqn:A; [|right; exact H]. cbn [existsb] in H. destruct (beq_case N (cName c)) as [[E _]|[_ B]].
      * left. exists c. split; [left; reflexivity|]. split; [symmetry; exact E|exact A].
      * rewrite B in H. right. exact H.
    + intros [(x & [<-|I] & H & A)|H].
      * right. rewrite A. cbn [existsb]. rewrite H, beq_refl. reflexivity.
      * left. exists x. auto.
      * right. destruct (cAlways c); [|exact H]. cbn [existsb]. rewrite H. apply Bool.orb_true_r.
Qed.
Lemma always_table calls N : existsb (beq N) (gAlways (after_calls calls)) = true <-> always calls N.
Proof. unfold after_calls. rewrite always_calls. cbn. split; [intros [H|H]; [exact H|discriminate H]|auto]. Qed.
Lemma always_table_no calls N : existsb (beq N) (gAlways (after_calls calls)) = false <-> ~ always calls N.
Proof. rewrite <- always_table. destruct (existsb _ _); split; congruence. Qed.

(** ** Without calls. *)
Lemma first_untouched N calls : Forall (fun c => cName c <> N) calls -> first_call N calls = None.
Proof.
  induction 1 as [|c r C F IH]; [reflexivity|]. cbn [first_call]. destruct (cKlass c); [|exact IH]. destruct (beq_case (cName c) N) as [[E _]|[_ ->]]; [contradiction|exact IH].
Qed.
Lemma untouched_types calls N : Forall (fun c => cName c <> N) calls -> assoc N (gTypes (after_calls calls)) = assoc N default_types.
Proof. intro H. unfold after_calls. rewrite assoc_calls, (first_untouched N calls H). cbn [loaded gTypes]. destruct (assoc N default_types); reflexivity. Qed.
Lemma untouched_always calls N : Forall (fun c => cName c <> N) calls -> existsb (beq N) (gAlways (after_calls calls)) = false.
Proof. intro H. apply always_table_no. intros (c & I & E & _). rewrite Forall_forall in H. exact (H c I E). Qed.
Lemma reg_type_untouched calls name ps : untouched calls name -> reg_type (after_calls calls) name ps = determineValueType name ps.
Proof. intro H. unfold reg_type, determineValueType. rewrite (untouched_types calls _ H). reflexivity. Qed.
Lemma reg_setup_untouched calls name ps v : untouched calls name -> reg_setup (after_calls calls) name ps v = setupValueParameter name ps v.
Proof.
  intro H. unfold reg_setup, setupValueParameter. rewrite (untouched_types calls _ H), (untouched_always calls _ H). destruct v; [|reflexivity]. cbv zeta. rewrite Bool.orb_false_r. reflexivity.
Qed.
Lemma reg_line_untouched calls fl p : untouched calls (pName p) -> reg_line (after_calls calls) fl p = prop_line fl p.
Proof. intro H. unfold reg_line, prop_line. rewrite (reg_setup_untouched calls _ _ _ H). reflexivity. Qed.
Lemma reg_value_untouched calls ctx fl name ps txt : untouched calls name -> reg_value (after_calls calls) ctx fl name ps txt = line_value ctx fl name ps txt.
Proof. intro H. unfold reg_value, line_value. rewrite (reg_type_untouched calls _ _ H). reflexivity. Qed.
Lemma reg_parse_untouched calls ctx fl text : (forall l, ical_parseLine (List.length text) text = Some (Ok l) -> untouched calls (lName l)) ->
  reg_parse (after_calls calls) ctx fl text = prop_parse ctx fl text.
Proof.
  intro H. unfold reg_parse, prop_parse. destruct (ical_parseLine (List.length text) text) as [[l|e]|]; [|reflexivity|reflexivity].
  rewrite (reg_value_untouched calls _ _ _ _ _ (H l eq_refl)). reflexivity.
Qed.

(** ** The VALUE parameter. *)
Definition rname (g : registry) (name : bytes) (v : value) : option bytes :=
  let dflt := assoc (upper name) (gTypes g) in
  let actual := match assoc (upper name) specials with Some _ => dflt | None => Some (value_type v) end in
  if match dflt, actual with Some d, Some a => negb (veqb d a) | None, _ => true | Some _, None => true end || existsb (beq (upper name)) (gAlways g) then
    match actual with
    | Some a => match type_name a with
                | Some n => if match dflt with Some _ => true | None => negb (veqb a T_TEXT) end then Some n else None
                | None => None
                end
    | None => None
    end
  else None.
Definition with_name (o : option bytes) (ps : params) : params :=
  del_param (lit "VALUE") ps ++ match o with Some n => [(lit "VALUE", [(lit "VALUE", [n])])] | None => [] end.
Lemma reg_setup_eq g name ps v : reg_setup g name ps (Some v) = with_name (rname g name v) ps.
Proof.
  unfold reg_setup, rname, with_name. cbv zeta.
  assert (H : forall p, add_param (lit "VALUE") p (del_param (lit "VALUE") ps) = del_param (lit "VALUE") ps ++ [(lit "VALUE", [p])])
    by (intro p; apply add_absent, assoc_del).
  repeat match goal with
  | |- context [if ?b then _ else _] => destruct b
  | |- context [match ?b with Some _ => _ | None => _ end] => destruct b
  end; rewrite ?app_nil_r; try reflexivity; apply H.
Qed.
Lemma rname_ok g name v n : rname g name v = Some n -> exists a, type_name a = Some n.
Proof.
  unfold rname. cbv zeta. match goal with |- (if ?b then _ else _) = _ -> _ => destruct b; [|discriminate] end.
  match goal with |- match ?o with Some _ => _ | None => _ end = _ -> _ => destruct o as [a|]; [|discriminate] end.
  destruct (type_name a) as [m|] eqn:E; [|discriminate]. match goal with |- (if ?b then _ else _) = _ -> _ => destruct b; [|discriminate] end.
  intros [= <-]. eauto.
Qed.
Lemma with_name_keys o ps : NoDup (map fst ps) -> NoDup (map fst (with_name o ps)).
Proof.
  intro H. unfold with_name. rewrite map_app. destruct o; cbn [map fst].
  - eapply Permutation_NoDup; [apply Permutation_cons_append|]. constructor; [|apply del_NoDup; assumption]. intro C. apply del_keys in C. tauto.
  - rewrite app_nil_r. apply del_NoDup; assumption.
Qed.
Lemma with_name_value o ps : NoDup (map fst ps) -> assoc (lit "VALUE") (sorted_params (with_name o ps)) = option_map (fun n => [(lit "VALUE", [n])]) o.
Proof. intro H. rewrite assoc_sorted by (apply with_name_keys; exact H). unfold with_name. rewrite assoc_app, assoc_del. destruct o; reflexivity. Qed.
Lemma with_name_ok o ps : (forall n, o = Some n -> exists a, type_name a = Some n) -> params_ok ps -> params_ok (with_name o ps).
Proof.
  intros N [H1 H2]. split; [apply with_name_keys; exact H1|]. unfold with_name. apply Forall_app. split; [apply del_Forall; assumption|].
  destruct o as [n|]; [|constructor]. constructor; [|constructor]. cbn [fst snd]. split; [discriminate|]. constructor; [|constructor].
  destruct (N n eq_refl) as [a A]. eapply value_name_ok; eauto.
Qed.
Lemma with_name_lookup o ps k : k <> lit "VALUE" -> lookup k (with_name o ps) = lookup k ps.
Proof.
  intros Hk. unfold with_name. rewrite !assoc_lookup, assoc_app, assoc_del_other by assumption.
  destruct (assoc k ps) as [l|]; [reflexivity|]. destruct o; [|reflexivity]. cbn [assoc].
  destruct (beq_case (lit "VALUE") k) as [[E _]|[_ ->]]; [congruence|reflexivity].
Qed.
Lemma with_name_again o ps : Permutation (with_name o (sorted_params (with_name o ps))) (sorted_params (with_name o ps)).
Proof.
  set (V := match o with Some n => [(lit "VALUE", [(lit "VALUE", [n])])] | None => [] end).
  assert (P : Permutation (sorted_params (with_name o ps)) (map sortv (del_param (lit "VALUE") ps) ++ V)).
  { unfold sorted_params. change (fun kl : bytes * list param => (fst kl, map sorted_param (snd kl))) with sortv.
    rewrite sort_perm. unfold with_name, V. rewrite map_app. destruct o; reflexivity. }
  unfold with_name at 1. fold V. rewrite (del_perm _ _ _ P), P, del_app.
  rewrite (del_absent _ (map sortv _)) by (rewrite map_sortv_fst; intro H; apply del_keys in H; tauto).
  assert (E : del_param (lit "VALUE") V = []) by (unfold V; destruct o; reflexivity). rewrite E, app_nil_r. reflexivity.
Qed.
Lemma with_name_zone o ps z : params_ok (with_name o ps) -> params_ok ps -> tzid_of ps z ->
  match z with
  | None => assoc (lit "TZID") (sorted_params (with_name o ps)) = None
  | Some z => exists l, assoc (lit "TZID") (sorted_params (with_name o ps)) = Some l /\ first_value l = Ok z
  end.
Proof.
  intros Hp1 Hp Hz.
  assert (E : assoc (lit "TZID") (sorted_params (with_name o ps)) = option_map (map sorted_param) (assoc (lit "TZID") ps)).
  { rewrite assoc_sorted by apply Hp1. f_equal. unfold with_name. rewrite assoc_app, assoc_del_other by discriminate.
    destruct (assoc (lit "TZID") ps); [reflexivity|]. destruct o; reflexivity. }
  rewrite E. destruct Hz as [H|n z r H]; rewrite assoc_lookup in H.
  - destruct (assoc (lit "TZID") ps) as [l|] eqn:El; [|reflexivity]. subst l. exfalso.
    destruct Hp as [_ Hf]. rewrite Forall_forall in Hf. apply assoc_some in El. destruct (Hf _ El) as [C _]. apply C. reflexivity.
  - destruct (assoc (lit "TZID") ps) as [l|]; [|discriminate]. subst l. eexists; split; reflexivity.
Qed.
Lemma with_name_post o ps t z w : params_ok (with_name o ps) -> params_ok ps -> tzid_of ps z ->
  postCreateValue t (sorted_params (with_name o ps)) w =
  Ok (match w with Single i => Single (app_zone t z i) | Multi m l => Multi m (map (app_zone t z) l) end).
Proof.
  intros Hp1 Hp Hz. pose proof (with_name_zone o ps z Hp1 Hp Hz) as H. unfold postCreateValue.
  destruct (veqb t T_TIME || veqb t T_DATETIME) eqn:E.
  - destruct z as [z|].
    + destruct H as (l & -> & F). rewrite F. cbn [rbind]. destruct t; try discriminate; reflexivity.
    + rewrite H. destruct w as [i|m l]; destruct t; try discriminate; cbn [app_zone]; try reflexivity;
      f_equal; f_equal; symmetry; apply map_id.
  - destruct w as [i|m l]; destruct t; try discriminate; try reflexivity; cbn [app_zone]; f_equal; f_equal; symmetry; apply map_id.
Qed.

(** ** Writing with the tables g and reading with the tables h. *)
Lemma told_round g h ctx fl name ps v z : name_ok name -> params_ok ps -> tzid_of ps z -> fits_list name v -> prop_value_ok ctx fl z v ->
  reg_type h name (sorted_params (reg_setup g name ps (Some v))) = Ok (value_type v) ->
  exists text q, reg_line g fl (mkProp name ps (Some v)) = Ok text /\ reg_parse h ctx fl text = Ok q /\ same_prop (mkProp name ps (Some v)) q /\ reg_line g fl q = Ok text /\
    pParams q = sorted_params (with_name (rname g name v) ps).
Proof.
  intros Hn Hp Hz Hm Hv R. rewrite reg_setup_eq in R. set (o := rname g name v) in *.
  assert (Hp1 : params_ok (with_name o ps)) by (apply with_name_ok; [intros n E; exact (rname_ok g name v n E)|exact Hp]).
  assert (X : exists s w, value_generate fl v = Ok s /\ reg_value h ctx fl name (sorted_params (with_name o ps)) (Some s) = Ok w /\
    same_value v w /\ value_generate fl w = Ok s /\ value_type w = value_type v).
  { unfold reg_value. rewrite R. cbn [rbind]. destruct v as [i|t l]; cbn [value_type fits_list] in *.
    - assert (is_multi name = false) as ->.
      { unfold is_multi. destruct (existsb _ _) eqn:E; [|reflexivity]. apply existsb_names in E. contradiction. }
      destruct (item_read ctx fl z (item_type i) i (made_by_type i) Hv) as (s & j & G & P & S & T & Y); [auto|].
      exists s, (Single (app_zone (item_type i) z j)). split; [assumption|].
      rewrite P. cbn [rbind]. rewrite (with_name_post o ps _ z) by assumption. auto.
    - assert (is_multi name = true) as -> by (apply existsb_names; assumption).
      destruct Hv as [Hl Hf]. destruct (items_read ctx fl z t l Hf) as (ss & js & A & B & D & E & H).
      assert (ss <> []) by (destruct A; congruence).
      exists (join_char "," ss), (Multi t (map (app_zone t z) js)).
      split; [cbn [value_generate]; rewrite (multi_text _ _ _ A); reflexivity|].
      unfold multi_parse. rewrite split_join by assumption. rewrite D. cbn [rbind].
      rewrite (with_name_post o ps _ z) by assumption. split; [reflexivity|]. split; [split; [reflexivity|assumption]|].
      split; [|reflexivity]. cbn [value_generate]. rewrite (multi_text _ _ _ H). reflexivity. }
  destruct X as (s & w & G & L & S & T & Y).
  exists (gen_line (mkLine None name (with_name o ps) (Some s))), (mkProp name (sorted_params (with_name o ps)) (Some w)).
  split; [|split; [|split; [|split]]].
  - unfold reg_line; cbn [pName pParams pValue]. rewrite G, reg_setup_eq. reflexivity.
  - unfold reg_parse. rewrite line_read_back by auto. cbn [lName lParams lValue]. rewrite L. reflexivity.
  - split; [reflexivity|]. cbn [pName pParams pValue]. split; [|assumption].
    intros k Hk. rewrite <- (with_name_lookup o ps k Hk). apply sorted_params_same, Hp1.
  - unfold reg_line; cbn [pName pParams pValue]. rewrite T, reg_setup_eq. cbn [rbind]. f_equal.
    assert (Ev : rname g name w = o) by (unfold o, rname; rewrite Y; reflexivity). rewrite Ev.
    rewrite <- (gen_line_sorted name (with_name o ps)). apply gen_line_perm.
    + apply with_name_keys. eapply Permutation_NoDup; [|apply Hp1]. unfold sorted_params.
      rewrite map_map. cbn [fst]. apply Permutation_map. symmetry. apply sort_perm.
    + apply with_name_again.
  - reflexivity.
Qed.
