(** Proofs about typed properties: the whole line. *)
From Coq Require Import Lia ZifyBool ZifyNat.
From Verif Require Import PyBase PyProofs ParserCtx TextModel TextSpec TextProofs LineModel LineSpec LineProofs
  DateTimeModel DateTimeText DateTimeSpec2 DurationModel PeriodModel
  RecurModel RecurSpec RecurTextProofs PropertyModel PropertySpec PropertyProofs PropertyProofs2.
Ltac Zify.zify_post_hook ::= Z.div_mod_to_equations.

(** ** Written lines do not depend on the order of the keys. *)
Lemma ble_antisym a : forall b, ble a b = true -> ble b a = true -> a = b.
Proof.
  induction a as [|x a IH]; intros [|y b]; cbn [ble]; try discriminate; auto.
  destruct (Nat.ltb_spec (nat_of_ascii x) (nat_of_ascii y)); destruct (Nat.ltb_spec (nat_of_ascii y) (nat_of_ascii x));
    try discriminate; try lia. intros H1 H2. f_equal; [|apply IH; assumption].
  assert (nat_of_ascii x = nat_of_ascii y) by lia. rewrite <- (ascii_nat_embedding x), <- (ascii_nat_embedding y). congruence.
Qed.
Lemma in_order_unique {A} (key : A -> bytes) (l m : list A) : in_order key l -> in_order key m -> NoDup (map key l) ->
  Permutation l m -> l = m.
Proof.
  intros Hl. revert m. induction Hl as [|x l Hx Hl IH]; intros m Hm Hn Hp.
  - apply Permutation_nil in Hp. congruence.
  - destruct m as [|y m]; [symmetry in Hp; apply Permutation_nil in Hp; discriminate|].
    inversion Hm as [|? ? Hy Hm']; subst. inversion Hn as [|? ? Hn1 Hn2]; subst.
    assert (E : x = y).
    { assert (Iy : In y (x :: l)) by (eapply Permutation_in; [symmetry; exact Hp|left; reflexivity]).
      destruct Iy as [|Iy]; [assumption|].
      assert (Ix : In x (y :: m)) by (eapply Permutation_in; [exact Hp|left; reflexivity]).
      destruct Ix as [|Ix]; [congruence|].
      rewrite Forall_forall in Hx, Hy. specialize (Hx y Iy). specialize (Hy x Ix). pose proof (ble_antisym _ _ Hx Hy) as E.
      exfalso. apply Hn1. rewrite E. apply in_map; assumption. }
    subst y. f_equal. apply IH; auto. eapply Permutation_cons_inv; exact Hp.
Qed.
Lemma sort_by_perm {A} (key : A -> bytes) (l m : list A) : NoDup (map key l) -> Permutation l m -> sort_by key l = sort_by key m.
Proof.
  intros Hn Hp. apply (in_order_unique key); try apply sort_order.
  - eapply Permutation_NoDup; [apply Permutation_map; symmetry; apply sort_perm|assumption].
  - rewrite sort_perm, sort_perm. assumption.
Qed.
Lemma gen_line_perm name ps qs v : NoDup (map fst ps) -> Permutation ps qs ->
  gen_line (mkLine None name ps v) = gen_line (mkLine None name qs v).
Proof. intros Hn Hp. rewrite !gen_line_plain by reflexivity. cbn [lName lParams lValue]. rewrite (sort_by_perm fst ps qs Hn Hp). reflexivity. Qed.

Lemma del_perm key ps qs : Permutation ps qs -> Permutation (del_param key ps) (del_param key qs).
Proof.
  induction 1 as [|[k l] a b H IH|[k l] [k' l'] a|a b c H1 IH1 H2 IH2]; cbn [del_param].
  - constructor.
  - destruct (beq k key); [assumption|constructor; assumption].
  - destruct (beq k key), (beq k' key); auto. constructor.
  - etransitivity; eassumption.
Qed.
Lemma del_app key ps qs : del_param key (ps ++ qs) = del_param key ps ++ del_param key qs.
Proof. induction ps as [|[k l] ps IH]; [reflexivity|]; cbn [app del_param]. rewrite IH. destruct (beq k key); reflexivity. Qed.
Lemma del_absent key ps : ~ In key (map fst ps) -> del_param key ps = ps.
Proof.
  induction ps as [|[k l] ps IH]; intros H; [reflexivity|]; cbn [del_param map fst In] in *.
  destruct (beq_case k key) as [[-> _]|[_ ->]]; [tauto|]. rewrite IH; tauto.
Qed.

Definition sortv (kl : bytes * list param) : bytes * list param := (fst kl, map sorted_param (snd kl)).
Lemma map_sortv_fst ps : map fst (map sortv ps) = map fst ps.
Proof. rewrite map_map. reflexivity. Qed.

Lemma setup_again name ps v w : NoDup (map fst ps) -> value_type v = value_type w ->
  Permutation (setupValueParameter name (sorted_params (setupValueParameter name ps (Some v))) (Some w))
              (sorted_params (setupValueParameter name ps (Some v))).
Proof.
  intros Hn Ht. set (ps1 := setupValueParameter name ps (Some v)). rewrite setup_eq.
  assert (Ev : vname name w = vname name v) by (unfold vname; rewrite Ht; reflexivity). rewrite Ev.
  set (V := match vname name v with Some n => [(lit "VALUE", [(lit "VALUE", [n])])] | None => [] end).
  assert (P : Permutation (sorted_params ps1) (map sortv (del_param (lit "VALUE") ps) ++ V)).
  { unfold sorted_params. change (fun kl : bytes * list param => (fst kl, map sorted_param (snd kl))) with sortv.
    rewrite sort_perm. unfold ps1, V. rewrite setup_eq, map_app. destruct (vname name v); reflexivity. }
  rewrite (del_perm _ _ _ P), P, del_app.
  rewrite (del_absent _ (map sortv _)) by (rewrite map_sortv_fst; intro H; apply del_keys in H; tauto).
  assert (E : del_param (lit "VALUE") V = []) by (unfold V; destruct (vname name v); reflexivity). rewrite E, app_nil_r. reflexivity.
Qed.

(** ** The TZID parameter. *)
Lemma tzid_read name ps v z : params_ok ps -> tzid_of ps z ->
  let ps1 := sorted_params (setupValueParameter name ps (Some v)) in
  match z with
  | None => assoc (lit "TZID") ps1 = None
  | Some z => exists l, assoc (lit "TZID") ps1 = Some l /\ first_value l = Ok z
  end.
Proof.
  intros Hp Hz ps1. pose proof (setup_params_ok name ps v Hp) as Hp1.
  assert (E : assoc (lit "TZID") ps1 = option_map (map sorted_param) (assoc (lit "TZID") ps)).
  { unfold ps1. rewrite assoc_sorted by apply Hp1. f_equal. rewrite setup_eq, assoc_app, assoc_del_other by discriminate.
    destruct (assoc (lit "TZID") ps); [reflexivity|]. destruct (vname name v); reflexivity. }
  rewrite E. destruct Hz as [H|n z r H]; rewrite assoc_lookup in H.
  - destruct (assoc (lit "TZID") ps) as [l|] eqn:El; [|reflexivity]. subst l. exfalso.
    destruct Hp as [_ Hf]. rewrite Forall_forall in Hf.
    assert (I : forall ps : params, assoc (lit "TZID") ps = Some (@nil param) -> In (lit "TZID", @nil param) ps).
    { clear. induction ps as [|[k l] ps IH]; [discriminate|]. cbn [assoc]. destruct (beq_case k (lit "TZID")) as [[-> ->]|[_ ->]].
      - intros [= ->]. left; reflexivity.
      - intro H; right; auto. }
    destruct (Hf _ (I ps El)) as [C _]. apply C. reflexivity.
  - destruct (assoc (lit "TZID") ps) as [l|]; [|discriminate]. subst l. eexists; split; reflexivity.
Qed.

Lemma post_zone name ps v t z w : params_ok ps -> tzid_of ps z ->
  postCreateValue t (sorted_params (setupValueParameter name ps (Some v))) w =
  Ok (match w with Single i => Single (app_zone t z i) | Multi m l => Multi m (map (app_zone t z) l) end).
Proof.
  intros Hp Hz. pose proof (tzid_read name ps v z Hp Hz) as H. cbv zeta in H. unfold postCreateValue.
  destruct (veqb t T_TIME || veqb t T_DATETIME) eqn:E.
  - destruct z as [z|].
    + destruct H as (l & -> & F). rewrite F. cbn [rbind]. destruct t; try discriminate; reflexivity.
    + rewrite H. destruct w as [i|m l]; destruct t; try discriminate; cbn [app_zone]; try reflexivity;
      f_equal; f_equal; symmetry; apply map_id.
  - destruct w as [i|m l]; destruct t; try discriminate; try reflexivity; cbn [app_zone]; f_equal; f_equal; symmetry; apply map_id.
Qed.

(** ** Values. *)
Lemma made_by_type i : made_by (item_type i) i.
Proof. destruct i as [|[]| | | | | |d| | | |]; cbn; auto. destruct (mDateOnly d); exact I. Qed.

Lemma multi_text fl l ss : Forall2 (fun i s => item_generate fl i = Ok s) l ss ->
  multi_generate fl true l = join_char "," ss.
Proof.
  assert (K : forall l ss, Forall2 (fun i s => item_generate fl i = Ok s) l ss -> ss <> [] ->
    multi_generate fl false l = ","%char :: join_char "," ss).
  { clear. induction 1 as [|i s l ss H F IH]; [congruence|]. intros _. cbn [multi_generate join_char]. rewrite H.
    destruct ss as [|s' ss]; [inversion F; subst; cbn; rewrite app_nil_r; reflexivity|]. rewrite IH by discriminate. reflexivity. }
  intros H. destruct H as [|i s l ss H F]; [reflexivity|]. cbn [multi_generate join_char app]. rewrite H.
  destruct ss as [|s' ss]; [inversion F; subst; cbn; apply app_nil_r|]. rewrite (K _ _ F) by discriminate. reflexivity.
Qed.

Lemma items_read ctx fl z t l :
  Forall (fun i => made_by t i /\ item_ok ctx fl (match t with T_DATETIME => z | _ => None end) i /\
                   exists s, item_generate fl i = Ok s /\ ~ In ","%char s) l ->
  exists ss js, Forall2 (fun i s => item_generate fl i = Ok s) l ss /\ Forall (fun s => cin "," s = false) ss /\
    map_r (fun tok => item_parse ctx fl t (Some tok)) ss = Ok js /\
    Forall2 same_item l (map (app_zone t z) js) /\
    Forall2 (fun i s => item_generate fl i = Ok s) (map (app_zone t z) js) ss.
Proof.
  induction 1 as [|i l (M & K & s & G & C) F IH]; [exists [], []; repeat split; constructor|].
  destruct IH as (ss & js & A & B & D & E & H).
  destruct (item_read ctx fl _ t i M K) as (s' & j & G' & P & S & T & _); [intros ->; left; reflexivity|].
  rewrite G in G'. injection G' as <-.
  assert (Z : app_zone t (match t with T_DATETIME => z | _ => None end) j = app_zone t z j).
  { destruct t; try reflexivity. cbn [app_zone]. destruct z; [|reflexivity]. cbn [item_parse] in P. injection P as <-. reflexivity. }
  rewrite Z in *.
  exists (s :: ss), (j :: js). split; [constructor; assumption|]. split; [constructor; [apply cin_no; assumption|assumption]|].
  split; [cbn [map_r]; rewrite P; cbn [rbind]; rewrite D; reflexivity|].
  split; constructor; assumption.
Qed.

Lemma existsb_names n : existsb (beq n) multi_names = true <-> In n list_names.
Proof.
  change list_names with multi_names. rewrite existsb_exists. split.
  - intros (x & I & E). destruct (beq_case n x) as [[-> _]|[_ E']]; [assumption|congruence].
  - intro I. exists n. split; [assumption|apply beq_refl].
Qed.

Lemma value_round ctx fl name ps v z : params_ok ps -> tzid_of ps z -> type_kept name v -> prop_value_ok ctx fl z v ->
  exists s w, value_generate fl v = Ok s /\
    line_value ctx fl name (sorted_params (setupValueParameter name ps (Some v))) (Some s) = Ok w /\
    same_value v w /\ value_generate fl w = Ok s /\ value_type w = value_type v.
Proof.
  intros Hp Hz Ht Hv. unfold line_value.
  assert (R : determineValueType name (sorted_params (setupValueParameter name ps (Some v))) = Ok (value_type v))
    by (apply type_read; [apply Hp|assumption]).
  destruct Ht as (Hm & _). rewrite R. cbn [rbind]. destruct v as [i|t l]; cbn [value_type] in *.
  - assert (is_multi name = false) as ->.
    { unfold is_multi. destruct (existsb _ _) eqn:E; [|reflexivity]. apply existsb_names in E. contradiction. }
    destruct (item_read ctx fl z (item_type i) i (made_by_type i) Hv) as (s & j & G & P & S & T & Y); [auto|].
    exists s, (Single (app_zone (item_type i) z j)). split; [assumption|].
    rewrite P. cbn [rbind]. rewrite (post_zone name ps _ _ z) by assumption. auto.
  - assert (is_multi name = true) as -> by (apply existsb_names; assumption).
    destruct Hv as [Hl Hf]. destruct (items_read ctx fl z t l Hf) as (ss & js & A & B & D & E & H).
    assert (ss <> []) by (destruct A; congruence).
    exists (join_char "," ss), (Multi t (map (app_zone t z) js)).
    split; [cbn [value_generate]; rewrite (multi_text _ _ _ A); reflexivity|].
    unfold multi_parse. rewrite split_join by assumption. rewrite D. cbn [rbind].
    rewrite (post_zone name ps _ _ z) by assumption. split; [reflexivity|]. split; [split; [reflexivity|assumption]|].
    split; [|reflexivity]. cbn [value_generate]. rewrite (multi_text _ _ _ H). reflexivity.
Qed.

Lemma prop_round ctx fl p : prop_ok ctx fl p ->
  exists text q, prop_line fl p = Ok text /\ prop_parse ctx fl text = Ok q /\ same_prop p q /\ prop_line fl q = Ok text.
Proof.
  destruct p as [name ps ov]. intros (Hn & Hp & v & z & E & Hz & Ht & Hv). cbn [pName pParams pValue] in *. subst ov.
  destruct (value_round ctx fl name ps v z Hp Hz Ht Hv) as (s & w & G & L & S & T & Y).
  set (ps1 := setupValueParameter name ps (Some v)) in *.
  assert (Hp1 : params_ok ps1) by (apply setup_params_ok; assumption).
  exists (gen_line (mkLine None name ps1 (Some s))), (mkProp name (sorted_params ps1) (Some w)).
  split; [|split; [|split]].
  - unfold prop_line; cbn [pName pParams pValue]. rewrite G. reflexivity.
  - unfold prop_parse. rewrite line_read_back by auto. cbn [lName lParams lValue]. rewrite L. reflexivity.
  - split; [reflexivity|]. cbn [pName pParams pValue]. split; [|assumption].
    intros k Hk. rewrite <- (lookup_setup name ps v k Hk). apply sorted_params_same, Hp1.
  - unfold prop_line; cbn [pName pParams pValue]. rewrite T. cbn [rbind]. f_equal.
    rewrite <- (gen_line_sorted name ps1). apply gen_line_perm.
    + eapply Permutation_NoDup; [apply Permutation_map; symmetry; apply setup_again; [apply Hp|congruence]|].
      unfold sorted_params. rewrite map_map. cbn [fst]. rewrite <- map_map with (f := fst) (g := fun x => x), map_id.
      eapply Permutation_NoDup; [apply Permutation_map; symmetry; apply sort_perm|apply Hp1].
    + apply setup_again; [apply Hp|congruence].
Qed.

(** ** The type of the value of a line. *)
Lemma value_types_spec n t : assoc n value_types = Some t <-> value_param n t.
Proof.
  split.
  - intro H. apply assoc_some in H. cbn [value_types In] in H.
    repeat (destruct H as [[= <- <-]|H]; [constructor|]). contradiction.
  - destruct 1; vm_compute; reflexivity.
Qed.

Lemma lookup_first k ps n v l r : lookup k ps = (n, v :: l) :: r -> exists L, assoc k ps = Some L /\ first_value L = Ok v.
Proof. rewrite assoc_lookup. destruct (assoc k ps) as [L|]; [|discriminate]. intros ->. eexists; split; reflexivity. Qed.

Lemma Ok_inj {A} (a b : A) : Ok a = Ok b -> a = b.
Proof. congruence. Qed.

Lemma type_typed name ps s : determineValueType name ps = Ok s -> exists t, typed name ps t /\ s = structured name t.
Proof.
  unfold determineValueType. cbv zeta.
  set (dflt := match assoc (upper name) default_types with Some t => t | None => T_UNKNOWN end).
  assert (D : (forall n v l r t, lookup (lit "VALUE") ps = (n, v :: l) :: r -> ~ value_param v t) -> typed name ps dflt).
  { intro N. unfold dflt. destruct (assoc (upper name) default_types) as [t|] eqn:E.
    - apply ty_default; [assumption|]. apply default_spec; assumption.
    - apply ty_unknown; [assumption|]. apply default_none; assumption. }
  assert (S : forall t, match assoc (upper name) specials with Some s => if veqb t dflt then s else t | None => t end = structured name t).
  { intro t. unfold structured. rewrite specials_assoc.
    destruct (beq_case (lit "GEO") (upper name)) as [[E ->]|[E ->]].
    - unfold dflt. rewrite <- E. destruct t; reflexivity.
    - destruct (beq_case (lit "REQUEST-STATUS") (upper name)) as [[E' ->]|[E' ->]].
      + unfold dflt. rewrite <- E'. destruct t; reflexivity.
      + destruct (beq_case (upper name) (lit "GEO")) as [[E1 _]|[_ ->]]; [congruence|].
        destruct (beq_case (upper name) (lit "REQUEST-STATUS")) as [[E1 _]|[_ ->]]; [congruence|]. destruct t; reflexivity. }
  destruct (assoc (lit "VALUE") ps) as [L|] eqn:EL.
  - destruct (first_value L) as [v|] eqn:EF; cbn [rbind]; [|discriminate]. intro H. apply Ok_inj in H. subst s. rewrite S.
    eexists. split; [|reflexivity]. destruct (assoc v value_types) as [t|] eqn:E.
    + apply value_types_spec in E. destruct L as [|[n [|w l]] r]; try discriminate. cbn in EF. injection EF as ->.
      apply (ty_param _ _ n v l r); [rewrite assoc_lookup, EL; reflexivity|assumption].
    + apply D. intros n w l r t H C. apply lookup_first in H. destruct H as (L' & E1 & E2).
      rewrite EL in E1; injection E1 as <-. rewrite EF in E2; injection E2 as <-. apply value_types_spec in C. congruence.
  - cbn [rbind]. intro H. apply Ok_inj in H. subst s. rewrite S. eexists. split; [|reflexivity]. apply D.
    intros n w l r t H C. apply lookup_first in H. destruct H as (L' & E1 & E2). congruence.
Qed.

Lemma item_made ctx fl t data i : item_parse ctx fl t data = Ok i -> made_by t i.
Proof.
  intro H. destruct t; destruct data as [s|]; cbn [item_parse] in H; try discriminate; unfold rbind in H;
    try (destruct (peqb _ _)); try discriminate;
    repeat match type of H with context [match ?x with Ok _ => _ | Raise _ => _ end] => destruct x; try discriminate end;
    try (injection H as <-; exact I).
  - destruct (fl_read fl s); [|discriminate]. injection H as <-; exact I.
  - unfold geo_parse in H. destruct (split_char ";" s) as [|a [|b [|]]]; try discriminate.
    destruct (fl_read fl a), (fl_read fl b); try (injection H as <-; exact I);
    destruct (rev a); try discriminate; destruct (Ascii.eqb _ _); try discriminate;
    destruct (fl_read fl (rev _)); try discriminate; injection H as <-; exact I.
  - unfold status_parse in H. unfold rbind in H. destruct (parseTextList ctx ";" s); [|discriminate].
    match type of H with (match ?x with Ok _ => _ | Raise _ => _ end) = _ => destruct x as [[[code desc] rest]|]; [|discriminate] end.
    match type of H with (match ?x with Ok _ => _ | Raise _ => _ end) = _ => destruct x; [|discriminate] end.
    injection H as <-; exact I.
  - destruct (utcoffset_parse false s 0) as [n [u|e]]; [|discriminate]. injection H as <-; exact I.
Qed.
Lemma made_zone t z i : made_by t i -> made_by t (zone_item z i).
Proof. destruct t, i as [|[]| | | | | | | | | |]; cbn; auto. Qed.

Lemma items_made ctx fl t ss : forall l, map_r (fun tok => item_parse ctx fl t (Some tok)) ss = Ok l -> Forall (made_by t) l.
Proof.
  induction ss as [|s ss IH]; cbn [map_r]; intros l H; [injection H as <-; constructor|]. unfold rbind in H.
  destruct (item_parse ctx fl t (Some s)) as [i|] eqn:E; [|discriminate].
  destruct (map_r _ ss) as [m|]; [|discriminate]. injection H as <-. constructor; [eapply item_made; exact E|apply IH; reflexivity].
Qed.

Lemma prop_typed ctx fl text p : prop_parse ctx fl text = Ok p ->
  exists t, typed (pName p) (pParams p) t /\
  let s := structured (pName p) t in
  if existsb (beq (upper (pName p))) list_names
  then exists l, pValue p = Some (Multi s l) /\ Forall (made_by s) l
  else exists i, pValue p = Some (Single i) /\ made_by s i.
Proof.
  unfold prop_parse. destruct (ical_parseLine _ text) as [[l|]|]; try discriminate.
  destruct (line_value _ _ _ _ _) as [v|] eqn:E; [|discriminate]. intros [= <-]. cbn [pName pParams pValue].
  unfold line_value, rbind in E. destruct (determineValueType _ _) as [s|] eqn:Et; [|discriminate].
  apply type_typed in Et. destruct Et as (t & T & ->). exists t. split; [assumption|]. cbv zeta.
  change (existsb (beq (upper (lName l))) list_names) with (is_multi (lName l)).
  assert (Z : forall s v w, postCreateValue s (lParams l) v = Ok w ->
    match v with
    | Single i => made_by s i -> exists j, w = Single j /\ made_by s j
    | Multi m k => Forall (made_by s) k -> exists k', w = Multi m k' /\ Forall (made_by s) k'
    end).
  { intros s v0 w H. unfold postCreateValue in H. destruct (_ || _); [destruct (assoc _ (lParams l)) as [L|]; [unfold rbind in H; destruct (first_value L) as [z|]; [|discriminate]|]|];
      injection H as <-; destruct v0 as [i|m k]; intro M; eexists; split; try reflexivity; try assumption.
    - apply made_zone; assumption.
    - apply Forall_forall. intros x I. apply in_map_iff in I. destruct I as (y & <- & I). rewrite Forall_forall in M. apply made_zone; auto. }
  destruct (is_multi (lName l)).
  - unfold multi_parse, rbind in E. destruct (lValue l) as [x|]; [|discriminate].
    destruct (map_r _ _) as [k|] eqn:Em; [|discriminate]. apply Z in E. destruct (E (items_made _ _ _ _ _ Em)) as (k' & -> & F). eauto.
  - destruct (item_parse _ _ _ _) as [i|] eqn:Ei; [|discriminate]. apply Z in E. destruct (E (item_made _ _ _ _ _ Ei)) as (j & -> & M). eauto.
Qed.
