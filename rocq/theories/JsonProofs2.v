(** Proofs about the JSON form: parameters, and the round trip of a property. *)
From Coq Require Import Lia ZifyBool ZifyNat.
From Verif Require Import PyBase PyProofs ParserCtx TextModel TextSpec TextProofs LineModel LineSpec LineProofs
  DateTimeModel DateTimeText DateTimeSpec2 DurationModel RecurModel RecurSpec
  PropertyModel PropertySpec PropertyProofs PropertyProofs2 PropertyProofs3
  ComponentModel ValidateModel ValidateProofs2 JsonModel JsonSpec JsonProofs.
Ltac Zify.zify_post_hook ::= Z.div_mod_to_equations.

(** ** Parameters as pairs of a name and a value. *)
Definition entry_ok (e : bytes * bytes) : Prop := is_ascii (fst e) = true /\ upper (fst e) <> lit "VALUE".
Definition as_param (e : bytes * bytes) : param := (fst e, [snd e]).
Definition as_member (e : bytes * bytes) : bytes * json := (lower (fst e), JText (snd e)).
Definition as_read (e : bytes * bytes) : bytes * list param := (upper (fst e), [(upper (fst e), [snd e])]).
Definition ukey (e : bytes * bytes) : bytes := upper (fst e).

Definition not_value (p : param) : bool := negb (beq (lower (fst p)) (lit "value")).
Lemma lower_value n : lower n = lit "value" <-> upper n = lit "VALUE".
Proof. apply (letters n (lit "VALUE")). Qed.

Lemma flat_entries ps : params_json_ok ps -> exists es, filter not_value (flat_map snd ps) = map as_param es /\
  NoDup (map ukey es) /\ Forall entry_ok es /\ (forall e, In e es -> In (ukey e) (map fst ps)) /\
  forall k, k <> lit "VALUE" -> lookup k ps = map as_param (filter (fun e => beq (ukey e) k) es).
Proof.
  intros [N F]. induction F as [|[k l] ps [U H] F IH].
  { exists []. repeat split; try constructor; contradiction. }
  cbn [map fst snd] in *. inversion N as [|? ? N1 N2]; subst. destruct (IH N2) as (es & E & D & G & I1 & L). cbn [flat_map]. rewrite filter_app, E. cbn [snd].
  destruct (beq_case k (lit "VALUE")) as [[-> _]|[Hk _]].
  - exists es. assert (filter not_value l = []) as ->.
    { clear - U. induction U as [|p l Hp U IH]; [reflexivity|]. cbn [filter]. unfold not_value at 1. apply lower_value in Hp. rewrite Hp. cbn. exact IH. }
    cbn [app]. split; [reflexivity|]. split; [assumption|]. split; [assumption|]. split; [intros e Ie; right; auto|].
    intros k Hk. cbn [lookup]. destruct (beq_case (lit "VALUE") k) as [[X _]|[_ ->]]; [congruence|]. apply L; assumption.
  - destruct (H Hk) as (n & v & -> & A). inversion U as [|? ? Un _]; subst. cbn [fst] in *. exists ((n, v) :: es).
    assert (not_value (n, [v]) = true) as Nv.
    { unfold not_value; cbn [fst]. destruct (beq_case (lower n) (lit "value")) as [[X _]|[_ ->]]; [|reflexivity]. apply lower_value in X. congruence. }
    split; [cbn [filter]; rewrite Nv; reflexivity|]. split.
    { cbn [map]. constructor; [|assumption]. intro I. apply in_map_iff in I. destruct I as (e & E1 & I). apply N1. cbn [ukey fst] in E1. unfold ukey at 2 in E1. cbn [fst] in E1. rewrite <- E1. apply I1; assumption. }
    split; [constructor; [split; cbn [fst]; [apply ascii_spec; assumption|assumption]|assumption]|].
    split; [intros e [<-|Ie]; [left; reflexivity|right; auto]|].
    intros k Hk'. cbn [lookup filter]. unfold ukey at 1. cbn [fst]. destruct (beq_case (upper n) k) as [[X ->]|[X ->]]; [|apply L; assumption].
    cbn [map]. change (as_param (n, v)) with (n, [v]). f_equal. subst k.
    assert (filter (fun e => beq (ukey e) (upper n)) es = []) as ->; [|reflexivity].
    clear - I1 N1. induction es as [|e es IH]; [reflexivity|]. cbn [filter]. destruct (beq_case (ukey e) (upper n)) as [[X _]|[_ ->]].
    + exfalso. apply N1. rewrite <- X. apply I1. left; reflexivity.
    + apply IH. intros; apply I1; right; assumption.
Qed.

Lemma params_ok_perm ps qs : Permutation ps qs -> params_json_ok ps -> params_json_ok qs.
Proof.
  intros P [N F]. split; [eapply Permutation_NoDup; [apply Permutation_map; eassumption|assumption]|eapply Permutation_Forall; eassumption].
Qed.

Lemma jset_new key v m : ~ In key (map fst m) -> jset key v m = m ++ [(key, v)].
Proof.
  induction m as [|[k w] m IH]; intro H; [reflexivity|]. cbn [jset map fst In app] in *. destruct (beq_case k key) as [[-> _]|[_ ->]]; [exfalso; apply H; left; reflexivity|].
  f_equal. apply IH. tauto.
Qed.
Lemma fold_json es : forall m, NoDup (map (fun e => lower (fst e)) es) -> (forall e, In e es -> ~ In (lower (fst e)) (map fst m)) ->
  fold_left param_json (map as_param es) m = m ++ map as_member es.
Proof.
  induction es as [|e es IH]; intros m N H; cbn [map fold_left]; [rewrite app_nil_r; reflexivity|]. inversion N as [|? ? N1 N2]; subst.
  unfold param_json at 2. cbn [as_param fst snd]. rewrite jset_new by (apply H; left; reflexivity). rewrite IH; [rewrite <- app_assoc; reflexivity|assumption|].
  intros f I. rewrite map_app, in_app_iff. cbn [map fst In]. intros [J|[J|[]]]; [exact (H f (or_intror I) J)|].
  apply N1. apply in_map_iff. exists f. auto.
Qed.
Lemma lower_NoDup es : NoDup (map ukey es) -> NoDup (map (fun e => lower (fst e)) es).
Proof.
  induction es as [|e es IH]; intro N; cbn [map] in *; [constructor|]. inversion N as [|? ? N1 N2]; subst. constructor; [|auto].
  intro I. apply N1. apply in_map_iff in I. destruct I as (f & E & I). apply in_map_iff. exists f. split; [|assumption]. apply letters; exact E.
Qed.

Lemma params_written ps : params_json_ok ps -> exists es, params_json ps = map as_member es /\
  NoDup (map ukey es) /\ Forall entry_ok es /\
  forall k, k <> lit "VALUE" -> lookup k ps = map as_param (filter (fun e => beq (ukey e) k) es).
Proof.
  intro H. pose proof (sort_perm fst ps) as P. destruct (flat_entries (sort_by fst ps)) as (es & E & N & F & _ & L).
  { eapply params_ok_perm; [symmetry; exact P|assumption]. }
  exists es. split; [|split; [assumption|split; [assumption|]]].
  - change (params_json ps) with (fold_left param_json (filter not_value (flat_map snd (sort_by fst ps))) []). rewrite E. rewrite fold_json; [reflexivity|apply lower_NoDup; assumption|]. intros e _ [].
  - intros k Hk. rewrite <- L by assumption. rewrite !assoc_lookup.
    rewrite (assoc_perm k (sort_by fst ps) ps); [reflexivity| |exact P].
    eapply Permutation_NoDup; [apply Permutation_map; symmetry; exact P|apply H].
Qed.

Lemma add_new key p ps : ~ In key (map fst ps) -> add_param key p ps = ps ++ [(key, [p])].
Proof. intro H. apply add_absent, assoc_out; assumption. Qed.
Lemma fold_read es : forall ps, NoDup (map ukey es) -> Forall entry_ok es -> (forall e, In e es -> ~ In (ukey e) (map fst ps)) ->
  fold_left (fun r e => do ps <- r; do name <- uupper (fst e); do v <- jencode (snd e); Ok (add_param name (name, [v]) ps)) (map as_member es) (Ok ps) =
  Ok (ps ++ map as_read es).
Proof.
  induction es as [|e es IH]; intros ps N F H; cbn [map fold_left]; [rewrite app_nil_r; reflexivity|]. inversion N as [|? ? N1 N2]; subst. inversion F as [|? ? [A _] F2]; subst.
  cbn [as_member fst snd jencode rbind]. unfold uupper. rewrite ascii_lower by assumption. cbn [rbind]. rewrite upper_of_lower.
  rewrite add_new by (apply (H e); left; reflexivity). rewrite IH; [rewrite <- app_assoc; reflexivity|assumption|assumption|].
  intros f I. rewrite map_app, in_app_iff. cbn [map fst In]. intros [J|[J|[]]]; [exact (H f (or_intror I) J)|].
  apply N1. apply in_map_iff. exists f. auto.
Qed.
Lemma re_params es c : Forall2 (fun x y => fst x = fst y /\ reordered (snd x) (snd y)) (map as_member es) c -> c = map as_member es.
Proof.
  revert c. induction es as [|e es IH]; intros c F; inversion F as [|x y a b [H1 H2] F']; subst; [reflexivity|]. cbn [map]. f_equal; [|apply IH; assumption].
  destruct y as [n j]. cbn [as_member fst snd] in *. subst n. apply re_scalar in H2; [subst; reflexivity|exact I].
Qed.
Lemma lookup_read k es : NoDup (map ukey es) ->
  lookup k (map as_read es) = map (fun e => (ukey e, [snd e])) (filter (fun e => beq (ukey e) k) es).
Proof.
  induction es as [|e es IH]; intro N; [reflexivity|]. cbn [map lookup filter as_read]. cbn [map] in N. inversion N as [|? ? N1 N2]; subst. fold (ukey e).
  destruct (beq_case (ukey e) k) as [[E ->]|[_ ->]]; [|apply IH; assumption]. cbn [map]. f_equal.
  assert (filter (fun e => beq (ukey e) k) es = []) as ->; [|reflexivity]. subst k.
  clear - N1. induction es as [|f es IH]; [reflexivity|]. cbn [filter]. cbn [map In] in N1. destruct (beq_case (ukey f) (ukey e)) as [[X _]|[_ ->]]; [exfalso; apply N1; left; assumption|].
  apply IH. tauto.
Qed.

Definition params_good (ps : params) : Prop := NoDup (map fst ps) /\ Forall (fun kl => exists n v r, snd kl = (n, [v]) :: r) ps.
Lemma params_read nm ps k : params_json_ok ps -> reordered (JObj (params_json ps)) k ->
  exists qs, params_parseJSON nm k = Ok qs /\ params_good qs /\ ~ In (lit "VALUE") (map fst qs) /\
    forall key, key <> lit "VALUE" -> Forall2 same_upper (lookup key ps) (lookup key qs).
Proof.
  intros H R. destruct (params_written ps H) as (es & E & N & F & L). rewrite E in R. inversion R as [| | | | | |a b c G P]; subst.
  apply re_params in G. subst b. apply Permutation_sym, Permutation_map_inv in P. destruct P as (es1 & E1 & P). subst c.
  assert (N1 : NoDup (map ukey es1)) by (eapply Permutation_NoDup; [apply Permutation_map; exact P|assumption]).
  assert (F1 : Forall entry_ok es1) by (eapply Permutation_Forall; eassumption).
  exists (map as_read es1). split; [|split; [|split]].
  - unfold params_parseJSON. destruct es1 as [|e es1]; [reflexivity|].
    change (truthy nm (JObj (map as_member (e :: es1)))) with true. cbv iota. rewrite fold_read; auto.
  - split; [rewrite map_map; exact N1|]. apply Forall_map, Forall_forall. intros e _. cbn [as_read snd]. eauto.
  - rewrite map_map. intro I. apply in_map_iff in I. destruct I as (e & X & I). rewrite Forall_forall in F1. destruct (F1 e I) as [_ Y]. apply Y; exact X.
  - intros key Hk. rewrite L by assumption. rewrite lookup_read by assumption.
    assert (Q : filter (fun e => beq (ukey e) key) es = filter (fun e => beq (ukey e) key) es1).
    { assert (K : forall l m, Permutation l m -> NoDup (map ukey l) -> filter (fun e => beq (ukey e) key) l = filter (fun e => beq (ukey e) key) m).
      { assert (One : forall l, NoDup (map ukey l) -> filter (fun e => beq (ukey e) key) l = [] \/ exists e, filter (fun e => beq (ukey e) key) l = [e]).
        { induction l as [|e l IH]; intro D; [left; reflexivity|]. cbn [map] in D. inversion D as [|? ? D1 D2]; subst. cbn [filter].
          destruct (beq_case (ukey e) key) as [[X ->]|[_ ->]]; [|auto]. right. exists e. f_equal. destruct (filter _ l) as [|f m] eqn:Y; [reflexivity|]. exfalso.
          assert (I : In f (filter (fun e => beq (ukey e) key) l)) by (rewrite Y; left; reflexivity). apply filter_In in I. destruct I as [I1 I2].
          destruct (beq_case (ukey f) key) as [[Z _]|[_ Z]]; [|congruence]. apply D1. rewrite X, <- Z. apply in_map; assumption. }
        intros l m Q D. assert (Qf : Permutation (filter (fun e => beq (ukey e) key) l) (filter (fun e => beq (ukey e) key) m)).
        { clear - Q. induction Q; cbn [filter]; repeat match goal with |- context [if ?b then _ else _] => destruct b end; auto.
          - constructor.
          - etransitivity; eassumption. }
        destruct (One l D) as [X|[e X]]; rewrite X in *; [apply Permutation_nil in Qf|apply Permutation_length_1_inv in Qf]; congruence. }
      apply K; assumption. }
    rewrite <- Q. clear. induction (filter _ es) as [|e l IH]; constructor; [split; reflexivity|assumption].
Qed.

(** ** Types. *)
Definition json_type (t : vtype) : vtype := match t with T_GEO => T_FLOAT | T_REQUEST_STATUS => T_TEXT | _ => t end.
Lemma json_name_back t n : json_name t = Some n -> is_ascii n = true /\
  match assoc (upper n) value_types with Some u => u | None => T_UNKNOWN end = json_type t /\ (t <> T_UNKNOWN -> assoc (upper n) value_types = Some (json_type t)).
Proof. destruct t; intros [= <-]; repeat split; try reflexivity; congruence. Qed.
Definition with_type (name n : bytes) (ps : params) : params :=
  let value_type := match assoc (upper n) value_types with Some t => t | None => T_UNKNOWN end in
  let default_type := match assoc (upper name) default_types with Some t => t | None => T_UNKNOWN end in
  if veqb default_type value_type then ps else add_param (lit "VALUE") (lit "VALUE", [upper n]) ps.
Lemma type_back name v n ps : type_json_ok name v -> json_name (value_type v) = Some n -> ~ In (lit "VALUE") (map fst ps) ->
  determineValueType name (with_type name n ps) = Ok (value_type v).
Proof.
  intros (_ & H1 & H2 & H3 & H4 & H5) J Nv. destruct (json_name_back _ _ J) as (_ & B1 & B2). set (t := value_type v) in *. clearbody t.
  unfold with_type, determineValueType. cbv zeta. rewrite B1. rewrite specials_assoc.
  destruct (veqb _ (json_type t)) eqn:V.
  - apply veqb_spec in V. rewrite (assoc_out _ _ Nv). cbn [rbind].
    destruct (beq_case (lit "GEO") (upper name)) as [[E ->]|[E ->]].
    { rewrite <- E in *. change (assoc (lit "GEO") default_types) with (Some T_FLOAT) in *. cbn [veqb]. f_equal.
      specialize (H3 eq_refl). destruct t; cbn in V; try discriminate; try congruence. }
    destruct (beq_case (lit "REQUEST-STATUS") (upper name)) as [[E' ->]|[E' ->]].
    { rewrite <- E' in *. change (assoc (lit "REQUEST-STATUS") default_types) with (Some T_TEXT) in *. cbn [veqb]. f_equal.
      specialize (H4 eq_refl). destruct t; cbn in V; try discriminate; try congruence. }
    f_equal. rewrite V. destruct t; try reflexivity; [destruct (E (eq_sym (H1 eq_refl)))|destruct (E' (eq_sym (H2 eq_refl)))].
  - rewrite add_new by assumption. rewrite assoc_app, (assoc_out _ _ Nv). cbn [assoc]. rewrite beq_refl. cbn [first_value rbind].
    assert (Hu : t <> T_UNKNOWN).
    { intro E. apply (H5); [|exact E]. subst t. destruct (assoc (upper name) default_types) as [d|] eqn:Ed; [|discriminate]. exists d. apply default_spec; assumption. }
    rewrite (B2 Hu).
    destruct (beq_case (lit "GEO") (upper name)) as [[E ->]|[E ->]].
    { rewrite <- E in *. change (assoc (lit "GEO") default_types) with (Some T_FLOAT) in *. cbv iota in V |- *.
      assert (veqb (json_type t) T_FLOAT = false) as -> by (destruct t; cbn in *; congruence). f_equal.
      destruct t; cbn in V; try discriminate; try reflexivity. specialize (H2 eq_refl). discriminate. }
    destruct (beq_case (lit "REQUEST-STATUS") (upper name)) as [[E' ->]|[E' ->]].
    { rewrite <- E' in *. change (assoc (lit "REQUEST-STATUS") default_types) with (Some T_TEXT) in *. cbv iota in V |- *.
      assert (veqb (json_type t) T_TEXT = false) as -> by (destruct t; cbn in *; congruence). f_equal.
      destruct t; cbn in V; try discriminate; try reflexivity. specialize (H1 eq_refl). discriminate. }
    f_equal. destruct t; try reflexivity; [destruct (E (eq_sym (H1 eq_refl)))|destruct (E' (eq_sym (H2 eq_refl)))].
Qed.

(** ** The value. *)
Lemma zone_back ps qs z t n name w : params_json_ok ps -> tzid_of ps z -> (forall key, key <> lit "VALUE" -> Forall2 same_upper (lookup key ps) (lookup key qs)) ->
  params_good qs -> ~ In (lit "VALUE") (map fst qs) ->
  postCreateValue t (with_type name n qs) w =
  Ok (match w with Single i => Single (app_zone t z i) | Multi m l => Multi m (map (app_zone t z) l) end).
Proof.
  intros Hp Hz L G Nv. unfold postCreateValue.
  assert (T : assoc (lit "TZID") (with_type name n qs) = assoc (lit "TZID") qs).
  { unfold with_type. cbv zeta. destruct (veqb _ _); [reflexivity|]. rewrite add_new by assumption. rewrite assoc_app. destruct (assoc _ qs); reflexivity. }
  rewrite T. clear T.
  assert (H : match z with Some z => exists l, assoc (lit "TZID") qs = Some l /\ first_value l = Ok z | None => assoc (lit "TZID") qs = None end).
  { specialize (L (lit "TZID") ltac:(discriminate)). destruct (lookup (lit "TZID") qs) as [|q0 r'] eqn:El.
    - inversion Hz as [E|m y r E]; subst; rewrite E in L; [|inversion L].
      destruct (assoc (lit "TZID") qs) as [l|] eqn:Ea; [|reflexivity]. exfalso. rewrite assoc_lookup, Ea in El. subst l.
      destruct G as [_ G]. rewrite Forall_forall in G. apply assoc_some in Ea. destruct (G _ Ea) as (? & ? & ? & X). discriminate.
    - inversion Hz as [E|m y r E]; subst; rewrite E in L; [inversion L|]. inversion L as [|? ? ? ? [S1 S2] ?]; subst.
      rewrite assoc_lookup in El. destruct (assoc (lit "TZID") qs) as [l'|]; [|discriminate]. subst l'.
      exists (q0 :: r'). split; [reflexivity|]. destruct q0 as [? ?]. cbn [snd] in S2. subst. reflexivity. }
  destruct (veqb t T_TIME || veqb t T_DATETIME) eqn:E.
  - destruct z as [z|].
    + destruct H as (l & -> & F). rewrite F. cbn [rbind]. destruct t; try discriminate; reflexivity.
    + rewrite H. destruct w as [i|m l]; destruct t; try discriminate; cbn [app_zone]; try reflexivity;
      f_equal; f_equal; symmetry; apply map_id.
  - destruct w as [i|m l]; destruct t; try discriminate; try reflexivity; cbn [app_zone]; f_equal; f_equal; symmetry; apply map_id.
Qed.

Lemma items_json_read ctx fl nm z t l :
  Forall (fun i => made_by t i /\ item_json_ok (match t with T_DATETIME => z | _ => None end) i) l ->
  exists js, map_r item_json l = Ok js /\ forall ks, Forall2 reordered js ks ->
    exists is, map_r (item_parseJSON ctx fl nm t) ks = Ok is /\ Forall2 same_item l (map (app_zone t z) is).
Proof.
  induction 1 as [|i l [M K] F (js & A & B)].
  - exists []. split; [reflexivity|]. intros ks R. inversion R; subst. exists []. split; [reflexivity|constructor].
  - destruct (item_json_read ctx fl nm (match t with T_DATETIME => z | _ => None end) t i M K) as (j & J & R); [intros ->; left; reflexivity|].
    exists (j :: js). split; [cbn [map_r]; rewrite J; cbn [rbind]; rewrite A; reflexivity|].
    intros ks Q. inversion Q as [|? k ? ks' Q1 Q2]; subst. destruct (R k Q1) as (i' & P & S & _). destruct (B ks' Q2) as (is & P' & S').
    exists (i' :: is). split; [cbn [map_r]; rewrite P; cbn [rbind]; rewrite P'; reflexivity|]. cbn [map]. constructor; [|assumption].
    destruct t; try exact S; cbn [app_zone] in *; destruct z; try exact S; destruct i; try contradiction M; destruct i'; try (discriminate S); exact S.
Qed.

Definition jimg (p q : prop) : Prop := same_json p q /\ params_good (pParams q).

Lemma with_type_good name n ps : params_good ps -> ~ In (lit "VALUE") (map fst ps) -> params_good (with_type name n ps).
Proof.
  intros [N F] Nv. unfold with_type. cbv zeta. destruct (veqb _ _); [split; assumption|]. rewrite add_new by assumption. split.
  - rewrite map_app. cbn [map fst]. eapply Permutation_NoDup; [apply Permutation_cons_append|]. constructor; assumption.
  - apply Forall_app. split; [assumption|]. constructor; [cbn [snd]; eauto|constructor].
Qed.
Lemma lookup_with_type name n ps k : k <> lit "VALUE" -> lookup k (with_type name n ps) = lookup k ps.
Proof.
  intro H. unfold with_type. cbv zeta. destruct (veqb _ _); [reflexivity|]. clear - H. induction ps as [|[k' l] ps IH]; cbn [add_param lookup].
  - destruct (beq_case (lit "VALUE") k) as [[E _]|[_ ->]]; [congruence|reflexivity].
  - destruct (beq_case k' (lit "VALUE")) as [[-> E]|[_ E]]; rewrite ?E; cbn [lookup].
    + destruct (beq_case (lit "VALUE") k) as [[E' _]|[_ ->]]; [congruence|reflexivity].
    + rewrite IH. reflexivity.
Qed.

Lemma prop_json_read ctx fl nm p : prop_json_ok p -> exists j, prop_writeJSON p = Ok j /\ forall k, reordered j k ->
  exists q, prop_parseJSON ctx fl nm k = Ok q /\ jimg p q.
Proof.
  destruct p as [name ps ov]. intros (Hp & v & z & Ev & Hz & Ht & Hv). cbn [pName pParams pValue] in *. subst ov.
  assert (Jn : exists n, json_name (value_type v) = Some n).
  { destruct Ht as (Hm & _). destruct v as [[|[]| | | | | |d| | | |]|t l]; cbn [value_type item_type json_name]; eauto; [destruct (mDateOnly d); cbn; eauto|].
    destruct Hm as (_ & M1 & M2). destruct t; cbn [json_name]; eauto; congruence. }
  destruct Jn as [n Jn]. destruct (json_name_back _ _ Jn) as (An & _).
  assert (V : exists js, value_json v = Ok (JText n :: js) /\ forall ks, Forall2 reordered js ks ->
    exists v0, (if is_multi (upper name) then do l <- map_r (item_parseJSON ctx fl nm (value_type v)) ks; Ok (Multi (value_type v) l)
             else match ks with
                  | j :: _ => do i <- item_parseJSON ctx fl nm (value_type v) j; Ok (Single i)
                  | [] => Raise IndexError
                  end) = Ok v0 /\
      let w := match v0 with Single i => Single (app_zone (value_type v) z i) | Multi m l => Multi m (map (app_zone (value_type v) z) l) end in
      value_type v = value_type w /\ same_value v w).
  { destruct Ht as (Hm & _). unfold value_json. rewrite Jn. unfold is_multi. rewrite upper_twice. destruct v as [i|t l]; cbn [value_type] in *.
    - assert (existsb (beq (upper name)) multi_names = false) as ->.
      { destruct (existsb _ _) eqn:E; [|reflexivity]. apply existsb_names in E. contradiction. }
      destruct (item_json_read ctx fl nm z (item_type i) i (made_by_type i) Hv) as (j & J & R); [auto|]. rewrite J. cbn [rbind].
      exists [j]. split; [reflexivity|]. intros ks Q. inversion Q as [|? k ? ks' Q1 Q2]; subst. destruct (R k Q1) as (i' & P & S & Y).
      rewrite P. cbn [rbind]. exists (Single i'). split; [reflexivity|]. split; [symmetry; exact Y|exact S].
    - destruct Hm as (Hm & _). assert (existsb (beq (upper name)) multi_names = true) as -> by (apply existsb_names; assumption).
      destruct (items_json_read ctx fl nm z t l Hv) as (js & J & R). rewrite J. cbn [rbind]. exists js. split; [reflexivity|].
      intros ks Q. destruct (R ks Q) as (is & P & S). rewrite P. cbn [rbind]. exists (Multi t is). split; [reflexivity|]. split; [reflexivity|]. split; [reflexivity|exact S]. }
  destruct V as (js & V & R). unfold prop_writeJSON. cbn [pName pParams pValue]. rewrite V. cbn [rbind].
  eexists. split; [reflexivity|]. intros k Q. inversion Q as [| | | | |l m Q'|]; subst. clear Q.
  inversion Q' as [|? k1 ? m1 Q1 Q2]; subst. inversion Q2 as [|? k2 ? m2 Q3 Q4]; subst. inversion Q4 as [|? k3 ? ks Q5 Q6]; subst. clear Q' Q2 Q4.
  apply re_scalar in Q1; [subst|exact I]. apply re_scalar in Q5; [subst|exact I].
  destruct (params_read nm ps k2 Hp Q3) as (qs & P1 & P2 & P3 & P4). destruct (R ks Q6) as (v0 & P5 & P6). cbv zeta in P6. destruct P6 as [P6 P7].
  set (w := match v0 with Single i => Single (app_zone (value_type v) z i) | Multi m l => Multi m (map (app_zone (value_type v) z) l) end) in *.
  assert (Tj : type_json_ok (upper name) v) by (unfold type_json_ok; rewrite upper_twice; exact Ht).
  exists (mkProp (upper name) (with_type (upper name) n qs) (Some w)). split.
  - unfold prop_parseJSON, prop_read. cbn [jencode rbind]. rewrite P1. cbn [rbind]. unfold uupper. rewrite An. cbn [rbind]. rewrite upper_of_lower.
    cbv zeta. fold (with_type (upper name) n qs). rewrite (type_back _ _ _ _ Tj Jn P3). cbn [rbind]. rewrite P5. cbn [rbind].
    rewrite (zone_back ps qs z) by assumption. cbn [rbind]. reflexivity.
  - split; [|apply with_type_good; assumption]. split; [reflexivity|]. cbn [pName pParams pValue]. split; [|split; assumption].
    intros key Hk. rewrite lookup_with_type by assumption. apply P4; assumption.
Qed.
