(** Proofs for C74: the components of the file, written and read. *)
From Coq Require Import Lia Sorting.Permutation.
From Verif Require Import PyBase PyProofs ParserCtx LineModel LineSpec LineProofs TextModel TextSpec TextProofs DateTimeModel DateTimeText DateTimeSpec2 PeriodModel PropertyModel PropertySpec PropertyProofs
  RecurModel RecurSpec RecurTextProofs PeriodProofs ComponentModel ComponentSpec ComponentProofs ComponentProofs2 ComponentProofs3 ComponentProofs4 ComponentProofs5 ComponentProofs6 ComponentProofs7 DeriveModel MakeModel MakeSpec MakeProofs
  AlarmProofs StatusSpec StatusProofs StatusProofs2 FreshProofs EditModel ZoneTzModel ZoneTzSpec ZoneFileModel ZoneFileSpec ZoneFileProofs.
Arguments addProperty : simpl never.
Arguments add_prop : simpl never.

(** The properties of a sub-component, in the order of the dictionary, with the RDATEs made by f. *)
Definition sub_list (f : dt -> prop) (s : sub) : props :=
  [(lit "TZOFFSETFROM", [with_value (lit "TZOFFSETFROM") (Single (VOffset (sbFrom s)))]); (lit "TZOFFSETTO", [with_value (lit "TZOFFSETTO") (Single (VOffset (sbTo s)))]);
   (lit "TZNAME", [text_prop 0 (lit "TZNAME") None (sbName s)]); (lit "DTSTART", [date_prop (lit "DTSTART") (sbStart s)])] ++
  (match sbRule s with Some r => [(lit "RRULE", [recur_prop (lit "RRULE") r])] | None => [] end) ++
  (match sbDates s with [] => [] | l => [(lit "RDATE", map f l)] end).
Definition sub_with (f : dt -> prop) (s : sub) : comp :=
  Comp (if sbDay s then DAYLIGHT else STANDARD) (mkState [] [] None [] (Some (sbStart s)) None 1) (sub_list f s) [].

Lemma add_new key p ps : assoc key ps = None -> add_prop key p ps = ps ++ [(key, [p])].
Proof.
  unfold add_prop. induction ps as [|[k l] ps IH]; cbn [assoc app]; [reflexivity|]. destruct (beq k key) eqn:B; [discriminate|]. intro H. rewrite IH by exact H. reflexivity.
Qed.
Lemma add_last key p q l ps : assoc key ps = None -> add_prop key p (ps ++ [(key, q :: l)]) = ps ++ [(key, q :: l ++ [p])].
Proof.
  unfold add_prop. induction ps as [|[k m] ps IH]; cbn [assoc app]; [rewrite beq_refl; reflexivity|]. destruct (beq k key) eqn:B; [discriminate|]. intro H. rewrite IH by exact H. reflexivity.
Qed.
Lemma add_dates (f : dt -> prop) key l ps : (forall d, upper (pName (f d)) = key) -> assoc key ps = None ->
  fold_left (fun ps d => addProperty (f d) ps) l ps = ps ++ match l with [] => [] | _ => [(key, map f l)] end.
Proof.
  intros F N. destruct l as [|d l]; [rewrite app_nil_r; reflexivity|]. cbn [fold_left map]. unfold addProperty at 2. rewrite F, add_new by exact N.
  assert (G : forall l m, fold_left (fun ps d => addProperty (f d) ps) l (ps ++ [(key, f d :: m)]) = ps ++ [(key, f d :: m ++ map f l)]).
  { induction l0 as [|x l0 IH]; intro m; cbn [fold_left map]; [rewrite app_nil_r; reflexivity|]. unfold addProperty at 2. rewrite F, add_last by exact N. rewrite IH, <- app_assoc. reflexivity. }
  apply (G l []).
Qed.
Lemma sub_comp_with s : sub_comp s = sub_with (date_prop (lit "RDATE")) s.
Proof.
  unfold sub_comp, sub_with. cbv zeta. f_equal. rewrite (add_dates (date_prop (lit "RDATE")) (lit "RDATE")).
  - unfold sub_list. rewrite app_assoc. f_equal; [destruct (sbRule s); reflexivity|destruct (sbDates s); reflexivity].
  - reflexivity.
  - destruct (sbRule s); reflexivity.
Qed.

Section WithCtx.
Variables (tzo : tzid -> Z -> Z -> Z -> Z -> Z -> Z -> bool -> bool -> Z) (ctx : pctx) (fl : floats).
Notation good := (good ctx fl).

(** ** The text of both forms is the same *)
Lemma written_f2 k ps qs : map fst ps = map fst qs -> (forall name, map (prop_generate fl) (getProperties name ps) = map (prop_generate fl) (getProperties name qs)) ->
  map (prop_generate fl) (written_props k ps) = map (prop_generate fl) (written_props k qs).
Proof.
  intros K G. unfold written_props, sortedPropertyKeys. rewrite K. generalize (keys_in_order (sortedPropertyKeyOrder k) (sort_by (fun x => x) (map fst qs))). intro l.
  induction l as [|n l IH]; [reflexivity|]. cbn [flat_map]. rewrite !map_app, IH, G. reflexivity.
Qed.
Lemma sub_same s : Forall at_local (sbDates s) -> generate fl (sub_with (date_prop (lit "RDATE")) s) = generate fl (sub_with rdate s).
Proof.
  intro A. unfold sub_with. rewrite !generate_eq. do 2 f_equal. f_equal. apply written_f2.
  - unfold sub_list. rewrite !map_app. do 2 f_equal. destruct (sbDates s); reflexivity.
  - intro name. unfold sub_list, getProperties. set (a := [_; _; _; _]). set (b := match sbRule s with Some _ => _ | None => _ end).
    assert (E : forall (c : props), assoc name (a ++ b ++ c) = match assoc name (a ++ b) with Some x => Some x | None => assoc name c end).
    { intro c. rewrite app_assoc. generalize (a ++ b). intro l. induction l as [|[k m] l IH]; [reflexivity|]. cbn [app assoc]. destruct (beq k name); [reflexivity|exact IH]. }
    rewrite !E. destruct (assoc name (a ++ b)); [reflexivity|]. destruct (sbDates s) as [|d l]; [reflexivity|]. cbn [assoc]. destruct (beq (lit "RDATE") name); [|reflexivity].
    rewrite !map_map. apply map_ext_in. intros x I. rewrite Forall_forall in A. destruct (rdate_line fl x (A x I)) as [B C]. unfold prop_generate. rewrite B, C. reflexivity.
Qed.

(** ** They can be written and read *)
Lemma sub_props_ok s : sub_fine s -> props_ok ctx fl (sub_list rdate s).
Proof.
  intros (A & F & T & U & R). inversion A as [|? ? A1 A2]; subst.
  assert (E : sub_list rdate s = fold_left (fun ps d => addProperty (rdate d) ps) (sbDates s)
     (match sbRule s with Some r => addProperty (recur_prop (lit "RRULE") r) | None => fun ps => ps end
       (addProperty (date_prop (lit "DTSTART") (sbStart s)) (addProperty (text_prop 0 (lit "TZNAME") None (sbName s))
         (addProperty (with_value (lit "TZOFFSETTO") (Single (VOffset (sbTo s)))) (addProperty (with_value (lit "TZOFFSETFROM") (Single (VOffset (sbFrom s)))) [])))))).
  { rewrite (add_dates rdate (lit "RDATE")); [|reflexivity|destruct (sbRule s); reflexivity]. unfold sub_list. rewrite app_assoc. f_equal; [destruct (sbRule s); reflexivity|destruct (sbDates s); reflexivity]. }
  rewrite E.
  match goal with |- props_ok _ _ (fold_left _ _ ?p) => assert (P : props_ok ctx fl p) end.
  { assert (Q : props_ok ctx fl (addProperty (date_prop (lit "DTSTART") (sbStart s)) (addProperty (text_prop 0 (lit "TZNAME") None (sbName s))
         (addProperty (with_value (lit "TZOFFSETTO") (Single (VOffset (sbTo s)))) (addProperty (with_value (lit "TZOFFSETFROM") (Single (VOffset (sbFrom s)))) []))))).
    { apply ok_add; [discriminate|discriminate|apply start_good, A1|]. apply ok_add; [discriminate|discriminate|apply texts_good; [cbn; tauto|exact U]|].
      apply ok_add; [discriminate|discriminate|apply offset_good; [tauto|exact T]|]. apply ok_add; [discriminate|discriminate|apply offset_good; [tauto|exact F]|]. split; constructor. }
    destruct (sbRule s) as [r|]; [|exact Q]. apply ok_add; [discriminate|discriminate|apply rule_good, R|exact Q]. }
  revert P. generalize (match sbRule s with Some r => addProperty (recur_prop (lit "RRULE") r) | None => fun ps => ps end
       (addProperty (date_prop (lit "DTSTART") (sbStart s)) (addProperty (text_prop 0 (lit "TZNAME") None (sbName s))
         (addProperty (with_value (lit "TZOFFSETTO") (Single (VOffset (sbTo s)))) (addProperty (with_value (lit "TZOFFSETFROM") (Single (VOffset (sbFrom s)))) []))))).
  clear E. induction A2 as [|d l D A2 IH]; intros ps P; [exact P|]. cbn [fold_left]. apply IH; [constructor; assumption|]. apply ok_add; [discriminate|discriminate|apply rdate_good, D|exact P].
Qed.
Lemma get_sub f s : getProperties (lit "DTSTART") (sub_list f s) = [date_prop (lit "DTSTART") (sbStart s)] /\
  getProperties (lit "TZOFFSETTO") (sub_list f s) = [with_value (lit "TZOFFSETTO") (Single (VOffset (sbTo s)))] /\
  getProperties (lit "TZOFFSETFROM") (sub_list f s) = [with_value (lit "TZOFFSETFROM") (Single (VOffset (sbFrom s)))] /\
  getProperties (lit "TZNAME") (sub_list f s) = [with_value (lit "TZNAME") (Single (VText (sbName s)))] /\
  getProperties (lit "RRULE") (sub_list f s) = match sbRule s with Some r => [recur_prop (lit "RRULE") r] | None => [] end /\
  getProperties (lit "RDATE") (sub_list f s) = map f (sbDates s) /\ getProperties (lit "UID") (sub_list f s) = [].
Proof. unfold sub_list. destruct (sbRule s), (sbDates s); repeat split; reflexivity. Qed.
Lemma sub_tree s : sub_fine s -> tree_ok ctx fl (sub_with rdate s).
Proof.
  intro F. constructor; [destruct (sbDay s); exact I|apply sub_props_ok, F| |constructor|constructor].
  assert (C : match getProperties (lit "DTSTART") (sub_list rdate s) with [] => True | p :: _ => forall d, pValue p = Some (Single (VDateTime d)) -> floating d = true /\ mDateOnly d = false end).
  { rewrite (proj1 (get_sub rdate s)). cbn [pValue date_prop]. intros d [= <-]. destruct F as (A & _). inversion A as [|? ? (P & D & U & Z) _]; subst. unfold floating. rewrite U, Z. split; [reflexivity|exact D]. }
  destruct (sbDay s); exact C.
Qed.
Lemma sub_start s : element_start (sub_with rdate s) = sbStart s.
Proof. reflexivity. Qed.
Lemma sub_final s : finalise tzo (sub_with rdate s) = Ok (sub_with rdate s).
Proof.
  unfold sub_with. assert (D : loadDateTime (lit "DTSTART") (sub_list rdate s) = Some (sbStart s)) by (unfold loadDateTime, load, findFirstProperty; rewrite (proj1 (get_sub rdate s)); reflexivity).
  assert (U : forall st, load_uid st (sub_list rdate s) = sUID st).
  { intro st. unfold load_uid, loadString, load, findFirstProperty. pose proof (get_sub rdate s) as (_ & _ & _ & _ & _ & _ & ->). reflexivity. }
  destruct (sbDay s); cbn [finalise]; rewrite D, U; reflexivity.
Qed.
Lemma sub_key s : ComponentSpec.has_key (sub_with rdate s).
Proof. unfold ComponentSpec.has_key, sub_with. cbn [cKind cProps]. assert (X : exists p r d, getProperties (lit "DTSTART") (sub_list rdate s) = p :: r /\ pValue p = Some (Single (VDateTime d))) by (rewrite (proj1 (get_sub rdate s)); repeat eexists). destruct (sbDay s); exact X. Qed.
Lemma sub_kind s : cKind (sub_with rdate s) = STANDARD \/ cKind (sub_with rdate s) = DAYLIGHT.
Proof. unfold sub_with. cbn. destruct (sbDay s); auto. Qed.

(** ** What is read *)
Lemma fresh_is d e : at_local d -> same_when d e -> bare e -> e = fresh d.
Proof.
  intros (P & D & U & Z) (E & Od & W) (B1 & B2 & B3). destruct (W D) as (T & U' & Z'). injection E as E1 E2 E3. injection T as T1 T2 T3. unfold fresh. rewrite E1, E2, E3, T1, T2, T3, Od, U', Z'.
  destruct e. cbn in *. subst. reflexivity.
Qed.
Lemma f2_one {A B} (R : A -> B -> Prop) p l : Forall2 R [p] l -> exists q, l = [q] /\ R p q.
Proof. intro H. inversion H as [|? ? ? ? X Y]; subst. inversion Y; subst. eauto. Qed.
Lemma sub_read s c : sub_fine s -> image tzo fl (sub_with rdate s) c -> bare_comp c -> shows_sub s c.
Proof.
  intros F M B. pose proof (sub_tree s F) as T. destruct (image_gets tzo ctx fl _ _ T M) as [G K]. cbn [sub_with cKind cProps] in K, G.
  assert (S : cSubs c = []).
  { inversion M as [k st ps subs u qs l' c0 X Y E]; subst. apply finalise_shape in E as (_ & _ & E). cbn [cKind cSubs] in E.
    assert (L : l' = []) by (destruct (sbDay s); cbn in Y; inversion Y; reflexivity). destruct (sbDay s); congruence. }
  split; [exact K|]. split; [|exact S]. inversion B as [k st ps subs Bp _]; subst c. cbn [cProps] in G. clear K S M B.
  destruct (get_sub rdate s) as (G1 & G2 & G3 & G4 & G5 & G6 & _). destruct F as (A & _ & _ & _ & _). inversion A as [|? ? A1 A2]; subst.
  pose proof (bare_get (lit "DTSTART") ps Bp) as B1. pose proof (bare_get (lit "RDATE") ps Bp) as B6.
  pose proof (G (lit "DTSTART")) as R1. pose proof (G (lit "TZOFFSETTO")) as R2. pose proof (G (lit "TZOFFSETFROM")) as R3. pose proof (G (lit "TZNAME")) as R4. pose proof (G (lit "RRULE")) as R5. pose proof (G (lit "RDATE")) as R6.
  rewrite G1 in R1. rewrite G2 in R2. rewrite G3 in R3. rewrite G4 in R4. rewrite G5 in R5. rewrite G6 in R6. clear G G1 G2 G3 G4 G5 G6.
  unfold element_of, elem_of. cbn [cProps]. f_equal.
  - unfold loadDateTime, load, findFirstProperty. destruct (f2_one _ _ _ R1) as (q & E2 & P). rewrite E2 in *. cbn [hd_error]. inversion B1 as [|? ? B _]; subst.
    destruct P as ((_ & _ & V) & _). unfold bare_prop in B. cbn [date_prop pValue] in V. destruct (pValue q) as [[j|]|]; try contradiction. cbn [same_value same_item] in V.
    destruct j; try discriminate V. cbn [datetime_of]. apply fresh_is; assumption.
  - unfold load, findFirstProperty. destruct (f2_one _ _ _ R2) as (q & E2 & P). rewrite E2. cbn [hd_error].
    destruct P as ((_ & _ & V) & _). cbn [with_value pValue] in V. destruct (pValue q) as [[j|]|]; try contradiction. cbn [same_value same_item] in V. subst j. reflexivity.
  - unfold load, findFirstProperty. destruct (f2_one _ _ _ R3) as (q & E2 & P). rewrite E2. cbn [hd_error].
    destruct P as ((_ & _ & V) & _). cbn [with_value pValue] in V. destruct (pValue q) as [[j|]|]; try contradiction. cbn [same_value same_item] in V. subst j. reflexivity.
  - unfold loadString, load, findFirstProperty. destruct (f2_one _ _ _ R4) as (q & E2 & P). rewrite E2. cbn [hd_error].
    destruct P as ((_ & _ & V) & _). cbn [with_value pValue] in V. destruct (pValue q) as [[j|]|]; try contradiction. cbn [same_value same_item] in V. subst j. reflexivity.
  - assert (Rd : forall l, Forall at_local l -> forall m, Forall2 (pimg fl) (map rdate l) m -> Forall bare_prop m ->
      flat_map (fun p => flat_map (fun i => match i with VDateTime d => [d] | _ => [] end) (multi_of (pValue p))) m = map fresh l /\
      flat_map (fun p => flat_map (fun i => match i with VPeriod q => [mkPeriod (pStart q) None None false] | _ => [] end) (multi_of (pValue p))) m = []).
    { induction 1 as [|d l D _ IH]; intros m R Bm; inversion R as [|p q l0 m0 P N E1 E2]; subst; [split; reflexivity|]. inversion Bm as [|? ? Bq Bm']; subst.
      destruct (IH m0 N Bm') as [X Y]. cbn [flat_map map]. rewrite X, Y. destruct P as ((_ & _ & V) & _). unfold bare_prop in Bq. cbn [rdate with_value pValue] in V. destruct (pValue q) as [[j|t w]|]; try contradiction.
      cbn [same_value] in V. destruct V as [<- V]. inversion V as [|i j l1 m1 I Z E3 E4]; subst. inversion Z; subst. destruct j; cbn [same_item] in I; try discriminate I.
      inversion Bq as [|? ? Bd _]; subst. cbn [multi_of flat_map app]. split; [f_equal|reflexivity]. apply fresh_is; assumption. }
    destruct (Rd (sbDates s) A2 _ R6 B6) as [X Y]. unfold load_dates, load_periods. rewrite X, Y. f_equal. unfold load_rules. cbn [read_back sbRule]. destruct (sbRule s) as [r|]; cbn [option_map].
    + destruct (f2_one _ _ _ R5) as (q & E2 & P). rewrite E2. cbn [flat_map app]. destruct P as ((_ & _ & V) & _). cbn [recur_prop pValue] in V. destruct (pValue q) as [[j|]|]; try contradiction. cbn [same_value same_item] in V.
      destruct j; try discriminate V. subst. reflexivity.
    + destruct (getProperties (lit "RRULE") ps); [reflexivity|inversion R5].
Qed.
End WithCtx.
