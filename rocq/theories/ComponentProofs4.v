(** Proofs about component trees: reading the lines of a tree. *)
From Coq Require Import Lia ZifyBool ZifyNat.
From Verif Require Import PyBase PyProofs ParserCtx TextModel TextSpec TextProofs LineModel LineSpec LineProofs FoldProofs
  DateTimeModel DateTimeText DateTimeSpec2 DurationModel RecurModel RecurTextProofs2
  PropertyModel PropertySpec PropertyProofs PropertyProofs2 PropertyProofs3 ComponentModel ComponentSpec ComponentProofs
  ComponentProofs2 ComponentProofs3.
Ltac Zify.zify_post_hook ::= Z.div_mod_to_equations.

(** ** Cached values. *)
Lemma filter_f2 {A B} (R : A -> B -> Prop) (f : A -> bool) (g : B -> bool) l m : (forall x y, R x y -> f x = g y) ->
  Forall2 R l m -> Forall2 R (filter f l) (filter g m).
Proof. intros E. induction 1 as [|x y l m H F IH]; [constructor|]. cbn [filter]. rewrite (E x y H). destruct (g y); [constructor|]; assumption. Qed.

Definition gets (fl : floats) (ps ps' : props) : Prop := forall name, Forall2 (pimg fl) (getProperties name ps) (getProperties name ps').
Lemma gets_written fl k ps qs : NoDup (map fst ps) -> (forall k l p, In (k, l) ps -> In p l -> upper (pName p) = k) ->
  Forall2 (pimg fl) (written_props k ps) qs -> gets fl ps (fold_left put qs []).
Proof.
  intros N U F name. rewrite get_puts. cbn [app]. change (getProperties name []) with (@nil prop). cbn [app].
  rewrite <- (written_filter ps N U k name). apply filter_f2; [|assumption].
  intros p q (S & _). unfold is_name. destruct S as (-> & _). reflexivity.
Qed.

Lemma load_rel {A} fl (get : option value -> option A) (R : option A -> option A -> Prop) name ps ps' : gets fl ps ps' ->
  R None None -> (forall p q, pimg fl p q -> R (get (pValue p)) (get (pValue q))) -> R (load get name ps) (load get name ps').
Proof.
  intros G R0 H. specialize (G name). unfold load, findFirstProperty.
  destruct G as [|p q l m P F]; cbn [hd_error]; auto.
Qed.
Lemma load_string fl name ps ps' : gets fl ps ps' -> loadString name ps' = loadString name ps.
Proof.
  intro G. apply (load_rel fl text_of (fun a b => b = a) name ps ps' G eq_refl).
  intros p q (S & _). destruct S as (_ & _ & V). destruct (pValue p) as [[i|t l]|], (pValue q) as [[j|u m]|]; try contradiction; try reflexivity.
  cbn [same_value] in V. destruct i, j; cbn [same_item] in V; try discriminate V; try contradiction; try (injection V as ->; try subst); reflexivity.
Qed.
Lemma load_integer fl name ps ps' : gets fl ps ps' -> loadInteger name ps' = loadInteger name ps.
Proof.
  intro G. apply (load_rel fl integer_of (fun a b => b = a) name ps ps' G eq_refl).
  intros p q (S & _). destruct S as (_ & _ & V). destruct (pValue p) as [[i|t l]|], (pValue q) as [[j|u m]|]; try contradiction; try reflexivity.
  cbn [same_value] in V. destruct i, j; cbn [same_item] in V; try discriminate V; try contradiction; try (injection V as ->; try subst); reflexivity.
Qed.
Definition opt_rel {A} (R : A -> A -> Prop) (a b : option A) : Prop :=
  match a, b with Some x, Some y => R x y | None, None => True | _, _ => False end.
Lemma load_datetime fl name ps ps' : gets fl ps ps' -> opt_rel same_when (loadDateTime name ps) (loadDateTime name ps').
Proof.
  intro G. apply (load_rel fl datetime_of (opt_rel same_when) name ps ps' G I).
  intros p q (S & _). destruct S as (_ & _ & V). destruct (pValue p) as [[i|t l]|], (pValue q) as [[j|u m]|]; try contradiction; try exact I.
  cbn [same_value] in V. destruct i, j; cbn [same_item] in V; try discriminate V; try contradiction; try exact I. exact V.
Qed.
Lemma load_duration fl name ps ps' : gets fl ps ps' -> opt_rel (fun d e => dur_generate d = dur_generate e) (loadDuration name ps) (loadDuration name ps').
Proof.
  intro G. apply (load_rel fl duration_of (opt_rel (fun d e => dur_generate d = dur_generate e)) name ps ps' G I).
  intros p q (S & _ & _ & T). destruct S as (_ & _ & V). destruct (pValue p) as [[i|t l]|], (pValue q) as [[j|u m]|]; try contradiction; try exact I.
  cbn [same_value] in V. destruct i, j; cbn [same_item] in V; try discriminate V; try contradiction; try exact I.
  cbn [duration_of opt_rel]. cbn [value_generate item_generate] in T. congruence.
Qed.
Lemma check_ok fl name pn ps ps' : gets fl ps ps' -> check_param pn (findFirstProperty name ps') = Ok tt.
Proof.
  intro G. specialize (G name). unfold findFirstProperty. destruct G as [|p q l m P F]; [reflexivity|]. cbn [hd_error check_param].
  destruct P as (_ & _ & (N & Q) & _). destruct (assoc pn (pParams q)) as [L|] eqn:E; [|reflexivity]. apply assoc_some in E.
  rewrite Forall_forall in Q. destruct (Q _ E) as [Q1 Q2]. cbn [fst snd] in *. destruct L as [|[n v] L]; [congruence|].
  inversion Q2 as [|? ? Q3 _]; subst. destruct Q3 as (_ & _ & _ & Q3 & _). cbn [snd] in Q3. destruct v; [congruence|]. reflexivity.
Qed.
Lemma count_eq fl name ps ps' : gets fl ps ps' -> countProperty name ps' = countProperty name ps.
Proof. intro G. specialize (G name). unfold countProperty. symmetry. induction G; cbn [List.length]; congruence. Qed.

(** ** finalise of what has been read. *)
Section Tz.
Variable tzo : tzid -> Z -> Z -> Z -> Z -> Z -> Z -> bool -> bool -> Z.
Variable ctx : pctx.
Variable fl : floats.

Definition local (d : dt) : Prop := floating d = true /\ mDateOnly d = false.
Lemma local_lt d e : local d -> local e -> dt_lt tzo d e = Ok (cmp_fields d e <? 0).
Proof.
  intros [H1 H2] [H3 H4]. unfold dt_lt, compareDateTime. rewrite H2, H4. cbn [orb].
  unfold tz_same. change (is_float (mTZUTC d) (mTZID d)) with (floating d). rewrite H1. reflexivity.
Qed.
Lemma insert_total x l : local (element_start x) -> Forall (fun c => local (element_start c)) l ->
  exists r, insert_start tzo x l = Ok r /\ Permutation r (x :: l).
Proof.
  intros Hx. induction 1 as [|y l Hy Hl IH]; [eexists; split; reflexivity|]. cbn [insert_start]. rewrite local_lt by assumption. cbn [rbind].
  destruct (_ <? 0); [|eexists; split; reflexivity]. destruct IH as (r & -> & P). cbn [rbind]. eexists; split; [reflexivity|].
  rewrite P. apply perm_swap.
Qed.
Lemma sort_total l : Forall (fun c => local (element_start c)) l -> exists r, sort_start tzo l = Ok r /\ Permutation r l.
Proof.
  induction 1 as [|x l Hx Hl (r & E & P)]; [eexists; split; reflexivity|]. cbn [sort_start]. rewrite E. cbn [rbind].
  destruct (insert_total x r Hx) as (r' & -> & P'); [eapply Permutation_Forall; [symmetry; exact P|assumption]|].
  eexists; split; [reflexivity|]. rewrite P'. constructor; assumption.
Qed.
Lemma same_local d e : same_when d e -> local d -> local e.
Proof. intros (_ & H2 & H3) [F O]. destruct (H3 O) as (_ & U & T). split; [|congruence]. unfold floating in *. rewrite <- U, <- T. assumption. Qed.

Inductive image : comp -> comp -> Prop :=
| image_intro : forall k s ps subs u qs l' c',
    Forall2 (pimg fl) (written_props k ps) qs ->
    Forall2 image (sortedComponents (fun c => c) k subs) l' ->
    finalise tzo (Comp k (newState u) (fold_left put qs []) l') = Ok c' ->
    image (Comp k s ps subs) c'.

Lemma finalise_shape c c' : finalise tzo c = Ok c' -> cKind c' = cKind c /\ cProps c' = cProps c /\
  match cKind c with VTIMEZONE => sort_start tzo (cSubs c) = Ok (cSubs c') | _ => cSubs c' = cSubs c end.
Proof.
  destruct c as [k s ps subs]. cbn [cKind cProps cSubs].
  destruct k; cbn [finalise]; unfold rbind; intro H;
    repeat match type of H with (match ?x with Ok _ => _ | Raise _ => _ end) = _ => destruct x eqn:?; [|discriminate] end;
    injection H as <-; cbn [cKind cProps cSubs]; auto.
Qed.

(** The state is what the properties say. *)
Lemma first_dt name ps d : loadDateTime name ps = Some d -> exists p r, getProperties name ps = p :: r /\ pValue p = Some (Single (VDateTime d)).
Proof.
  unfold loadDateTime, load, findFirstProperty. destruct (getProperties name ps) as [|p r]; [discriminate|]. cbn [hd_error].
  unfold datetime_of. destruct (pValue p) as [[[]|]|] eqn:E; try discriminate. intros [= ->]. eauto.
Qed.

Lemma finalise_total k u ps ps' l : gets fl ps ps' -> cached_ok k ps ->
  (k = VTIMEZONE -> Forall (fun c => local (element_start c)) l) ->
  exists c', finalise tzo (Comp k (newState u) ps' l) = Ok c'.
Proof.
  intros G C L. 
  assert (R : is_recur k = true -> exists s, recur_finalise (newState u) ps' = Ok s).
  { intro K. unfold recur_finalise. rewrite (count_eq fl _ ps ps' G). destruct (_ =? 0)%nat eqn:E; [eexists; reflexivity|].
    assert (Q : exists d, loadDateTime (lit "RECURRENCE-ID") ps = Some d).
    { unfold countProperty in E. unfold loadDateTime, load, findFirstProperty.
      destruct k; try discriminate; cbn [cached_ok] in C; (destruct (getProperties _ ps) as [|p r]; [discriminate|]);
      destruct C as [d C]; exists d; cbn [hd_error]; rewrite C; reflexivity. }
    destruct Q as [d Q]. pose proof (load_datetime fl (lit "RECURRENCE-ID") ps ps' G) as D. rewrite Q in D.
    destruct (loadDateTime _ ps') as [e|]; [|contradiction]. rewrite (check_ok fl _ _ ps ps' G). cbn [rbind]. eexists; reflexivity. }
  assert (A : exists s, alarm_finalise (newState u) ps' = Ok s).
  { unfold alarm_finalise. cbv zeta. destruct (loadDateTime _ ps'); cbn [rbind]; [eexists; reflexivity|].
    destruct (loadDuration _ ps'); [rewrite (check_ok fl _ _ ps ps' G)|]; cbn [rbind]; eexists; reflexivity. }
  destruct k; cbn [finalise]; try (eexists; reflexivity);
    try (destruct (R eq_refl) as [s ->]; cbn [rbind]; eexists; reflexivity).
  - destruct (sort_total l (L eq_refl)) as (r & -> & _). cbn [rbind]. eexists; reflexivity.
  - destruct A as [s ->]. cbn [rbind]. eexists; reflexivity.
Qed.

Lemma props_upper ps : props_ok ctx fl ps -> NoDup (map fst ps) /\ (forall k l p, In (k, l) ps -> In p l -> upper (pName p) = k).
Proof.
  intros [N F]. split; [assumption|]. intros k l p I J. rewrite Forall_forall in F. destruct (F _ I) as (_ & _ & _ & G).
  cbn [fst snd] in G. rewrite Forall_forall in G. apply (G p J).
Qed.

Lemma image_start c c' : image c c' -> tree_ok ctx fl c -> cKind c = STANDARD \/ cKind c = DAYLIGHT -> local (element_start c').
Proof.
  intros I T K. inversion I as [k s ps subs u qs l' c0 F S E]; subst. inversion T as [? ? ? ? A P C Ne Ts EE]; subst.
  destruct (props_upper ps P) as [N U]. pose proof (gets_written fl k ps qs N U F) as G.
  pose proof (load_datetime fl (lit "DTSTART") ps _ G) as D. cbn [cKind] in K.
  assert (Z : local (match loadDateTime (lit "DTSTART") (fold_left put qs []) with Some d => d | None => epoch end)).
  { destruct (loadDateTime (lit "DTSTART") (fold_left put qs [])) as [e|]; [|split; reflexivity].
    destruct (loadDateTime (lit "DTSTART") ps) as [d|] eqn:Ed; [|contradiction]. apply (same_local d); [exact D|].
    apply first_dt in Ed. destruct Ed as (p & r & E1 & E2).
    destruct K as [-> | ->]; cbn [cached_ok] in C; rewrite E1 in C; apply C; assumption. }
  destruct K as [-> | ->]; cbn [finalise] in E; apply Ok_inj in E; subst c'; cbn [element_start cState sStart newState];
    destruct (loadDateTime (lit "DTSTART") (fold_left put qs [])); exact Z.
Qed.
End Tz.
