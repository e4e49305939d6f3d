(** Proofs about the JSON form: trees of components. *)
From Coq Require Import Lia ZifyBool ZifyNat.
From Verif Require Import PyBase PyProofs ParserCtx TextModel TextSpec TextProofs LineModel LineSpec LineProofs
  DateTimeModel DateTimeText DateTimeSpec2 DurationModel RecurModel RecurSpec
  PropertyModel PropertySpec PropertyProofs PropertyProofs2 PropertyProofs3
  ComponentModel ComponentSpec ComponentProofs ComponentProofs2 ComponentProofs3 ComponentProofs4 ComponentProofs5 ComponentProofs6
  ValidateModel ValidateProofs2 JsonModel JsonSpec JsonProofs JsonProofs2.
Ltac Zify.zify_post_hook ::= Z.div_mod_to_equations.

Definition jgets (ps ps' : props) : Prop := forall name, Forall2 jimg (getProperties name ps) (getProperties name ps').
Lemma jgets_written k ps qs : NoDup (map fst ps) -> (forall k l p, In (k, l) ps -> In p l -> upper (pName p) = k) ->
  Forall2 jimg (written_props k ps) qs -> jgets ps (fold_left put qs []).
Proof.
  intros N U F name. rewrite get_puts. change (getProperties name []) with (@nil prop). cbn [app].
  rewrite <- (written_filter ps N U k name). apply filter_f2; [|assumption].
  intros p q ((E & _) & _). unfold is_name. rewrite E, upper_twice. reflexivity.
Qed.
Lemma jload_datetime name ps ps' : jgets ps ps' -> opt_rel same_when (loadDateTime name ps) (loadDateTime name ps').
Proof.
  intro G. specialize (G name). unfold loadDateTime, load, findFirstProperty. destruct G as [|p q l m P F]; cbn [hd_error]; [exact I|].
  destruct P as ((_ & _ & V) & _). destruct (pValue p) as [[i|t l']|], (pValue q) as [[j|u m']|]; try contradiction; try exact I; try (destruct V as [_ V]; contradiction).
  destruct V as [_ V]. cbn [same_value] in V. destruct i, j; cbn [same_item] in V; try discriminate V; try contradiction; try exact I. exact V.
Qed.
Lemma jcheck_ok name pn ps ps' : jgets ps ps' -> check_param pn (findFirstProperty name ps') = Ok tt.
Proof.
  intro G. specialize (G name). unfold findFirstProperty. destruct G as [|p q l m P F]; [reflexivity|]. cbn [hd_error check_param].
  destruct P as (_ & _ & Q). destruct (assoc pn (pParams q)) as [L|] eqn:E; [|reflexivity]. apply assoc_some in E.
  rewrite Forall_forall in Q. destruct (Q _ E) as (n & v & r & X). cbn [snd] in X. subst L. reflexivity.
Qed.
Lemma jcount_eq name ps ps' : jgets ps ps' -> countProperty name ps' = countProperty name ps.
Proof. intro G. specialize (G name). unfold countProperty. symmetry. induction G; cbn [List.length]; congruence. Qed.

Section Tz.
Variable tzo : tzid -> Z -> Z -> Z -> Z -> Z -> Z -> bool -> bool -> Z.
Variable ctx : pctx.
Variable fl : floats.
Variable nm : jnums.
Variable uuids : nat -> bytes.

Lemma jfinalise_total k u ps ps' l : jgets ps ps' -> cached_ok k ps ->
  (k = VTIMEZONE -> Forall (fun c => ComponentProofs4.local (element_start c)) l) ->
  exists c', finalise tzo (Comp k (newState u) ps' l) = Ok c'.
Proof.
  intros G C L.
  assert (R : is_recur k = true -> exists s, recur_finalise (newState u) ps' = Ok s).
  { intro K. unfold recur_finalise. rewrite (jcount_eq _ ps ps' G). destruct (_ =? 0)%nat eqn:E; [eexists; reflexivity|].
    assert (Q : exists d, loadDateTime (lit "RECURRENCE-ID") ps = Some d).
    { unfold countProperty in E. unfold loadDateTime, load, findFirstProperty.
      destruct k; try discriminate; cbn [cached_ok] in C; (destruct (getProperties _ ps) as [|p r]; [discriminate|]);
      destruct C as [d C]; exists d; cbn [hd_error]; rewrite C; reflexivity. }
    destruct Q as [d Q]. pose proof (jload_datetime (lit "RECURRENCE-ID") ps ps' G) as D. rewrite Q in D.
    destruct (loadDateTime _ ps') as [e|]; [|contradiction]. rewrite (jcheck_ok _ _ ps ps' G). cbn [rbind]. eexists; reflexivity. }
  assert (A : exists s, alarm_finalise (newState u) ps' = Ok s).
  { unfold alarm_finalise. cbv zeta. destruct (loadDateTime _ ps'); cbn [rbind]; [eexists; reflexivity|].
    destruct (loadDuration _ ps'); [rewrite (jcheck_ok _ _ ps ps' G)|]; cbn [rbind]; eexists; reflexivity. }
  destruct k; cbn [finalise]; try (eexists; reflexivity);
    try (destruct (R eq_refl) as [s ->]; cbn [rbind]; eexists; reflexivity).
  - destruct (sort_total tzo l (L eq_refl)) as (r & -> & _). cbn [rbind]. eexists; reflexivity.
  - destruct A as [s ->]. cbn [rbind]. eexists; reflexivity.
Qed.

Inductive jimage : comp -> comp -> Prop :=
| jimage_intro : forall k s ps subs u qs l' c',
    Forall2 jimg (written_props k ps) qs ->
    Forall2 jimage (sortedComponents (fun c => c) k subs) l' ->
    finalise tzo (Comp k (newState u) (fold_left put qs []) l') = Ok c' ->
    jimage (Comp k s ps subs) c'.
Lemma jimage_kind c c' : jimage c c' -> cKind c' = cKind c.
Proof. intro H. inversion H as [k s ps subs u qs l' c0 F S E]; subst. apply finalise_shape in E. apply E. Qed.

Lemma jprops_upper ps : props_json_ok ps -> NoDup (map fst ps) /\ (forall k l p, In (k, l) ps -> In p l -> upper (pName p) = k).
Proof.
  intros [N F]. split; [assumption|]. intros k l p I J. rewrite Forall_forall in F. specialize (F _ I).
  cbn [fst snd] in F. rewrite Forall_forall in F. apply (F p J).
Qed.
Lemma jimage_start c c' : jimage c c' -> tree_json_ok c -> cKind c = STANDARD \/ cKind c = DAYLIGHT -> ComponentProofs4.local (element_start c').
Proof.
  intros I T K. inversion I as [k s ps subs u qs l' c0 F S E]; subst. inversion T as [? ? ? ? A P C Ne Ts]; subst.
  destruct (jprops_upper ps P) as [N U]. pose proof (jgets_written k ps qs N U F) as G.
  pose proof (jload_datetime (lit "DTSTART") ps _ G) as D. cbn [cKind] in K.
  assert (Z : ComponentProofs4.local (match loadDateTime (lit "DTSTART") (fold_left put qs []) with Some d => d | None => epoch end)).
  { destruct (loadDateTime (lit "DTSTART") (fold_left put qs [])) as [e|]; [|split; reflexivity].
    destruct (loadDateTime (lit "DTSTART") ps) as [d|] eqn:Ed; [|contradiction]. apply (same_local d); [exact D|].
    apply first_dt in Ed. destruct Ed as (p & r & E1 & E2).
    destruct K as [-> | ->]; cbn [cached_ok] in C; rewrite E1 in C; apply C; assumption. }
  destruct K as [-> | ->]; cbn [finalise] in E; apply Ok_inj in E; subst c'; cbn [element_start cState sStart newState];
    destruct (loadDateTime (lit "DTSTART") (fold_left put qs [])); exact Z.
Qed.

(** ** Properties. *)
Lemma fold_props l qs : Forall2 (fun j q => prop_parseJSON ctx fl nm j = Ok q) l qs -> forall k s ps subs,
  fold_left (fun r j => do c <- r; do p <- prop_parseJSON ctx fl nm j; Ok (put_prop p c)) l (Ok (Comp k s ps subs)) =
  Ok (Comp k s (fold_left put qs ps) subs).
Proof.
  induction 1 as [|j q l qs H F IH]; intros; cbn [fold_left]; [reflexivity|]. cbn [rbind]. rewrite H. cbn [rbind].
  change (put_prop q (Comp k s ps subs)) with (Comp k s (put ps q) subs). apply IH.
Qed.
Lemma props_round W : Forall prop_json_ok W -> exists pl, map_r prop_writeJSON W = Ok pl /\ forall pl', Forall2 reordered pl pl' ->
  exists qs, Forall2 jimg W qs /\ Forall2 (fun j q => prop_parseJSON ctx fl nm j = Ok q) pl' qs.
Proof.
  induction 1 as [|p W H F (pl & E & R)].
  - exists []. split; [reflexivity|]. intros pl' Q. inversion Q; subst. exists []. split; constructor.
  - destruct (prop_json_read ctx fl nm p H) as (j & J & K). exists (j :: pl). split; [cbn [map_r]; rewrite J; cbn [rbind]; rewrite E; reflexivity|].
    intros pl' Q. inversion Q as [|? j' ? pl2 Q1 Q2]; subst. destruct (K j' Q1) as (q & P & M). destruct (R pl2 Q2) as (qs & F1 & F2).
    exists (q :: qs). split; constructor; assumption.
Qed.
Lemma written_json_ok k ps : props_json_ok ps -> Forall prop_json_ok (written_props k ps).
Proof.
  intros [N F]. apply Forall_forall. intros p I. destruct (written_in ps N k p I) as (key & l & I1 & I2).
  rewrite Forall_forall in F. specialize (F _ I1). cbn [snd] in F. rewrite Forall_forall in F. apply (F p I2).
Qed.

(** ** Components. *)
Lemma known_json k : kind_json_ok k -> kind_of (getType k) = k.
Proof.
  destruct k; intro H; try reflexivity; [contradiction|]. cbn [getType kind_json_ok] in *. destruct H as (H1 & H2 & _).
  unfold kind_of. rewrite assoc_out; [reflexivity|]. intro I. unfold mapper in I. rewrite map_app, in_app_iff in I.
  destruct I as [I|[I|[]]]; [apply H1|apply H2; symmetry; exact I]. exact I.
Qed.
Lemma type_json k : kind_json_ok k -> uupper (lower (getType k)) = Ok (getType k).
Proof.
  intro H. unfold uupper. assert (A : is_ascii (lower (getType k)) = true /\ upper (getType k) = getType k).
  { destruct k; try (split; reflexivity); try contradiction. destruct H as (_ & _ & H1 & H2). split; [apply ascii_lower, ascii_spec; exact H2|exact H1]. }
  destruct A as [-> A]. rewrite upper_of_lower, A. reflexivity.
Qed.
Lemma add_json d c : nesting_ok (cKind d) (cKind c) -> addComponent d c = Ok (put_sub c d).
Proof.
  destruct d as [k s ps subs]. cbn [cKind addComponent put_sub]. intros H.
  assert (allowed k (cKind c) = true) as ->; [|reflexivity].
  destruct k; cbn [nesting_ok allowed] in *; try reflexivity; try (rewrite H; reflexivity). destruct H as [-> | ->]; reflexivity.
Qed.

Lemma comp_json_eq name jprops subs rest n :
  comp_parseJSON ctx fl nm tzo uuids (JArr (JText name :: jprops :: JArr subs :: rest)) n =
  guarded (do cname <- uupper name;
    do c <- read_props ctx fl nm jprops (makeComponent cname (uuids n));
    do cn <- subs_parseJSON ctx fl nm tzo uuids subs c (S n);
    do c' <- finalise tzo (fst cn);
    Ok (c', snd cn)).
Proof. reflexivity. Qed.
Lemma writeJSON_eq k s ps subs : writeJSON (Comp k s ps subs) =
  (do pl <- map_r prop_writeJSON (written_props k ps);
   do cl <- all_json (map writeJSON (sortedComponents (fun c => c) k subs));
   Ok (JArr [JText (lower (getType k)); JArr pl; JArr cl])).
Proof. rewrite <- (sorted_snd writeJSON). reflexivity. Qed.

Definition jreads (c : comp) : Prop := exists j, writeJSON c = Ok j /\ forall j', reordered j j' -> forall n, exists c' n',
  comp_parseJSON ctx fl nm tzo uuids j' n = Ok (c', n') /\ jimage c c'.
Lemma subs_round l : Forall jreads l -> exists cl, all_json (map writeJSON l) = Ok cl /\ forall cl', Forall2 reordered cl cl' -> forall n,
  exists l' n', Forall2 jimage l l' /\ forall k s ps subs, Forall (fun c => nesting_ok k (cKind c)) l ->
    subs_parseJSON ctx fl nm tzo uuids cl' (Comp k s ps subs) n = Ok (Comp k s ps (subs ++ l'), n').
Proof.
  induction 1 as [|c l (j & J & R) F (cl & E & B)].
  - exists []. split; [reflexivity|]. intros cl' Q n. inversion Q; subst. exists [], n. split; [constructor|]. intros. rewrite app_nil_r. reflexivity.
  - exists (j :: cl). split; [cbn [map all_json]; rewrite J; cbn [rbind]; rewrite E; reflexivity|].
    intros cl' Q n. inversion Q as [|? j' ? cl2 Q1 Q2]; subst. destruct (R j' Q1 n) as (c' & n1 & P & M). destruct (B cl2 Q2 n1) as (l' & n' & Fl & G).
    exists (c' :: l'), n'. split; [constructor; assumption|]. intros k s ps subs H. inversion H as [|? ? H1 H2]; subst.
    cbn [subs_parseJSON]. rewrite P. cbn [rbind fst snd]. rewrite add_json by (cbn [cKind]; rewrite (jimage_kind _ _ M); assumption). cbn [rbind put_sub].
    rewrite G by assumption. rewrite <- app_assoc. reflexivity.
Qed.

Lemma tree_json_reads c : tree_json_ok c -> jreads c.
Proof.
  induction c as [k s ps subs IH] using comp_tree_ind. intro T. inversion T as [? ? ? ? K P C Ne Ts]; subst.
  destruct (jprops_upper ps P) as [N U].
  set (l := sortedComponents (fun c => c) k subs).
  assert (Pl : Permutation l subs) by apply sorted_perm.
  assert (Hl : Forall jreads l) by (eapply Permutation_Forall; [symmetry; exact Pl|]; rewrite Forall_forall in *; auto).
  assert (Tl : Forall tree_json_ok l) by (eapply Permutation_Forall; [symmetry; exact Pl|assumption]).
  assert (Nl : Forall (fun c => nesting_ok k (cKind c)) l) by (eapply Permutation_Forall; [symmetry; exact Pl|assumption]).
  destruct (props_round (written_props k ps) (written_json_ok k ps P)) as (pl & E1 & R1).
  destruct (subs_round l Hl) as (cl & E2 & R2).
  exists (JArr [JText (lower (getType k)); JArr pl; JArr cl]). split; [rewrite writeJSON_eq; fold l; rewrite E1, E2; reflexivity|].
  intros j' Q n. inversion Q as [| | | | |? ? Q'|]; subst. clear Q.
  inversion Q' as [|? k1 ? m1 Q1 Q2]; subst. inversion Q2 as [|? k2 ? m2 Q3 Q4]; subst. inversion Q4 as [|? k3 ? m3 Q5 Q6]; subst. inversion Q6; subst.
  apply re_scalar in Q1; [subst|exact I]. inversion Q3 as [| | | | |? pl' Qp|]; subst. inversion Q5 as [| | | | |? cl' Qc|]; subst.
  destruct (R1 pl' Qp) as (qs & F1 & F2). destruct (R2 cl' Qc (S n)) as (l' & n' & F3 & G).
  destruct (jfinalise_total k (uuids n) ps (fold_left put qs []) l' (jgets_written k ps qs N U F1) C) as (c' & Ec).
  { intro Kz. clear - F3 Tl Nl Kz. induction F3 as [|x y l l' M F IH]; [constructor|]. inversion Tl; subst. inversion Nl; subst.
    constructor; [|apply IH; assumption]. eapply jimage_start; [exact M|eassumption|]. assumption. }
  exists c', n'. split; [|eapply jimage_intro; eassumption].
  rewrite comp_json_eq, type_json by assumption. cbn [rbind]. unfold makeComponent. rewrite known_json by assumption.
  unfold read_props. cbn [elements rbind]. rewrite (fold_props _ _ F2). cbn [rbind]. rewrite G by assumption. cbn [rbind fst snd app]. rewrite Ec. reflexivity.
Qed.

Lemma jimage_same c : forall c', tree_json_ok c -> jimage c c' -> same_json_tree c c'.
Proof.
  induction c as [k s ps subs IH] using comp_tree_ind. intros c' T M. inversion T as [? ? ? ? K P C Ne Ts]; subst.
  inversion M as [? ? ? ? u qs l' c0 F S E]; subst. destruct (jprops_upper ps P) as [N U].
  pose proof (jgets_written k ps qs N U F) as G. pose proof (finalise_subs tzo _ _ E) as Ps.
  pose proof (finalise_shape _ _ _ E) as (Hk & Hp & _). destruct c' as [k' s' ps' subs']. cbn [cKind cProps cSubs] in *. subst k' ps'.
  assert (F2 : Forall2 same_json_tree (sortedComponents (fun c => c) k subs) l').
  { eapply f2_in; [exact S|]. intros x y I Mx. assert (Ix : In x subs) by (eapply Permutation_in; [apply sorted_perm|exact I]).
    rewrite Forall_forall in IH, Ts. apply (IH x Ix); auto. }
  destruct (f2_permute _ _ _ _ F2 Ps) as (m & Pm & Fm). apply (same_json_comp k s s' ps _ subs subs' m); [|rewrite Pm; apply sorted_perm|assumption].
  intro name. eapply f2_impl; [|apply G]. intros p q H; apply H.
Qed.

Lemma calendar_json_round c : calendar_json_ok c -> exists j, writeJSON c = Ok j /\ forall j', reordered j j' ->
  exists c', parseJSONData ctx fl nm tzo uuids j' = Ok c' /\ same_json_tree c c'.
Proof.
  destruct c as [k s ps subs]. intros (K & P & Ts). cbn [cKind cProps cSubs] in *. subst k.
  destruct (jprops_upper ps P) as [N U]. set (l := sortedComponents (fun c => c) VCALENDAR subs).
  assert (Pl : Permutation l subs) by apply sorted_perm.
  assert (Tl : Forall tree_json_ok l) by (eapply Permutation_Forall; [symmetry; exact Pl|assumption]).
  assert (Hl : Forall jreads l) by (eapply Forall_impl; [|exact Tl]; intro; apply tree_json_reads).
  destruct (props_round (written_props VCALENDAR ps) (written_json_ok _ ps P)) as (pl & E1 & R1).
  destruct (subs_round l Hl) as (cl & E2 & R2).
  exists (JArr [JText (lower (getType VCALENDAR)); JArr pl; JArr cl]). split; [rewrite writeJSON_eq; fold l; rewrite E1, E2; reflexivity|].
  intros j' Q. inversion Q as [| | | | |? ? Q'|]; subst. clear Q.
  inversion Q' as [|? k1 ? m1 Q1 Q2]; subst. inversion Q2 as [|? k2 ? m2 Q3 Q4]; subst. inversion Q4 as [|? k3 ? m3 Q5 Q6]; subst. inversion Q6; subst.
  inversion Q3 as [| | | | |? pl' Qp|]; subst. inversion Q5 as [| | | | |? cl' Qc|]; subst.
  destruct (R1 pl' Qp) as (qs & F1 & F2). destruct (R2 cl' Qc 0%nat) as (l' & n' & F3 & G).
  exists (Comp VCALENDAR (newState []) (fold_left put qs []) l'). split.
  - unfold parseJSONData, read_props. cbn [elements rbind]. rewrite (fold_props _ _ F2). cbn [rbind].
    rewrite G by (apply Forall_forall; intros; exact I). reflexivity.
  - pose proof (jgets_written VCALENDAR ps qs N U F1) as Gp.
    apply (same_json_comp VCALENDAR s _ ps _ subs l' l).
    + intro name. eapply f2_impl; [|apply Gp]. intros p q H; apply H.
    + assumption.
    + eapply f2_in; [exact F3|]. intros x y Ix Mx. rewrite Forall_forall in Tl. apply jimage_same; auto.
Qed.
End Tz.
