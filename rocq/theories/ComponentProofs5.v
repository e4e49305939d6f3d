(** Proofs about component trees: the round trip. *)
From Coq Require Import Lia ZifyBool ZifyNat.
From Verif Require Import PyBase PyProofs ParserCtx TextModel TextSpec TextProofs LineModel LineSpec LineProofs FoldProofs
  DateTimeModel DateTimeText DateTimeSpec2 DurationModel RecurModel RecurTextProofs2
  PropertyModel PropertySpec PropertyProofs PropertyProofs2 PropertyProofs3 ComponentModel ComponentSpec ComponentProofs
  ComponentProofs2 ComponentProofs3 ComponentProofs4.
Ltac Zify.zify_post_hook ::= Z.div_mod_to_equations.

Section Parse.
Variable tzo : tzid -> Z -> Z -> Z -> Z -> Z -> Z -> bool -> bool -> Z.
Variable ctx : pctx.
Variable fl : floats.
Variable uuids : nat -> bytes.
Let pline := parse_line tzo ctx fl uuids.
Let plines := parse_lines tzo ctx fl uuids.

Lemma plines_app a b st : plines (a ++ b) st = (do st' <- plines a st; plines b st').
Proof.
  revert st. induction a as [|x a IH]; intro st; [reflexivity|]. unfold plines in *. cbn [app parse_lines].
  destruct (parse_line tzo ctx fl uuids x st); cbn [rbind]; [apply IH|reflexivity].
Qed.

Definition plain_line (l : bytes) : Prop := startswith l (lit "BEGIN:") = false /\ (forall t, l <> lit "END:" ++ t) /\ l <> [].
Lemma line_plain p l : name_ok (pName p) -> upper (pName p) <> lit "BEGIN" -> upper (pName p) <> lit "END" ->
  prop_line fl p = Ok l -> plain_line l.
Proof.
  intros (N0 & _ & N1 & N2) B E H. destruct (line_name fl p l H) as (c & r & -> & C). split; [|split].
  - destruct (startswith _ _) eqn:S; [|reflexivity]. exfalso. apply startswith_app in S. destruct S as [t S].
    apply B. change (lit "BEGIN:" ++ t) with (lit "BEGIN" ++ ":"%char :: t) in S.
    rewrite (name_unique _ _ _ _ _ _ N1 N2 (proj1 (cin_false ";" (lit "BEGIN")) eq_refl) (proj1 (cin_false ":" (lit "BEGIN")) eq_refl) C (or_intror eq_refl) S).
    reflexivity.
  - intros t S. apply E. change (lit "END:" ++ t) with (lit "END" ++ ":"%char :: t) in S.
    rewrite (name_unique _ _ _ _ _ _ N1 N2 (proj1 (cin_false ";" (lit "END")) eq_refl) (proj1 (cin_false ":" (lit "END")) eq_refl) C (or_intror eq_refl) S).
    reflexivity.
  - destruct (pName p); discriminate.
Qed.

Lemma read_props k ps : props_ok ctx fl ps -> exists qs, Forall2 (fun p q =>
    pimg fl p q /\ prop_parse ctx fl (line_of fl p) = Ok q /\ plain_line (line_of fl p)) (written_props k ps) qs.
Proof.
  intro H. assert (G : forall p, In p (written_props k ps) -> exists q,
    pimg fl p q /\ prop_parse ctx fl (line_of fl p) = Ok q /\ plain_line (line_of fl p)).
  { intros p I. destruct (props_in ctx fl ps p k H I) as (key & l & _ & _ & U & B & E & O & _).
    destruct (prop_image ctx fl p O) as (t & q & L & P & M). exists q. unfold line_of. rewrite L. split; [assumption|]. split; [assumption|].
    eapply line_plain; [apply O|congruence|congruence|exact L]. }
  induction (written_props k ps) as [|p l IH]; [exists []; constructor|].
  destruct (G p) as [q Q]; [left; reflexivity|]. destruct IH as [qs F]; [intros; apply G; right; assumption|]. exists (q :: qs). constructor; assumption.
Qed.
Lemma f2_impl {A B} (R S : A -> B -> Prop) l m : (forall x y, R x y -> S x y) -> Forall2 R l m -> Forall2 S l m.
Proof. intro H. induction 1; constructor; auto. Qed.

Lemma end_not l k : (forall t, l <> lit "END:" ++ t) -> beq l (endDelimiter k) = false.
Proof. intro H. destruct (beq_case l (endDelimiter k)) as [[E _]|[_ E]]; [exfalso; exact (H _ E)|assumption]. Qed.

Lemma put_eq p k s ps subs : put_prop p (Comp k s ps subs) = Comp k s (put ps p) subs.
Proof. reflexivity. Qed.

Lemma plain_props fnd slf o n k s subs W qs : Forall2 (fun p q =>
    pimg fl p q /\ prop_parse ctx fl (line_of fl p) = Ok q /\ plain_line (line_of fl p)) W qs -> forall ps rest,
  plines (map (line_of fl) W ++ rest) (mkParse true fnd slf (Comp k s ps subs :: o) n) =
  plines rest (mkParse true fnd slf (Comp k s (fold_left put qs ps) subs :: o) n).
Proof.
  induction 1 as [|p q W qs (M & P & L1 & L2 & L3) F IH]; intros ps rest; [reflexivity|]. cbn [map app fold_left]. unfold plines. cbn [parse_lines].
  unfold parse_line at 1. rewrite L1, !end_not by assumption. cbn [negb]. rewrite P. cbn [rbind].
  destruct (line_of fl p) eqn:E; [congruence|]. cbn [rbind]. rewrite put_eq. apply IH.
Qed.
Lemma top_props fnd k s subs n W qs : Forall2 (fun p q =>
    pimg fl p q /\ prop_parse ctx fl (line_of fl p) = Ok q /\ plain_line (line_of fl p)) W qs -> Forall (fun q => validProperty q = true) qs ->
  forall ps rest, plines (map (line_of fl) W ++ rest) (mkParse true fnd (Comp k s ps subs) [] n) =
  plines rest (mkParse true fnd (Comp k s (fold_left put qs ps) subs) [] n).
Proof.
  induction 1 as [|p q W qs (M & P & L1 & L2 & L3) F IH]; intros V ps rest; [reflexivity|]. cbn [map app fold_left]. unfold plines. cbn [parse_lines].
  inversion V as [|? ? V1 V2]; subst.
  unfold parse_line at 1. rewrite L1, !end_not by assumption. cbn [negb]. rewrite P. cbn [rbind].
  destruct (line_of fl p) eqn:E; [congruence|]. rewrite V1. cbn [rbind]. rewrite put_eq. apply IH. assumption.
Qed.

Lemma known_kind k : kind_ok k -> kind_of (getType k) = k.
Proof.
  destruct k; intro H; try reflexivity; [contradiction|]. cbn [getType kind_ok] in *. destruct H as (H1 & H2 & _).
  unfold kind_of. rewrite assoc_out; [reflexivity|]. intro I. unfold mapper in I. rewrite map_app, in_app_iff in I.
  destruct I as [I|[I|[]]]; [apply H1|apply H2; symmetry; exact I]. exact I.
Qed.
Lemma not_calendar k : kind_ok k -> getType k <> lit "VCALENDAR".
Proof. destruct k; try discriminate; [contradiction|]. cbn. tauto. Qed.
Lemma allowed_ok parent child : kind_ok child -> nesting_ok parent child -> allowed parent child = true.
Proof. destruct parent; cbn [nesting_ok allowed]; intros K H; try reflexivity; try (subst; reflexivity). destruct H as [-> | ->]; reflexivity. Qed.

Definition put_sub (c d : comp) : comp := let '(Comp k s ps subs) := d in Comp k s ps (subs ++ [c]).
Definition attach (fnd : bool) (slf : comp) (o : list comp) (c : comp) (n : nat) : pstate :=
  match o with
  | [] => mkParse true fnd (put_sub c slf) [] n
  | d :: o => mkParse true fnd slf (put_sub c d :: o) n
  end.
Definition parent (slf : comp) (o : list comp) : kind := match o with [] => cKind slf | d :: _ => cKind d end.
Lemma add_ok d c : kind_ok (cKind c) -> nesting_ok (cKind d) (cKind c) -> addComponent d c = Ok (put_sub c d).
Proof. destruct d as [k s ps subs]. cbn [cKind addComponent put_sub]. intros K H. rewrite allowed_ok by assumption. reflexivity. Qed.

Definition reads (c : comp) : Prop := forall n, exists c' n', image tzo fl c c' /\ cKind c' = cKind c /\ forall fnd slf o rest,
  cKind slf = VCALENDAR -> nesting_ok (parent slf o) (cKind c) ->
  plines (lines_of fl c ++ rest) (mkParse true fnd slf o n) = plines rest (attach fnd slf o c' n').

Lemma image_kind c c' : image tzo fl c c' -> cKind c' = cKind c.
Proof. intro H. inversion H as [k s ps subs u qs l' c0 F S E]; subst. apply finalise_shape in E. apply E. Qed.

(** Components one after the other in an open component. *)
Lemma read_subs l : Forall reads l -> forall n, exists l' n', Forall2 (image tzo fl) l l' /\
  forall fnd slf k s ps subs o rest, cKind slf = VCALENDAR -> Forall (fun c => nesting_ok k (cKind c)) l ->
  plines (List.concat (map (lines_of fl) l) ++ rest) (mkParse true fnd slf (Comp k s ps subs :: o) n) =
  plines rest (mkParse true fnd slf (Comp k s ps (subs ++ l') :: o) n').
Proof.
  induction 1 as [|c l R _ IH]; intro n.
  - exists [], n. split; [constructor|]. intros. rewrite app_nil_r. reflexivity.
  - destruct (R n) as (c' & n1 & M & K & H). destruct (IH n1) as (l' & n' & F & G). exists (c' :: l'), n'. split; [constructor; assumption|].
    intros fnd slf k s ps subs o rest V Q. inversion Q as [|? ? Q1 Q2]; subst. cbn [map List.concat]. rewrite <- app_assoc.
    rewrite H by assumption. cbn [attach put_sub]. rewrite G by assumption. rewrite <- app_assoc. reflexivity.
Qed.
Lemma read_top l : Forall reads l -> forall n, exists l' n', Forall2 (image tzo fl) l l' /\
  forall fnd s ps subs rest,
  plines (List.concat (map (lines_of fl) l) ++ rest) (mkParse true fnd (Comp VCALENDAR s ps subs) [] n) =
  plines rest (mkParse true fnd (Comp VCALENDAR s ps (subs ++ l')) [] n').
Proof.
  induction 1 as [|c l R _ IH]; intro n.
  - exists [], n. split; [constructor|]. intros. rewrite app_nil_r. reflexivity.
  - destruct (R n) as (c' & n1 & M & K & H). destruct (IH n1) as (l' & n' & F & G). exists (c' :: l'), n'. split; [constructor; assumption|].
    intros fnd s ps subs rest. cbn [map List.concat]. rewrite <- app_assoc.
    rewrite H by (try reflexivity; exact I). cbn [attach put_sub]. rewrite G. rewrite <- app_assoc. reflexivity.
Qed.

Lemma nest_type k : k = VTIMEZONE -> forall c, nesting_ok k (cKind c) -> cKind c = STANDARD \/ cKind c = DAYLIGHT.
Proof. intros -> c H. exact H. Qed.

Lemma tree_reads c : tree_ok ctx fl c -> reads c.
Proof.
  induction c as [k s ps subs IH] using comp_tree_ind. intro T. inversion T as [? ? ? ? K P C Ne Ts E]; subst.
  intro n. destruct (props_upper ctx fl ps P) as [N U]. destruct (read_props k ps P) as [qs Q].
  assert (Fq : Forall2 (pimg fl) (written_props k ps) qs) by (eapply f2_impl; [|exact Q]; intros ? ? [Z _]; exact Z).
  set (l := sortedComponents (fun c => c) k subs).
  assert (Pl : Permutation l subs) by apply sorted_perm.
  assert (Hl : Forall reads l).
  { eapply Permutation_Forall; [symmetry; exact Pl|]. rewrite Forall_forall in *. auto. }
  assert (Tl : Forall (tree_ok ctx fl) l) by (eapply Permutation_Forall; [symmetry; exact Pl|assumption]).
  assert (Nl : Forall (fun c => nesting_ok k (cKind c)) l) by (eapply Permutation_Forall; [symmetry; exact Pl|assumption]).
  destruct (read_subs l Hl (S n)) as (l' & n' & F & G).
  destruct (finalise_total tzo fl k (uuids n) ps (fold_left put qs []) l' (gets_written fl k ps qs N U Fq) C) as (c' & Ec).
  { intro Kz. clear - F Tl Nl Kz. induction F as [|x y l l' M F IH]; [constructor|]. inversion Tl; subst. inversion Nl; subst.
    constructor; [|apply IH; assumption]. eapply image_start; [exact M|eassumption|]. assumption. }
  exists c', n'. assert (M : image tzo fl (Comp k s ps subs) c') by (eapply image_intro; eassumption).
  split; [assumption|]. split; [apply image_kind in M; assumption|].
  intros fnd slf o rest V Hn. rewrite lines_of_eq. fold l. unfold plines. cbn [app parse_lines].
  unfold parse_line at 1. cbn [negb].
  assert (B : startswith (beginDelimiter k) (lit "BEGIN:") = true) by (unfold beginDelimiter; destruct (getType k); reflexivity).
  rewrite B. cbn [rbind].
  assert (B2 : makeComponent (skipn 6 (beginDelimiter k)) (uuids n) = Comp k (newState (uuids n)) [] []).
  { unfold makeComponent. change (skipn 6 (beginDelimiter k)) with (getType k). rewrite known_kind by assumption. reflexivity. }
  rewrite B2. fold plines. rewrite <- app_assoc. rewrite (plain_props _ _ _ _ _ _ _ _ _ Q). rewrite <- app_assoc. rewrite G by assumption. cbn [app].
  unfold plines. cbn [parse_lines]. fold plines.
  unfold parse_line at 1. cbn [negb].
  assert (X1 : startswith (endDelimiter k) (lit "BEGIN:") = false) by reflexivity. rewrite X1.
  assert (X2 : beq (endDelimiter k) (endDelimiter (cKind slf)) = false).
  { rewrite V. destruct (beq_case (endDelimiter k) (endDelimiter VCALENDAR)) as [[X _]|[_ X]]; [|assumption]. exfalso.
    unfold endDelimiter in X. apply app_inv_head in X. apply (not_calendar k K). exact X. }
  rewrite X2. cbn [cKind]. rewrite beq_refl. rewrite Ec. cbn [rbind].
  assert (Kc : cKind c' = k) by (apply image_kind in M; assumption).
  destruct o as [|d o].
  - rewrite (add_ok slf c') by (rewrite Kc; assumption). reflexivity.
  - rewrite (add_ok d c') by (rewrite Kc; assumption). reflexivity.
Qed.

Definition calendar_image (c c' : comp) : Prop :=
  exists qs l', Forall2 (pimg fl) (written_props VCALENDAR (cProps c)) qs /\
    Forall2 (image tzo fl) (sortedComponents (fun c => c) VCALENDAR (cSubs c)) l' /\
    c' = Comp VCALENDAR (newState []) (fold_left put qs []) l'.

Lemma valid_image p q : calendar_prop_ok p -> pimg fl p q -> validProperty q = true.
Proof.
  intros [A B] (S & _). destruct S as (Nm & _ & V). unfold validProperty. rewrite <- Nm.
  destruct (beq_case (pName p) (lit "VERSION")) as [[E1 ->]|[E1 ->]].
  - rewrite (A E1) in V. destruct (pValue q) as [[j|]|]; try contradiction. cbn [same_value same_item] in V. rewrite <- V. reflexivity.
  - destruct (beq_case (pName p) (lit "CALSCALE")) as [[E2 ->]|[E2 ->]]; [|reflexivity].
    rewrite (B E2) in V. destruct (pValue q) as [[j|]|]; try contradiction. cbn [same_value same_item] in V. rewrite <- V. reflexivity.
Qed.

Lemma calendar_round c : calendar_ok ctx fl c -> exists text c', generate fl c = Some (Ok text) /\
  parseTextData tzo ctx fl uuids text = Ok (Some c') /\ calendar_image c c'.
Proof.
  destruct c as [k s ps subs]. intros (K & P & Hv & Hc & Ts). cbn [cKind cProps cSubs] in *. subst k.
  destruct (generate_lines ctx fl (Comp VCALENDAR s ps subs)) as (text & Eg & W).
  { constructor; [apply type_text; right; reflexivity|assumption|]. eapply Forall_impl; [|exact Ts]. intro; apply tree_writable. }
  exists text. destruct (props_upper ctx fl ps P) as [N U]. destruct (read_props VCALENDAR ps P) as [qs Q].
  assert (Fq : Forall2 (pimg fl) (written_props VCALENDAR ps) qs) by (eapply f2_impl; [|exact Q]; intros ? ? [Z _]; exact Z).
  set (l := sortedComponents (fun c => c) VCALENDAR subs) in *.
  assert (Pl : Permutation l subs) by apply sorted_perm.
  assert (Hl : Forall reads l).
  { eapply Permutation_Forall; [symmetry; exact Pl|]. eapply Forall_impl; [|exact Ts]. intro; apply tree_reads. }
  destruct (read_top l Hl 0) as (l' & n' & F & G).
  assert (Vq : Forall (fun q => validProperty q = true) qs).
  { assert (Z : forall p, In p (written_props VCALENDAR ps) -> calendar_prop_ok p).
    { intros p I. destruct (written_in ps N _ p I) as (key & m & I1 & I2). rewrite Forall_forall in Hc. apply Hc.
      apply in_concat. exists m. split; [|assumption]. apply in_map_iff. exists (key, m). auto. }
    clear - Fq Z. induction Fq as [|p q W qs M F IH]; constructor; [eapply valid_image; [apply Z; left; reflexivity|exact M]|].
    apply IH. intros r I; apply Z; right; assumption. }
  exists (Comp VCALENDAR (newState []) (fold_left put qs []) l'). split; [assumption|]. split; [|exists qs, l'; auto].
  unfold parseTextData, parse. cbn [rbind]. rewrite (read_written _ _ W), lines_of_eq. fold l. cbn [parse_lines].
  unfold parse_line at 1. cbn [negb cKind]. rewrite beq_refl. cbn [rbind]. fold plines.
  rewrite (top_props _ _ _ _ _ _ _ Q Vq). rewrite G. unfold plines. cbn [parse_lines app]. unfold parse_line. cbn [negb].
  assert (X1 : startswith (endDelimiter VCALENDAR) (lit "BEGIN:") = false) by reflexivity. rewrite X1. cbn [cKind]. rewrite beq_refl.
  cbn [finalise rbind]. cbn [inside found self cProps andb].
  assert (Hp : hasProperty (lit "VERSION") (fold_left put qs []) = true).
  { pose proof (gets_written fl VCALENDAR ps qs N U Fq (lit "VERSION")) as Z. unfold hasProperty. destruct (assoc _ _) eqn:Ea; [reflexivity|].
    exfalso. apply Hv. assert (E0 : getProperties (lit "VERSION") (fold_left put qs []) = []) by (unfold getProperties; rewrite Ea; reflexivity).
    rewrite E0 in Z. destruct (getProperties (lit "VERSION") ps); [reflexivity|inversion Z]. }
  rewrite Hp. reflexivity.
Qed.
End Parse.
