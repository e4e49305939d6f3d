(** Proofs about the JSON form of vCards: values made of several texts, and exceptions. *)
From Coq Require Import Lia ZifyBool ZifyNat.
From Verif Require Import PyBase PyProofs ParserCtx TextModel TextSpec TextProofs LineModel LineSpec LineProofs
  PropertyModel PropertySpec PropertyProofs PropertyProofs2 PropertyProofs3
  ComponentModel ComponentProofs ComponentProofs2 JsonModel JsonSpec JsonProofs JsonProofs2 VCardModel VCardSpec VCardProofs VCardProofs2 VCardJsonModel VCardJsonSpec VCardJsonProofs.

Section Read.
Variables (ctx : pctx) (fl : floats) (nm : jnums).

Lemma structured_written p i : cpValue p = Some (CSingle i) -> structured (citem_type i) -> exists j js, citem_json i = Ok js /\ cprop_writeJSON p = Ok j /\
  j = JArr [JText (lower (cpName p)); JObj (params_json (cpParams p)); JNull; js].
Proof.
  intros E S. assert (J : exists js, citem_json i = Ok js) by (destruct i as [i|l|l|[|s [|]]]; cbn in S |- *; eauto; destruct S as [S|[S|S]]; discriminate S).
  destruct J as [js J]. eexists. exists js. split; [exact J|]. split; [|reflexivity]. unfold cprop_writeJSON. rewrite E. unfold cvalue_json. cbn [cvalue_type].
  assert (ctype_json (citem_type i) = Ok JNull) as -> by (destruct S as [-> | [-> | ->]]; reflexivity). cbn [rbind]. rewrite J. reflexivity.
Qed.
Lemma parts_json i j : structured (citem_type i) -> citem_json i = Ok j -> parts_written i j.
Proof.
  intros S E. assert (P : forall l, Forall2 part_written l (map nested_json l)) by (induction l as [|[s|m] l IH]; constructor; auto; constructor).
  destruct i as [i|l|l|l].
  - destruct S as [S|[S|S]]; discriminate S.
  - injection E as <-. constructor. apply P.
  - injection E as <-. constructor. apply P.
  - destruct l as [|s [|t l]]; injection E as <-.
    + apply (pw_org []). discriminate.
    + constructor.
    + apply (pw_org (s :: t :: l)). discriminate.
Qed.
Lemma structured_shape p i : cpValue p = Some (CSingle i) -> structured (citem_type i) ->
  exists m js, cprop_writeJSON p = Ok (JArr [JText (lower (cpName p)); JObj m; JNull; js]) /\ parts_written i js.
Proof.
  intros E S. destruct (structured_written p i E S) as (j & js & J & W & ->). exists (params_json (cpParams p)), js. split; [exact W|]. apply parts_json; assumption.
Qed.
Lemma reordered_prop a b c d k : reordered (JArr [JText a; JObj b; c; d]) k -> exists b' c' d', k = JArr [JText a; b'; c'; d'] /\ reordered (JObj b) b' /\ reordered c c' /\ reordered d d'.
Proof.
  intro Q. inversion Q as [| | | | |l m Q'|]; subst. inversion Q' as [|? k1 ? m1 Q1 Q2]; subst. inversion Q2 as [|? k2 ? m2 Q3 Q4]; subst. inversion Q4 as [|? k3 ? m3 Q5 Q6]; subst.
  inversion Q6 as [|? k4 ? m4 Q7 Q8]; subst. inversion Q8; subst. apply re_scalar in Q1; [subst|exact I]. exists k2, k3, k4. auto.
Qed.
Lemma structured_refused p i : cpValue p = Some (CSingle i) -> structured (citem_type i) -> exists j, cprop_writeJSON p = Ok j /\
  forall k, reordered j k -> (forall q, cprop_parseJSON ctx fl nm k <> Ok q) /\ (params_json_ok (cpParams p) -> cprop_parseJSON ctx fl nm k = Raise InvalidProperty).
Proof.
  intros E S. destruct (structured_written p i E S) as (j & js & _ & W & ->). eexists. split; [exact W|]. intros k Q.
  destruct (reordered_prop _ _ _ _ _ Q) as (b & c & d & -> & Qb & Qc & _). apply re_scalar in Qc; [subst c|exact I].
  unfold cprop_parseJSON, cprop_read. cbn [jencode rbind]. cbv zeta. split.
  - intro q. destruct (params_parseJSON nm b) as [ps|e]; cbn [rbind]; [discriminate|destruct e; discriminate].
  - intro H. destruct (params_read nm _ b H Qb) as (qs & -> & _). reflexivity.
Qed.
Lemma structured_card c key l p i j : NoDup (map fst c) -> In (key, l) c -> In p l -> cpValue p = Some (CSingle i) -> structured (citem_type i) -> upper (cpName p) = key ->
  card_writeJSON c = Ok j -> forall k, reordered j k -> forall d, card_parseJSON ctx fl nm k <> Ok d.
Proof.
  intros N I1 I2 E S U W k Q d.
  assert (Iw : In p (card_written c)).
  { unfold card_written. apply in_flat_map. exists key. split.
    - eapply Permutation_in; [symmetry; apply card_keys_perm; exact N|]. apply in_map_iff. exists (key, l). auto.
    - unfold card_get. rewrite (assoc_in key c l N I1). exact I2. }
  unfold card_writeJSON in W. destruct (map_r cprop_writeJSON (card_written c)) as [pl|e] eqn:M; [|discriminate W]. cbn [rbind] in W. injection W as <-.
  inversion Q as [| | | | |? m Q'|]; subst. inversion Q' as [|? k1 ? m1 Q1 Q2]; subst. inversion Q2 as [|? k2 ? m2 Q3 Q4]; subst. inversion Q3 as [| | | | |? ks Q5|]; subst.
  assert (X : exists j k, In k ks /\ cprop_writeJSON p = Ok j /\ reordered j k).
  { clear - M Iw Q5. revert pl ks M Q5. induction (card_written c) as [|x r IH]; intros pl ks M Q5; [contradiction|]. cbn [map_r] in M.
    destruct (cprop_writeJSON x) as [j|] eqn:J; [|discriminate M]. cbn [rbind] in M. destruct (map_r cprop_writeJSON r) as [pr|] eqn:R; [|discriminate M]. injection M as <-.
    inversion Q5 as [|? k ? ks' Qa Qb]; subst. destruct Iw as [<-|Iw]; [exists j, k; split; [left; reflexivity|auto]|].
    destruct (IH Iw pr ks' eq_refl Qb) as (j' & k' & A & B & C). exists j', k'. split; [right; exact A|auto]. }
  destruct X as (jp & kp & Ik & Jp & Qp). destruct (structured_refused p i E S) as (jp' & Jp' & R). rewrite Jp in Jp'. injection Jp' as <-. destruct (R kp Qp) as [R' _].
  assert (F : forall ks r, In kp ks -> forall d, fold_left (fun r j => do ps <- r; do p <- cprop_parseJSON ctx fl nm j; Ok (card_addProperty p ps)) ks r <> Ok d).
  { assert (Fr : forall ks e d, fold_left (fun r j => do ps <- r; do p <- cprop_parseJSON ctx fl nm j; Ok (card_addProperty p ps)) ks (Raise e) <> Ok d)
      by (clear; induction ks as [|x r IH]; intros e d; [discriminate|exact (IH e d)]).
    clear - R' Fr. induction ks as [|x r IH]; intros s H d'; [contradiction|]. cbn [fold_left]. destruct H as [-> | H]; [|apply IH; exact H].
    destruct s as [ps|e]; cbn [rbind]; [|apply Fr]. destruct (cprop_parseJSON ctx fl nm kp) as [q|e] eqn:Y; [destruct (R' q eq_refl)|]. cbn [rbind]. apply Fr. }
  unfold card_parseJSON, card_props. cbn [elements rbind]. specialize (F ks (Ok []) Ik). match goal with |- context [fold_left ?f ks (Ok [])] => destruct (fold_left f ks (Ok [])) as [ps|e] eqn:Y; [destruct (F ps eq_refl)|] end. cbn [rbind].
  unfold guarded. destruct (error_base e); [discriminate|]. destruct e; discriminate.
Qed.

(** Reading values made of several texts. *)
Lemma texts_back l : texts_of (JArr (map JText l)) = Ok l.
Proof. exact (encode_r l). Qed.
Definition as_parts (t : ctype) (l : list bytes) : citem := match t with CT_N => CName (map NStr l) | CT_ADR => CAdr (map NStr l) | _ => COrg l end.
Lemma parts_read name ps jp tn l t : params_json_ok ps -> reordered (JObj (params_json ps)) jp -> lower tn = lit "text" ->
  In (upper name, t) [(lit "N", CT_N); (lit "ADR", CT_ADR); (lit "ORG", CT_ORG)] ->
  exists q, cprop_parseJSON ctx fl nm (JArr [JText name; jp; JText tn; JArr (map JText l)]) = Ok q /\ cpGroup q = None /\ cpName q = upper name /\
    cpValue q = Some (CSingle (as_parts t l)) /\ forall k, k <> lit "VALUE" -> Forall2 same_upper (lookup k ps) (lookup k (cpParams q)).
Proof.
  intros Hp Q Et It. destruct (params_read nm ps jp Hp Q) as (qs & P1 & P2 & P3 & P4).
  assert (Ut : upper tn = lit "TEXT") by (rewrite <- (upper_of_lower tn), Et; reflexivity).
  assert (At : is_ascii tn = true).
  { pose proof (f_equal is_ascii Et) as A. change (is_ascii (lit "text")) with true in A. clear - A. unfold is_ascii, lower in *. rewrite forallb_forall in *. intros c Ic.
    specialize (A (lower_char c) (in_map lower_char _ _ Ic)). destruct c as [[|] [|] [|] [|] [|] [|] [|] [|]]; try reflexivity; vm_compute in A; discriminate A. }
  exists (mkCProp None (upper name) (cwith_type (upper name) tn qs) (Some (CSingle (as_parts t l)))). split; [|split; [reflexivity|split; [reflexivity|split; [reflexivity|]]]].
  - unfold cprop_parseJSON, cprop_read. cbn [jencode rbind]. rewrite P1. cbn [rbind]. unfold uupper. rewrite At. cbn [rbind]. cbv zeta.
    fold (cwith_type (upper name) tn qs). rewrite (cdetermine_json _ _ _ P3). cbn [rbind]. rewrite Ut. unfold cdflt, cis_multi. rewrite upper_twice.
    change (assoc (lit "TEXT") cvalue_types) with (Some (CT T_TEXT)).
    destruct It as [It|[It|[It|[]]]]; injection It as <- <-; cbn -[texts_of map]; rewrite texts_back; reflexivity.
  - intros k Hk. cbn [cpParams]. rewrite lookup_cwith by exact Hk. apply P4; exact Hk.
Qed.

Lemma texts_only v l : texts_of v = Ok l -> v = JArr (map JText l) \/ (exists s, v = JText s /\ l = map (fun c => [c]) s) \/ exists m, v = JObj m /\ l = map fst m.
Proof.
  destruct v as [| |s| | |k|m]; cbn [texts_of]; try discriminate.
  - destruct (is_ascii s); [|discriminate]. intros [= <-]. right. left. eauto.
  - intro H. left. f_equal. revert l H. induction k as [|x k IH]; cbn [map_r]; intros l H; [injection H as <-; reflexivity|].
    destruct (jencode x) as [y|] eqn:X; [|discriminate H]. cbn [rbind] in H. destruct (map_r jencode k) as [t|]; [|discriminate H]. cbn [rbind] in H. injection H as <-.
    cbn [map]. rewrite (IH t eq_refl). destruct x; try discriminate X. injection X as ->. reflexivity.
  - intros [= <-]. right. right. eauto.
Qed.
Lemma parts_only j q i : cprop_parseJSON ctx fl nm j = Ok q -> cpValue q = Some (CSingle i) -> structured (citem_type i) ->
  exists a b c v r l, j = JArr (a :: b :: c :: v :: r) /\ i = as_parts (citem_type i) l /\
    (v = JArr (map JText l) \/ (exists s, v = JText s /\ l = map (fun c => [c]) s) \/ exists m, v = JObj m /\ l = map fst m).
Proof.
  intros R V S. unfold cprop_parseJSON in R. destruct (cprop_read ctx fl nm j) as [q'|e] eqn:E; [|destruct e; discriminate R]. injection R as ->.
  unfold cprop_read in E. destruct j as [| | | | |[|a [|b [|c vs]]]|]; try discriminate E.
  destruct (jencode a) as [n|]; [|discriminate E]. cbn [rbind] in E. destruct (params_parseJSON nm b) as [ps|]; [|discriminate E]. cbn [rbind] in E.
  destruct c as [| |tn| | | |]; try discriminate E. cbn [rbind] in E. destruct (uupper tn) as [tu|]; [|discriminate E]. cbn [rbind] in E. cbv zeta in E.
  match type of E with rbind ?x _ = _ => destruct x as [t|] end; [|discriminate E]. cbn [rbind] in E.
  destruct (cis_multi (upper n)).
  - destruct (map_r (citem_parseJSON ctx fl nm t) vs); [|discriminate E]. cbn [rbind] in E. injection E as <-. discriminate V.
  - destruct vs as [|v r]; [discriminate E|]. destruct (citem_parseJSON ctx fl nm t v) as [i'|] eqn:I; [|discriminate E]. cbn [rbind] in E. injection E as <-.
    cbn [cpValue] in V. injection V as ->.
    assert (P : exists l, texts_of v = Ok l /\ i = as_parts (citem_type i) l).
    { destruct t; cbn [citem_parseJSON] in I.
      - destruct (item_parseJSON ctx fl nm t v); [|discriminate I]. cbn [rbind] in I. injection I as <-. exfalso. destruct S as [S|[S|S]]; discriminate S.
      - destruct (texts_of v) as [l|]; [|discriminate I]. injection I as <-. exists l. split; reflexivity.
      - destruct (texts_of v) as [l|]; [|discriminate I]. injection I as <-. exists l. split; reflexivity.
      - destruct (texts_of v) as [l|]; [|discriminate I]. injection I as <-. exists l. split; reflexivity.
      - destruct (jencode v); [|discriminate I]. cbn [rbind] in I. injection I as <-. exfalso. destruct S as [S|[S|S]]; discriminate S. }
    destruct P as (l & P & Ei). exists a, b, (JText tn), v, r, l. split; [reflexivity|]. split; [exact Ei|]. apply texts_only. exact P.
Qed.
Lemma fold_raise e : forall l, fold_left (fun r j => do ps <- r; do p <- cprop_parseJSON ctx fl nm j; Ok (card_addProperty p ps)) l (Raise e) = Raise e.
Proof. induction l as [|x l IH]; cbn [fold_left rbind]; auto. Qed.
Lemma fold_all l : forall c d, fold_left (fun r j => do ps <- r; do p <- cprop_parseJSON ctx fl nm j; Ok (card_addProperty p ps)) l (Ok c) = Ok d ->
  Forall (fun x => exists q, cprop_parseJSON ctx fl nm x = Ok q) l.
Proof.
  induction l as [|x l IH]; intros c d H; constructor; cbn [fold_left rbind] in H; destruct (cprop_parseJSON ctx fl nm x) as [q|e]; cbn [rbind] in H;
    try (rewrite fold_raise in H; discriminate H); eauto.
Qed.
Lemma card_shape j d : card_parseJSON ctx fl nm j = Ok d -> exists n p s r l, j = JArr (n :: p :: s :: r) /\ In s [JArr []; JObj []; JText []] /\
  elements p = Ok l /\ Forall (fun x => exists q, cprop_parseJSON ctx fl nm x = Ok q) l.
Proof.
  unfold card_parseJSON, guarded. match goal with |- match ?x with _ => _ end = _ -> _ => destruct x as [c|e0] eqn:E end; [|destruct e0; discriminate]. intros [= ->].
  destruct j as [| | | | |[|n [|p rest]]|]; try discriminate E. destruct (card_props ctx fl nm p) as [ps|] eqn:P; [|discriminate E]. cbn [rbind] in E.
  destruct rest as [|s r]; [discriminate E|]. destruct (elements s) as [k|] eqn:K; [|discriminate E]. cbn [rbind] in E. destruct k; [|discriminate E].
  unfold card_props in P. destruct (elements p) as [l|] eqn:L; [|discriminate P]. cbn [rbind] in P. exists n, p, s, r, l. split; [reflexivity|].
  split; [|split; [exact L|exact (fold_all l _ _ P)]].
  destruct s as [| |s| | |s|s]; try discriminate K; destruct s; try discriminate K; cbn; tauto.
Qed.

(** ** Exceptions. *)
Lemma card_json_error j e : card_parseJSON ctx fl nm j = Raise e -> In e [InvalidData; InvalidComponent; InvalidProperty; ValidationError] \/ e = RuntimeError.
Proof.
  unfold card_parseJSON, guarded. match goal with |- match ?x with _ => _ end = _ -> _ => destruct x as [c|e0] end; [discriminate|].
  destruct e0; cbn; intro H; injection H as <-; tauto.
Qed.
Lemma cards_json_error j e : cards_parseJSON ctx fl nm j = Raise e ->
  In e [InvalidData; InvalidComponent; InvalidProperty; ValidationError] \/ e = RuntimeError \/ (e = TypeError /\ forall l m s, j <> JArr l /\ j <> JObj m /\ j <> JText s).
Proof.
  unfold cards_parseJSON. destruct (elements j) as [l|e'] eqn:E; cbn [rbind].
  - clear E. induction l as [|x l IH]; [discriminate|]. cbn [map_r]. destruct (card_parseJSON ctx fl nm x) as [c|e'] eqn:C; cbn [rbind].
    + destruct (map_r _ l) as [r|e'']; [discriminate|]. intro H. apply IH. exact H.
    + intros [= <-]. destruct (card_json_error _ _ C) as [H|H]; auto.
  - intros [= <-]. right. right. destruct j; try discriminate E; injection E as <-; (split; [reflexivity|]); intros; repeat split; discriminate.
Qed.
End Read.
