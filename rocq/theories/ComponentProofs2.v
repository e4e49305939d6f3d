(** Proofs about component trees: what is written is lines, and the properties are read back. *)
From Coq Require Import Lia ZifyBool ZifyNat.
From Verif Require Import PyBase PyProofs ParserCtx TextModel TextSpec TextProofs LineModel LineSpec LineProofs FoldProofs
  DateTimeModel DateTimeText DateTimeSpec2 DurationModel RecurModel RecurTextProofs2
  PropertyModel PropertySpec PropertyProofs PropertyProofs2 PropertyProofs3 ComponentModel ComponentSpec ComponentProofs.
Ltac Zify.zify_post_hook ::= Z.div_mod_to_equations.

(** ** One property. *)
Definition pimg (fl : floats) (p q : prop) : Prop :=
  same_prop p q /\ prop_line fl q = prop_line fl p /\ params_ok (pParams q) /\
  match pValue p, pValue q with Some v, Some w => value_generate fl v = value_generate fl w | _, _ => False end.

Lemma sorted_param_ok k p : param_ok k p -> param_ok k (sorted_param p).
Proof.
  intros (H1 & H2 & H3 & H4 & H5). unfold param_ok, sorted_param; cbn [fst snd]. repeat split; auto.
  - apply sort_ne; assumption.
  - eapply Permutation_Forall; [symmetry; apply sort_perm|assumption].
Qed.
Lemma sorted_params_ok ps : params_ok ps -> params_ok (sorted_params ps).
Proof.
  intro H. destruct (sorted_groups_ok ps H) as [_ _]. destruct H as [H1 H2]. unfold params_ok, sorted_params. split.
  - rewrite map_map. cbn [fst]. eapply Permutation_NoDup; [apply Permutation_map; symmetry; apply sort_perm|assumption].
  - apply Forall_map. eapply Permutation_Forall; [symmetry; apply sort_perm|]. eapply Forall_impl; [|exact H2].
    intros [k l] [A B]; cbn [fst snd] in *. split; [destruct l; [congruence|discriminate]|].
    apply Forall_map. eapply Forall_impl; [|exact B]. intros; apply sorted_param_ok; assumption.
Qed.

Lemma prop_image ctx fl p : prop_ok ctx fl p -> exists text q, prop_line fl p = Ok text /\ prop_parse ctx fl text = Ok q /\ pimg fl p q.
Proof.
  intro H. destruct (prop_round ctx fl p H) as (text & q & A & B & C & D). exists text, q. split; [assumption|]. split; [assumption|].
  destruct p as [name ps ov]. destruct H as (Hn & Hp & v & z & E & Hz & Ht & Hv). cbn [pName pParams pValue] in *. subst ov.
  destruct (value_round ctx fl name ps v z Hp Hz Ht Hv) as (s & w & G & L & S & T & Y).
  set (ps1 := setupValueParameter name ps (Some v)) in *.
  assert (Hp1 : params_ok ps1) by (apply setup_params_ok; assumption).
  assert (text = gen_line (mkLine None name ps1 (Some s))) as ->.
  { unfold prop_line in A; cbn [pName pParams pValue] in A. rewrite G in A. injection A as <-. reflexivity. }
  unfold prop_parse in B. rewrite line_read_back in B by auto. cbn [lName lParams lValue] in B. rewrite L in B. injection B as <-.
  split; [assumption|]. split; [congruence|]. cbn [pParams pValue]. split; [apply sorted_params_ok; assumption|congruence].
Qed.

(** The line starts with the name. *)
Lemma line_name fl p l : prop_line fl p = Ok l -> exists c r, l = pName p ++ c :: r /\ (c = ";"%char \/ c = ":"%char).
Proof.
  unfold prop_line, rbind. destruct (match pValue p with None => _ | _ => _ end) as [v|]; [|discriminate]. intros [= <-].
  unfold gen_line; cbn [lGroup lName lParams lValue app].
  set (g := flat_map _ _). assert (G : g = [] \/ exists r, g = ";"%char :: r).
  { unfold g. induction (sort_by fst _) as [|[k m] t IH]; [left; reflexivity|]. cbn [flat_map snd].
    destruct m as [|x m]; [exact IH|]. right. cbn [flat_map app]. eauto. }
  destruct G as [->|[r ->]]; [exists ":"%char|exists ";"%char]; eexists; split; auto; reflexivity.
Qed.
Lemma name_unique n c r n' c' r' : ~ In ";"%char n -> ~ In ":"%char n -> ~ In ";"%char n' -> ~ In ":"%char n' ->
  (c = ";"%char \/ c = ":"%char) -> (c' = ";"%char \/ c' = ":"%char) -> n ++ c :: r = n' ++ c' :: r' -> n = n'.
Proof.
  revert n'. induction n as [|x n IH]; intros [|y n'] A B A' B' C C' E.
  - reflexivity.
  - injection E as -> _. exfalso. destruct C as [-> | ->]; [apply A'|apply B']; left; reflexivity.
  - injection E as -> _. exfalso. destruct C' as [-> | ->]; [apply A|apply B]; left; reflexivity.
  - injection E as -> E. f_equal. apply IH with (1 := fun H => A (or_intror H)) (2 := fun H => B (or_intror H))
      (3 := fun H => A' (or_intror H)) (4 := fun H => B' (or_intror H)); assumption.
Qed.
Lemma startswith_app (s p : bytes) : startswith s p = true -> exists r, s = p ++ r.
Proof.
  revert s. induction p as [|x p IH]; intros s H; [exists s; reflexivity|]. destruct s as [|y s]; [discriminate|].
  cbn [startswith] in H. apply Bool.andb_true_iff in H as [E H].
  destruct (IH s H) as [r ->]. exists r. cbn [app]. f_equal. apply Ascii.eqb_eq in E. congruence.
Qed.

(** ** The dictionary. *)
Definition put (ps : props) (p : prop) : props := addProperty p ps.
Lemma beq_sym (a b : bytes) : beq a b = beq b a.
Proof. destruct (beq_case a b) as [[E1 E]|[N E]], (beq_case b a) as [[E2 F]|[M F]]; congruence. Qed.
Lemma get_add name key p ps : getProperties name (add_prop key p ps) =
  getProperties name ps ++ (if beq key name then [p] else []).
Proof.
  unfold getProperties. induction ps as [|[k l] ps IH]; cbn [add_prop assoc].
  - destruct (beq key name); reflexivity.
  - destruct (beq_case k key) as [[-> ->]|[N ->]]; cbn [assoc].
    + destruct (beq key name); [reflexivity|rewrite app_nil_r; reflexivity].
    + destruct (beq_case k name) as [[-> ->]|[M ->]]; [|exact IH].
      destruct (beq_case key name) as [[-> _]|[_ ->]]; [congruence|rewrite app_nil_r; reflexivity].
Qed.
Lemma add_keys key p ps k : In k (map fst (add_prop key p ps)) <-> In k (map fst ps) \/ k = key.
Proof.
  induction ps as [|[k' l] ps IH]; cbn [add_prop map fst In]; [split; [intros [<-|[]]; auto|intros [[]|H]; auto]|].
  destruct (beq_case k' key) as [[-> ->]|[N ->]]; cbn [map fst In]; [|rewrite IH]; split; tauto || (intros [H|H]; subst; tauto).
Qed.
Lemma add_NoDup key p ps : NoDup (map fst ps) -> NoDup (map fst (add_prop key p ps)).
Proof.
  induction ps as [|[k' l] ps IH]; intro H; cbn [add_prop map fst] in *; [repeat constructor; auto|].
  inversion H as [|? ? H1 H2]; subst. destruct (beq_case k' key) as [[-> ->]|[N ->]]; cbn [map fst]; constructor; auto.
  rewrite add_keys. intros [I|I]; [contradiction|congruence].
Qed.
Definition is_name (name : bytes) (p : prop) : bool := beq (upper (pName p)) name.
Lemma get_puts name qs : forall ps, getProperties name (fold_left put qs ps) = getProperties name ps ++ filter (is_name name) qs.
Proof.
  induction qs as [|q qs IH]; intro ps; cbn [fold_left filter]; [rewrite app_nil_r; reflexivity|].
  rewrite IH. unfold put at 1, addProperty. rewrite get_add, <- app_assoc. f_equal. unfold is_name. destruct (beq _ name); reflexivity.
Qed.
Lemma puts_NoDup qs : forall ps, NoDup (map fst ps) -> NoDup (map fst (fold_left put qs ps)).
Proof. induction qs as [|q qs IH]; intros ps H; cbn [fold_left]; [assumption|]. apply IH. apply add_NoDup; assumption. Qed.
Lemma puts_keys qs : forall ps k, In k (map fst (fold_left put qs ps)) <-> In k (map fst ps) \/ In k (map (fun q => upper (pName q)) qs).
Proof.
  induction qs as [|q qs IH]; intros ps k; cbn [fold_left map In]; [tauto|]. rewrite IH. unfold put at 1, addProperty. rewrite add_keys.
  intuition congruence.
Qed.

(** ** The properties in the order they are written. *)
Lemma keys_perm k ps : NoDup (map fst ps) -> Permutation (sortedPropertyKeys k ps) (map fst ps).
Proof.
  intro N. unfold sortedPropertyKeys.
  destruct (keys_in_order_spec (sortedPropertyKeyOrder k) (sort_by (fun x => x) (map fst ps))) as (r & _ & _ & _ & P).
  - apply order_NoDup.
  - eapply Permutation_NoDup; [symmetry; apply sort_perm|assumption].
  - apply sort_order.
  - rewrite P. apply sort_perm.
Qed.
Lemma get_in name ps : NoDup (map fst ps) -> forall p, In p (getProperties name ps) -> exists l, In (name, l) ps /\ In p l.
Proof.
  intros N p I. unfold getProperties in I. destruct (assoc name ps) as [l|] eqn:E; [|contradiction].
  exists l. split; [apply assoc_some; assumption|assumption].
Qed.

Section Written.
Variable ps : props.
Hypothesis N : NoDup (map fst ps).
Hypothesis U : forall k l p, In (k, l) ps -> In p l -> upper (pName p) = k.
Lemma filter_group name k : filter (is_name name) (getProperties k ps) = if beq k name then getProperties k ps else [].
Proof.
  assert (H : forall p, In p (getProperties k ps) -> is_name name p = beq k name).
  { intros p I. destruct (get_in k ps N p I) as (l & I1 & I2). unfold is_name. rewrite (U _ _ _ I1 I2). reflexivity. }
  induction (getProperties k ps) as [|p l IH]; [destruct (beq k name); reflexivity|]. cbn [filter].
  rewrite (H p) by (left; reflexivity). rewrite IH by (intros q I; apply H; right; assumption). destruct (beq k name); reflexivity.
Qed.
Lemma filter_flat {A B} (f : B -> bool) (g : A -> list B) l : filter f (flat_map g l) = flat_map (fun x => filter f (g x)) l.
Proof. induction l as [|x l IH]; [reflexivity|]. cbn [flat_map]. rewrite filter_app, IH. reflexivity. Qed.
Lemma filter_keys name keys : NoDup keys -> (In name keys \/ getProperties name ps = []) ->
  filter (is_name name) (flat_map (fun key => getProperties key ps) keys) = getProperties name ps.
Proof.
  intros Nk H. rewrite filter_flat. rename keys into keys0.
  assert (Z : forall keys, ~ In name keys -> flat_map (fun x => filter (is_name name) (getProperties x ps)) keys = []).
  { clear H Nk. induction keys as [|k keys IH]; intro H; [reflexivity|]. cbn [flat_map]. rewrite filter_group.
    destruct (beq_case k name) as [[-> _]|[_ ->]]; [exfalso; apply H; left; reflexivity|]. apply IH. intro; apply H; right; assumption. }
  destruct (in_dec (list_eq_dec ascii_dec) name keys0) as [I|I].
  - clear H. induction keys0 as [|k keys IH]; [contradiction|]. inversion Nk as [|? ? K1 K2]; subst. cbn [flat_map]. rewrite filter_group.
    destruct (beq_case k name) as [[-> ->]|[M ->]].
    + rewrite Z; [apply app_nil_r|assumption].
    + destruct I as [->|I]; [congruence|]. apply IH; auto.
  - destruct H as [H|H]; [contradiction|]. rewrite H. apply Z; assumption.
Qed.
Lemma assoc_none_in name : ~ In name (map fst ps) -> getProperties name ps = [].
Proof. intro H. unfold getProperties. rewrite assoc_out by assumption. reflexivity. Qed.
Lemma written_filter k name : filter (is_name name) (written_props k ps) = getProperties name ps.
Proof.
  unfold written_props. apply filter_keys.
  - eapply Permutation_NoDup; [symmetry; apply keys_perm; assumption|assumption].
  - destruct (in_dec (list_eq_dec ascii_dec) name (map fst ps)) as [I|I].
    + left. eapply Permutation_in; [symmetry; apply keys_perm; assumption|assumption].
    + right. apply assoc_none_in; assumption.
Qed.
Lemma written_in k p : In p (written_props k ps) -> exists key l, In (key, l) ps /\ In p l.
Proof.
  unfold written_props. intro I. apply in_flat_map in I. destruct I as (key & _ & I).
  destruct (get_in key ps N p I) as (l & I1 & I2). eauto.
Qed.
End Written.
