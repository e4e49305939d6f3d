(** Lemmas about registered names: the type of the value. *)
From Coq Require Import Permutation.
From Verif Require Import PyBase PyProofs ParserCtx LineModel LineSpec LineProofs PropertyModel PropertySpec PropertyProofs PropertyProofs2 PropertyProofs3 RegisterModel RegisterSpec RegisterProofs.

Lemma nameable_name t : nameable t -> exists n, type_name t = Some n /\ assoc n value_types = Some t.
Proof. intros [n V]. exists n. split; [destruct V; reflexivity|apply value_types_spec; exact V]. Qed.
Lemma standard_default calls N t : In N (names_with t) -> assoc N (gTypes (after_calls calls)) = Some t.
Proof. intro H. apply default_table, do_standard, H. Qed.
Lemma geo_default calls : assoc (lit "GEO") (gTypes (after_calls calls)) = Some T_FLOAT.
Proof. apply standard_default. vm_compute. auto. Qed.
Lemma status_default calls : assoc (lit "REQUEST-STATUS") (gTypes (after_calls calls)) = Some T_TEXT.
Proof. apply standard_default, default_spec. vm_compute. reflexivity. Qed.
Lemma not_special name : ~ special name -> assoc (upper name) specials = None.
Proof.
  intro H. rewrite specials_assoc. destruct (beq_case (lit "GEO") (upper name)) as [[E _]|[_ ->]]; [exfalso; apply H; left; auto|].
  destruct (beq_case (lit "REQUEST-STATUS") (upper name)) as [[E _]|[_ ->]]; [exfalso; apply H; right; auto|reflexivity].
Qed.
(** What is written for an ordinary name. *)
Lemma rname_plain calls name v : ~ special name -> rname (after_calls calls) name v =
  match type_name (value_type v) with
  | None => None
  | Some n =>
    match assoc (upper name) (gTypes (after_calls calls)) with
    | None => if veqb (value_type v) T_TEXT then None else Some n
    | Some d => if negb (veqb d (value_type v)) || existsb (beq (upper name)) (gAlways (after_calls calls)) then Some n else None
    end
  end.
Proof.
  intro H. unfold rname. rewrite (not_special name H). destruct (assoc (upper name) (gTypes (after_calls calls))) as [d|].
  - destruct (type_name (value_type v)), (negb (veqb d (value_type v)) || existsb (beq (upper name)) (gAlways (after_calls calls))); reflexivity.
  - cbn [orb]. destruct (type_name (value_type v)); [|reflexivity]. destruct (veqb (value_type v) T_TEXT); reflexivity.
Qed.
Lemma veqb_refl t : veqb t t = true.
Proof. apply veqb_spec. reflexivity. Qed.
Lemma told calls name ps v : NoDup (map fst ps) -> reg_kept calls name v ->
  reg_type (after_calls calls) name (sorted_params (reg_setup (after_calls calls) name ps (Some v))) = Ok (value_type v).
Proof.
  intros Hn (_ & Hg & Hs & Hp). rewrite reg_setup_eq. unfold reg_type. cbv zeta. rewrite with_name_value by exact Hn.
  destruct (beq_case (lit "GEO") (upper name)) as [[E _]|[Eg _]].
  { rewrite (Hg (eq_sym E)). unfold rname. rewrite <- E, geo_default. destruct (existsb (beq (lit "GEO")) (gAlways (after_calls calls))); reflexivity. }
  destruct (beq_case (lit "REQUEST-STATUS") (upper name)) as [[E _]|[Es _]].
  { rewrite (Hs (eq_sym E)). unfold rname. rewrite <- E, status_default. destruct (existsb (beq (lit "REQUEST-STATUS")) (gAlways (after_calls calls))); reflexivity. }
  assert (NS : ~ special name) by (intros [E|E]; congruence). rewrite (rname_plain calls name v NS), (not_special name NS).
  destruct (Hp NS) as [[D A]|[[N W]|[U W]]].
  - apply default_table in D. apply always_table_no in A. rewrite D, A, veqb_refl. destruct (type_name (value_type v)); reflexivity.
  - destruct (nameable_name _ N) as (n & T & B). rewrite T. destruct (assoc (upper name) (gTypes (after_calls calls))) as [d|] eqn:D.
    + destruct (veqb d (value_type v)) eqn:V; cbn [negb orb].
      * apply veqb_spec in V. subst d. destruct (existsb _ _); cbn [option_map first_value rbind]; rewrite ?B; reflexivity.
      * cbn [option_map first_value rbind]. rewrite B. reflexivity.
    + destruct W as [[t W]|W]; [apply default_table in W; congruence|]. destruct (veqb (value_type v) T_TEXT) eqn:V; [apply veqb_spec in V; contradiction|].
      cbn [option_map first_value rbind]. rewrite B. reflexivity.
  - rewrite U. cbn [type_name option_map rbind]. destruct (assoc (upper name) (gTypes (after_calls calls))) as [d|] eqn:D; [|reflexivity].
    apply default_table in D. rewrite (W d D). reflexivity.
Qed.
Lemma reg_round calls ctx fl p : reg_ok calls ctx fl p ->
  exists text q, reg_line (after_calls calls) fl p = Ok text /\ reg_parse (after_calls calls) ctx fl text = Ok q /\ same_prop p q /\ reg_line (after_calls calls) fl q = Ok text.
Proof.
  destruct p as [name ps ov]. intros (Hn & Hp & v & z & E & Hz & Hk & Hv). cbn [pName pParams pValue] in *. subst ov.
  destruct (told_round (after_calls calls) (after_calls calls) ctx fl name ps v z Hn Hp Hz) as (text & q & L & P & S & G & _); [apply Hk|exact Hv|apply told; [apply Hp|exact Hk]|]. eauto 6.
Qed.
Lemma reg_written calls ctx fl p v : reg_ok calls ctx fl p -> pValue p = Some v -> ~ special (pName p) ->
  exists text q, reg_line (after_calls calls) fl p = Ok text /\ reg_parse (after_calls calls) ctx fl text = Ok q /\
    (says_type calls (pName p) v -> exists n, value_param n (value_type v) /\ lookup (lit "VALUE") (pParams q) = [(lit "VALUE", [n])]) /\
    (default_of calls (upper (pName p)) (value_type v) -> ~ always calls (upper (pName p)) -> lookup (lit "VALUE") (pParams q) = []).
Proof.
  destruct p as [name ps ov]. intros (Hn & Hp & v' & z & E & Hz & Hk & Hv) E' NS. cbn [pName pParams pValue] in *. rewrite E' in E. injection E as <-. subst ov.
  destruct (told_round (after_calls calls) (after_calls calls) ctx fl name ps v z Hn Hp Hz) as (text & q & L & P & S & G & Q); [apply Hk|exact Hv|apply told; [apply Hp|exact Hk]|].
  exists text, q. split; [exact L|]. split; [exact P|]. rewrite Q, assoc_lookup, (with_name_value _ ps (proj1 Hp)), (rname_plain calls name v NS). split.
  - intros [[n V] W]. exists n. split; [exact V|]. assert (T : type_name (value_type v) = Some n) by (destruct V; reflexivity). rewrite T.
    destruct W as [(d & D & W)|[D W]].
    + apply default_table in D. rewrite D. destruct (veqb d (value_type v)) eqn:B; cbn [negb orb]; [|reflexivity]. apply veqb_spec in B. destruct W as [W|W]; [contradiction|].
      apply always_table in W. rewrite W. reflexivity.
    + apply default_table_none in D. rewrite D. destruct (veqb (value_type v) T_TEXT) eqn:B; [apply veqb_spec in B; contradiction|reflexivity].
  - intros D A. apply default_table in D. apply always_table_no in A. rewrite D, A, veqb_refl. destruct (type_name (value_type v)); reflexivity.
Qed.
(** VALUE is written, so that the reader need not know the name. *)
Lemma reg_portable calls others ctx fl p v z : name_ok (pName p) -> params_ok (pParams p) -> pValue p = Some v -> tzid_of (pParams p) z ->
  fits_list (pName p) v -> prop_value_ok ctx fl z v -> ~ special (pName p) -> nameable (value_type v) ->
  always calls (upper (pName p)) -> (exists t, default_of calls (upper (pName p)) t) ->
  exists text q, reg_line (after_calls calls) fl p = Ok text /\ reg_parse (after_calls others) ctx fl text = Ok q /\ same_prop p q.
Proof.
  destruct p as [name ps ov]. cbn [pName pParams pValue]. intros Hn Hp -> Hz Hf Hv NS N A [t D].
  destruct (told_round (after_calls calls) (after_calls others) ctx fl name ps v z Hn Hp Hz Hf Hv) as (text & q & L & P & S & _); [|eauto].
  rewrite reg_setup_eq, (rname_plain calls name v NS). destruct (nameable_name _ N) as (n & T & B). apply default_table in D. apply always_table in A.
  rewrite T, D, A, Bool.orb_true_r. unfold reg_type. cbv zeta. rewrite with_name_value by apply Hp. cbn [option_map first_value rbind].
  rewrite B, (not_special name NS). reflexivity.
Qed.
(** ** The type of the value of a line. *)
Lemma reg_type_typed calls name ps s : reg_type (after_calls calls) name ps = Ok s -> exists t, reg_typed calls name ps t /\ s = structured name t.
Proof.
  unfold reg_type. cbv zeta.
  set (dflt := match assoc (upper name) (gTypes (after_calls calls)) with Some t => t | None => T_UNKNOWN end).
  assert (D : (forall n v l r t, lookup (lit "VALUE") ps = (n, v :: l) :: r -> ~ value_param v t) -> reg_typed calls name ps dflt).
  { intro N. unfold dflt. destruct (assoc (upper name) (gTypes (after_calls calls))) as [t|] eqn:E.
    - apply rt_default; [assumption|]. apply default_table; assumption.
    - apply rt_unknown; [assumption|]. apply default_table_none; assumption. }
  assert (S : forall t, match assoc (upper name) specials with Some s => if veqb t dflt then s else t | None => t end = structured name t).
  { intro t. unfold structured. rewrite specials_assoc.
    destruct (beq_case (lit "GEO") (upper name)) as [[E ->]|[E ->]].
    - unfold dflt. rewrite <- E, geo_default. destruct t; reflexivity.
    - destruct (beq_case (lit "REQUEST-STATUS") (upper name)) as [[E' ->]|[E' ->]].
      + unfold dflt. rewrite <- E', status_default. destruct t; reflexivity.
      + destruct (beq_case (upper name) (lit "GEO")) as [[E1 _]|[_ ->]]; [congruence|].
        destruct (beq_case (upper name) (lit "REQUEST-STATUS")) as [[E1 _]|[_ ->]]; [congruence|]. destruct t; reflexivity. }
  destruct (assoc (lit "VALUE") ps) as [L|] eqn:EL.
  - destruct (first_value L) as [v|] eqn:EF; cbn [rbind]; [|discriminate]. intro H. apply Ok_inj in H. subst s. rewrite S.
    eexists. split; [|reflexivity]. destruct (assoc v value_types) as [t|] eqn:E.
    + apply value_types_spec in E. destruct L as [|[n [|w l]] r]; try discriminate. cbn in EF. injection EF as ->.
      apply (rt_param _ _ _ n v l r); [rewrite assoc_lookup, EL; reflexivity|assumption].
    + apply D. intros n w l r t H C. apply lookup_first in H. destruct H as (L' & E1 & E2).
      rewrite EL in E1; injection E1 as <-. rewrite EF in E2; injection E2 as <-. apply value_types_spec in C. congruence.
  - cbn [rbind]. intro H. apply Ok_inj in H. subst s. rewrite S. eexists. split; [|reflexivity]. apply D.
    intros n w l r t H C. apply lookup_first in H. destruct H as (L' & E1 & E2). congruence.
Qed.
Lemma reg_prop_typed calls ctx fl text p : reg_parse (after_calls calls) ctx fl text = Ok p ->
  exists t, reg_typed calls (pName p) (pParams p) t /\
  let s := structured (pName p) t in
  if existsb (beq (upper (pName p))) list_names
  then exists l, pValue p = Some (Multi s l) /\ Forall (made_by s) l
  else exists i, pValue p = Some (Single i) /\ made_by s i.
Proof.
  unfold reg_parse. destruct (ical_parseLine _ text) as [[l|]|]; try discriminate.
  destruct (reg_value _ _ _ _ _ _) as [v|] eqn:E; [|discriminate]. intros [= <-]. cbn [pName pParams pValue].
  unfold reg_value, rbind in E. destruct (reg_type _ _ _) as [s|] eqn:Et; [|discriminate].
  apply reg_type_typed in Et. destruct Et as (t & T & ->). exists t. split; [assumption|]. cbv zeta.
  change (existsb (beq (upper (lName l))) list_names) with (is_multi (lName l)).
  assert (Z : forall s v w, postCreateValue s (lParams l) v = Ok w ->
    match v with
    | Single i => made_by s i -> exists j, w = Single j /\ made_by s j
    | Multi m k => Forall (made_by s) k -> exists k', w = Multi m k' /\ Forall (made_by s) k'
    end).
  { intros s v0 w H. unfold postCreateValue in H. destruct (_ || _); [destruct (assoc _ (lParams l)) as [L|]; [unfold rbind in H; destruct (first_value L) as [z|]; [|discriminate]|]|];
      injection H as <-; destruct v0 as [i|m k]; intro M; eexists; split; try reflexivity; try assumption.
    - apply made_zone; assumption.
    - apply Forall_forall. intros x I. apply in_map_iff in I. destruct I as (y & <- & I). rewrite Forall_forall in M. apply made_zone; auto. }
  destruct (is_multi (lName l)).
  - unfold multi_parse, rbind in E. destruct (lValue l) as [x|]; [|discriminate].
    destruct (map_r _ _) as [k|] eqn:Em; [|discriminate]. apply Z in E. destruct (E (items_made _ _ _ _ _ Em)) as (k' & -> & F). eauto.
  - destruct (item_parse _ _ _ _) as [i|] eqn:Ei; [|discriminate]. apply Z in E. destruct (E (item_made _ _ _ _ _ Ei)) as (j & -> & M). eauto.
Qed.
(** A second call for a name changes no type. *)
Lemma second_call calls c : cAlways c = false -> cKlass c = VCard \/ (exists t, default_of calls (cName c) t) -> after_calls (calls ++ [c]) = after_calls calls.
Proof.
  intros A K. unfold after_calls at 1. rewrite fold_left_app. cbn [fold_left]. fold (after_calls calls). unfold registerDefaultValue. rewrite A.
  destruct K as [-> |[t D]]; [destruct (after_calls calls); reflexivity|]. apply default_table in D. rewrite D. destruct (cKlass c), (after_calls calls); reflexivity.
Qed.
