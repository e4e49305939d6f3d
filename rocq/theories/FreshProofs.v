(** Proofs that the dates in what is read from text have no cached values. *)
From Coq Require Import Lia Sorting.Permutation.
From Verif Require Import PyBase PyProofs ParserCtx DateTimeModel DateTimeText PropertyModel ComponentModel ComponentProofs4.

Definition bare (d : dt) : Prop := mTZOffset d = None /\ mPosixTimeCached d = false /\ mPosixTime d = 0.
Definition bare_item (i : item) : Prop := match i with VDateTime d => bare d | _ => True end.
Definition bare_value (v : value) : Prop := match v with Single i => bare_item i | Multi _ l => Forall bare_item l end.
Definition bare_prop (p : prop) : Prop := match pValue p with Some v => bare_value v | None => True end.

(** What reading a date changes. *)
Definition same_posix {A} (m : M dt A) : Prop := forall d, mPosixTime (fst (m d)) = mPosixTime d.
Lemma sp_ret {A} (x : A) : same_posix (mret x). Proof. intro; reflexivity. Qed.
Lemma sp_raise {A} e : same_posix (mraise e : M dt A). Proof. intro; reflexivity. Qed.
Lemma sp_lift {A} (r : res A) : same_posix (mlift r). Proof. intro; reflexivity. Qed.
Lemma sp_upd f : (forall d, mPosixTime (f d) = mPosixTime d) -> same_posix (mupd f).
Proof. intros H d. apply H. Qed.
Lemma sp_bind {A B} (m : M dt A) (k : A -> M dt B) : same_posix m -> (forall a, same_posix (k a)) -> same_posix (mbind m k).
Proof. intros Hm Hk d. unfold mbind. specialize (Hm d). destruct (m d) as [d' [a|e]]; cbn [fst] in *; [rewrite Hk|]; exact Hm. Qed.
Ltac sp := repeat first
  [ apply sp_ret | apply sp_raise | apply sp_lift | apply sp_upd; intro; reflexivity | apply sp_bind; [|intro]
  | match goal with |- same_posix (match ?x with _ => _ end) => destruct x end ].
Lemma body_posix ctx full s : same_posix (dt_parse_body ctx full s).
Proof. unfold dt_parse_body, parseDate, parseTime, parseFractionalAndUTCOffset. sp. Qed.
Lemma text_bare ctx full s d : dt_parseText ctx full s = Ok d -> bare d.
Proof.
  unfold dt_parseText, dt_parse. pose proof (body_posix ctx full s newDefault) as P. destruct (dt_parse_body ctx full s newDefault) as [e [u|x]]; [|cbn [index_to_value]; destruct x; discriminate].
  intros [= <-]. cbn [fst] in P. repeat split. exact P.
Qed.
Lemma item_bare ctx fl t s i : item_parse ctx fl t s = Ok i -> bare_item i.
Proof.
  unfold item_parse, rbind. destruct t, s as [s|]; try discriminate; try (intros [= <-]; exact I);
    repeat match goal with
    | |- context [if ?b then _ else _] => destruct b
    | |- context [match ?r with Ok _ => _ | Raise _ => _ end] => destruct r eqn:?
    end; try discriminate; try (intros [= <-]; exact I);
    try (match goal with H : dt_parseText _ _ _ = Ok _ |- _ => apply text_bare in H; intros [= <-]; exact H end).
  - destruct (fl_read fl s); [intros [= <-]; exact I|discriminate].
  - unfold geo_parse. repeat match goal with |- context [match ?x with _ => _ end] => destruct x; try discriminate end; intros [= <-]; exact I.
  - unfold status_parse, rbind. repeat match goal with |- context [match ?x with _ => _ end] => destruct x; try discriminate end; intros [= <-]; exact I.
  - destruct (utcoffset_parse false s 0) as [n [u|e]]; [intros [= <-]; exact I|discriminate].
Qed.
Lemma items_bare ctx fl t l : forall m, map_r (fun tok => item_parse ctx fl t (Some tok)) l = Ok m -> Forall bare_item m.
Proof.
  induction l as [|s l IH]; intros m; cbn [map_r]; unfold rbind; [intros [= <-]; constructor|].
  destruct (item_parse ctx fl t (Some s)) as [i|] eqn:Ei; [|discriminate]. destruct (map_r _ l) as [k|]; [|discriminate]. intros [= <-].
  constructor; [eapply item_bare; exact Ei|apply IH; reflexivity].
Qed.
Lemma zone_bare tz i : bare_item i -> bare_item (zone_item tz i).
Proof. destruct i; cbn; auto. intros (_ & _ & P). repeat split. exact P. Qed.
Lemma parse_bare ctx fl s p : prop_parse ctx fl s = Ok p -> bare_prop p.
Proof.
  unfold prop_parse. destruct (ical_parseLine _ s) as [[l|]|]; try discriminate. destruct (line_value ctx fl _ _ _) as [v|] eqn:E; [|discriminate]. intros [= <-].
  unfold bare_prop. cbn [pValue]. revert E. unfold line_value, rbind. destruct (determineValueType _ _) as [t|]; [|discriminate].
  assert (B : forall w, (if is_multi (lName l) then multi_parse ctx fl t (lValue l) else match item_parse ctx fl t (lValue l) with Ok i => Ok (Single i) | Raise e => Raise e end) = Ok w -> bare_value w).
  { intros w. destruct (is_multi (lName l)).
    - unfold multi_parse, rbind. destruct (lValue l) as [x|]; [|discriminate]. destruct (map_r _ _) as [m|] eqn:Em; [|discriminate]. intros [= <-]. eapply items_bare; exact Em.
    - destruct (item_parse ctx fl t (lValue l)) as [i|] eqn:Ei; [|discriminate]. intros [= <-]. eapply item_bare; exact Ei. }
  destruct (if is_multi (lName l) then _ else _) as [w|]; [|discriminate]. specialize (B w eq_refl).
  unfold postCreateValue, rbind. destruct (_ || _); [|intros [= <-]; exact B]. destruct (assoc _ _); [|intros [= <-]; exact B]. destruct (first_value _) as [tz|]; [|discriminate].
  destruct w as [i|m k]; intros [= <-]; cbn in *; [apply zone_bare; exact B|]. apply Forall_map. eapply Forall_impl; [|exact B]. intros; apply zone_bare; assumption.
Qed.

(** ** Components *)
Inductive bare_comp : comp -> Prop :=
| bare_intro : forall k s ps subs, Forall (fun kl => Forall bare_prop (snd kl)) ps -> Forall bare_comp subs -> bare_comp (Comp k s ps subs).
Lemma bare_get name ps : Forall (fun kl => Forall bare_prop (snd kl)) ps -> Forall bare_prop (getProperties name ps).
Proof.
  unfold getProperties. induction 1 as [|[k l] ps H F IH]; [constructor|]. cbn [assoc]. destruct (beq k name); [exact H|exact IH].
Qed.
Lemma bare_add key p ps : bare_prop p -> Forall (fun kl => Forall bare_prop (snd kl)) ps -> Forall (fun kl => Forall bare_prop (snd kl)) (add_prop key p ps).
Proof.
  intros B. induction 1 as [|[k l] ps H F IH]; cbn [add_prop]; [repeat constructor; exact B|]. destruct (beq k key); constructor; auto. cbn [snd]. apply Forall_app. split; [exact H|repeat constructor; exact B].
Qed.
Section Parse.
Variables (tzo : tzid -> Z -> Z -> Z -> Z -> Z -> Z -> bool -> bool -> Z) (ctx : pctx) (fl : floats) (uuids : nat -> bytes).
Lemma bare_put p c : bare_prop p -> bare_comp c -> bare_comp (put_prop p c).
Proof. intros B H. destruct H as [k s ps subs Hp Hs]. cbn [put_prop]. constructor; [apply bare_add; assumption|exact Hs]. Qed.
Lemma insert_in x l : forall l', insert_start tzo x l = Ok l' -> Permutation (x :: l) l'.
Proof.
  induction l as [|y l IH]; intros l'; cbn [insert_start]; unfold rbind; [intros [= <-]; reflexivity|].
  destruct (dt_lt tzo _ _) as [[]|]; [|intros [= <-]; reflexivity|discriminate]. destruct (insert_start tzo x l) as [r|]; [|discriminate]. intros [= <-]. rewrite <- (IH r eq_refl). apply perm_swap.
Qed.
Lemma sort_in l : forall l', sort_start tzo l = Ok l' -> Permutation l l'.
Proof.
  induction l as [|x l IH]; intros l'; cbn [sort_start]; unfold rbind; [intros [= <-]; reflexivity|]. destruct (sort_start tzo l) as [r|]; [|discriminate]. intro H. apply insert_in in H.
  rewrite <- H. constructor. apply IH. reflexivity.
Qed.
Lemma bare_fin c c' : bare_comp c -> finalise tzo c = Ok c' -> bare_comp c'.
Proof.
  intros H E. apply finalise_shape in E as (_ & P & S). destruct c' as [k' s' ps' subs']. destruct H as [k s ps subs Hp Hs]. cbn [cKind cProps cSubs] in *. subst ps'. constructor; [exact Hp|].
  destruct k; try (subst subs'; exact Hs). eapply Permutation_Forall; [apply sort_in; exact S|exact Hs].
Qed.
Lemma bare_child c d c' : bare_comp c -> bare_comp d -> addComponent c d = Ok c' -> bare_comp c'.
Proof. intros H D. destruct H as [k s ps subs Hp Hs]. cbn [addComponent]. destruct (allowed _ _); [|discriminate]. intros [= <-]. constructor; [exact Hp|]. apply Forall_app. split; [exact Hs|repeat constructor; exact D]. Qed.
Lemma bare_new n u : bare_comp (makeComponent n u).
Proof. constructor; constructor. Qed.
Lemma line_bare l st st' : bare_comp (self st) -> Forall bare_comp (opened st) -> parse_line tzo ctx fl uuids l st = Ok st' -> bare_comp (self st') /\ Forall bare_comp (opened st').
Proof.
  destruct st as [i f s o n]. cbn [self opened]. intros K O. unfold parse_line, blank. destruct i; cbn [negb].
  - destruct (startswith l _); [intros [= <-]; cbn; split; [exact K|constructor; [apply bare_new|exact O]]|]. destruct (beq l _).
    { unfold rbind. destruct (finalise tzo s) as [s'|] eqn:E; [|discriminate]. intros [= <-]. cbn [self opened]. split; [eapply bare_fin; eauto|exact O]. }
    destruct o as [|c o].
    + destruct l as [|x l]; [destruct (peqb _ _); [discriminate|intros [= <-]; auto]|].
      unfold rbind. destruct (prop_parse ctx fl (x :: l)) as [p|] eqn:E; [|discriminate]. destruct (validProperty p); [|discriminate].
      intros [= <-]. cbn [self opened]. split; [apply bare_put; [eapply parse_bare; exact E|exact K]|constructor].
    + inversion O as [|? ? Oc Oo]; subst. destruct (beq l (endDelimiter (cKind c))).
      * unfold rbind. destruct (finalise tzo c) as [c'|] eqn:Ef; [|discriminate]. pose proof (bare_fin _ _ Oc Ef) as Bc. destruct o as [|d o].
        -- destruct (addComponent s c') as [s'|] eqn:E; [|discriminate]. intros [= <-]. cbn [self opened]. split; [eapply bare_child; [exact K|exact Bc|exact E]|constructor].
        -- inversion Oo; subst. destruct (addComponent d c') as [d'|] eqn:E; [|discriminate]. intros [= <-]. cbn [self opened]. split; [exact K|]. constructor; [eapply bare_child; [|exact Bc|exact E]; assumption|assumption].
      * destruct l as [|x l]; [destruct (peqb _ _); [discriminate|intros [= <-]; auto]|].
        unfold rbind. destruct (prop_parse ctx fl (x :: l)) as [p|] eqn:E; [|discriminate]. intros [= <-]. cbn [self opened]. split; [exact K|]. constructor; [apply bare_put; [eapply parse_bare; exact E|exact Oc]|exact Oo].
  - destruct (beq l _); [intros [= <-]; auto|]. destruct l; [|discriminate]. destruct (peqb _ _); [discriminate|intros [= <-]; auto].
Qed.
Lemma lines_bare l : forall st st', bare_comp (self st) -> Forall bare_comp (opened st) -> parse_lines tzo ctx fl uuids l st = Ok st' -> bare_comp (self st').
Proof.
  induction l as [|x l IH]; intros st st' K O; cbn [parse_lines]; unfold rbind; [intros [= <-]; exact K|]. destruct (parse_line tzo ctx fl uuids x st) as [st1|] eqn:E; [|discriminate].
  destruct (line_bare _ _ _ K O E) as [K1 O1]. intro H. eapply IH; eauto.
Qed.
Theorem read_bare text c : parseTextData tzo ctx fl uuids text = Ok (Some c) -> bare_comp c.
Proof.
  unfold parseTextData, parse, rbind. destruct (parse_lines _ _ _ _ _ _) as [st|] eqn:E; [|discriminate]. destruct (inside st); [discriminate|]. destruct (found st && _); [discriminate|].
  cbn [fst snd]. destruct (found st); [|discriminate]. intros [= <-]. eapply lines_bare; [| |exact E]; cbn; repeat constructor.
Qed.
End Parse.
