(** Proofs about Calendar.parseComponent. *)
From Coq Require Import Lia.
From Verif Require Import PyBase PyProofs ComponentModel TzDbModel TzDbSpec ReadOneModel ReadOneSpec.

Section P.
Variable tzo : tzid -> Z -> Z -> Z -> Z -> Z -> Z -> bool -> bool -> Z.
Variable ctx : pctx.
Variable fl : floats.
Variable uuids : nat -> bytes.
Notation one_line := (one_line tzo ctx fl uuids).
Notation one_lines := (one_lines tzo ctx fl uuids).
Notation parse_line := (parse_line tzo ctx fl uuids).
Notation parse_lines := (parse_lines tzo ctx fl uuids).

Definition inv (cal : comp) (st : onestate) : Prop := exists new, oSelf st = with_subs cal (cSubs cal ++ new) /\ oFirst st = hd_error new.
Lemma inv_line cal l st b st' : inv cal st -> one_line l st = Ok (b, st') -> inv cal st'.
Proof.
  intros (new & E & F). destruct st as [i s o f z m]. cbn [oSelf oFirst] in E, F. unfold ReadOneModel.one_line, one_blank. intros H.
  assert (I : inv cal (mkOne i s o f z m)) by (exists new; auto).
  assert (I' : forall i' o' z' m', inv cal (mkOne i' s o' f z' m')) by (intros; exists new; auto).
  repeat match type of H with
  | (if ?c then _ else _) = _ => destruct c
  | match ?x with [] => _ | _ :: _ => _ end = _ => destruct x
  | Ok _ = Ok _ => injection H as <- <-; auto
  | Raise _ = Ok _ => discriminate H
  | rbind ?r _ = Ok _ => let c := fresh "c" in let Q := fresh "Q" in destruct r as [c|] eqn:Q; cbn [rbind] in H; [|discriminate H]
  end.
  subst s. unfold with_subs, addComponent in Q0. destruct (allowed _ _); [|discriminate]. injection Q0 as <-. exists (new ++ [c0]). unfold with_subs. rewrite app_assoc. split; [reflexivity|].
  cbn [oFirst]. subst f. destruct new; reflexivity.
Qed.
Lemma inv_lines cal ls : forall st, inv cal st -> inv cal (fst (one_lines ls st)).
Proof.
  induction ls as [|l r IH]; intros st I; cbn [ReadOneModel.one_lines]; [exact I|].
  destruct (one_line l st) as [[[] st']|e] eqn:E; [exact (inv_line _ _ _ _ _ I E)|exact (IH _ (inv_line _ _ _ _ _ I E))|exact I].
Qed.
Lemma inv_start cal : inv cal (mkOne false cal [] None false 0).
Proof. exists []. split; [destruct cal; cbn; rewrite app_nil_r; reflexivity|reflexivity]. Qed.

(** The loop of parse(). *)
Definition like (st : pstate) (o : onestate) : Prop :=
  inside st = oIn o /\ opened st = oOpen o /\ made st = oMade o /\ cKind (self st) = VCALENDAR /\ cKind (oSelf o) = VCALENDAR /\ cSubs (self st) = cSubs (oSelf o).
Lemma like_line l st o st' : like st o -> parse_line l st = Ok st' ->
  (l = closing /\ inside st = true /\ inside st' = false /\ one_line l o = Ok (true, o) /\ cSubs (self st') = cSubs (oSelf o)) \/
  (exists o', one_line l o = Ok (false, o') /\ like st' o' /\ (inside st = true -> inside st' = true) /\ (found st' = true -> found st = false -> inside st' = true)).
Proof.
  destruct st as [i f s op m], o as [i' s' op' ff z m']. unfold like. cbn [inside opened made self oIn oOpen oMade oSelf]. intros (<- & <- & <- & K & K' & S) H.
  unfold ReadOneModel.one_line, ComponentModel.parse_line, one_blank, blank in *. rewrite K in H. rewrite K'. change (endDelimiter VCALENDAR) with closing in *. cbn [inside opened made self found oIn oOpen oMade oSelf].
  destruct i; cbn [negb] in *.
  2:{ destruct (beq l (beginDelimiter VCALENDAR)).
    - injection H as <-. right. eexists. split; [reflexivity|]. cbn. auto 10.
    - destruct l; [|discriminate]. destruct (peqb _ _); [discriminate|]. injection H as <-. right. eexists. split; [reflexivity|]. cbn. repeat split; auto; congruence. }
  destruct (startswith l (lit "BEGIN:")); [injection H as <-; right; eexists; split; [reflexivity|]; cbn; auto 10|].
  destruct (beq l closing) eqn:B.
  - apply beq_eq in B. left. destruct s as [k t p sb]. cbn [cKind] in K. subst k. cbn [finalise rbind] in H. injection H as <-. cbn. auto.
  - right. destruct op as [|c op].
    + destruct l as [|a l]; [destruct (peqb _ _); [discriminate|]; injection H as <-; eexists; split; [reflexivity|]; cbn; auto 10|].
      destruct (prop_parse ctx fl (a :: l)) as [p|]; cbn [rbind] in H; [|discriminate]. destruct (validProperty p); [|discriminate]. injection H as <-. eexists. split; [reflexivity|].
      cbn. destruct s as [k t ps sb]. cbn in *. auto 10.
    + destruct (beq l (endDelimiter (cKind c))).
      * destruct (finalise tzo c) as [c'|]; cbn [rbind] in *; [|discriminate]. destruct op as [|d op].
        -- destruct s as [k t ps sb], s' as [k' t' ps' sb']. cbn [cKind cSubs] in *. subst k k' sb'. cbn [addComponent allowed rbind] in *. injection H as <-. eexists. split; [reflexivity|]. cbn. auto 10.
        -- destruct (addComponent d c') as [d'|]; cbn [rbind] in *; [|discriminate]. injection H as <-. eexists. split; [reflexivity|]. cbn. auto 10.
      * destruct l as [|a l]; [destruct (peqb _ _); [discriminate|]; injection H as <-; eexists; split; [reflexivity|]; cbn; auto 10|].
        destruct (prop_parse ctx fl (a :: l)) as [p|]; cbn [rbind] in *; [|discriminate]. injection H as <-. eexists. split; [reflexivity|]. cbn. auto 10.
Qed.
Lemma like_lines ls : forall st o st', like st o -> parse_lines ls st = Ok st' -> snd (one_lines ls o) = Ok tt.
Proof.
  induction ls as [|l r IH]; intros st o st' L H; cbn [ReadOneModel.one_lines ComponentModel.parse_lines] in *; [reflexivity|].
  destruct (parse_line l st) as [s1|] eqn:E; cbn [rbind] in H; [|discriminate].
  destruct (like_line _ _ _ _ L E) as [(_ & _ & _ & -> & _)|(o' & -> & L' & _)]; [reflexivity|exact (IH _ _ _ L' H)].
Qed.
(** Outside a calendar, without a line that ends one, no component is added. *)
Lemma unclosed ls : forall st st', ~ In closing ls -> cKind (self st) = VCALENDAR -> inside st = true -> parse_lines ls st = Ok st' -> inside st' = true.
Proof.
  induction ls as [|l r IH]; intros st st' N K I H; cbn [ComponentModel.parse_lines] in H; [injection H as <-; exact I|].
  destruct (parse_line l st) as [s1|] eqn:E; cbn [rbind] in H; [|discriminate].
  destruct (like_line l st (mkOne (inside st) (self st) (opened st) None false (made st)) s1) as [(C & _)|(o' & _ & L' & I' & _)]; [repeat split; auto|exact E|destruct N; left; auto|].
  apply (IH s1 st'); [intros J; apply N; right; exact J|apply L'|auto|exact H].
Qed.
Lemma outside ls : forall st st', ~ In closing ls -> cKind (self st) = VCALENDAR -> inside st = false -> parse_lines ls st = Ok st' -> inside st' = false -> cSubs (self st') = cSubs (self st) /\ found st' = found st.
Proof.
  induction ls as [|l r IH]; intros st st' N K I H J; cbn [ComponentModel.parse_lines] in H; [injection H as <-; auto|].
  destruct (parse_line l st) as [s1|] eqn:E; cbn [rbind] in H; [|discriminate].
  assert (N' : ~ In closing r) by (intros X; apply N; right; exact X).
  destruct st as [i f s op m]. cbn [inside self found] in *. subst i. cbn [ComponentModel.parse_line negb] in E. destruct (beq l _).
  - injection E as <-. pose proof (unclosed r (mkParse true true s op m) st' N' K eq_refl H) as X. congruence.
  - destruct l; [|discriminate]. unfold blank in E. destruct (peqb _ _); [discriminate|]. injection E as <-. exact (IH (mkParse false f s op m) _ N' K eq_refl H J).
Qed.
Lemma same_lines ls : forall st o st', like st o -> parse_lines ls st = Ok st' -> inside st' = false -> inside st = true \/ (found st = false /\ found st' = true) ->
  (count_occ (list_eq_dec Ascii.ascii_dec) ls closing <= 1)%nat -> cSubs (oSelf (fst (one_lines ls o))) = cSubs (self st').
Proof.
  induction ls as [|l r IH]; intros st o st' L H J C N; cbn [ReadOneModel.one_lines ComponentModel.parse_lines] in *.
  - injection H as <-. destruct C as [C|[C D]]; congruence.
  - destruct (parse_line l st) as [s1|] eqn:E; cbn [rbind] in H; [|discriminate].
    destruct (like_line _ _ _ _ L E) as [(-> & I & I' & -> & S)|(o' & -> & L' & I & F)].
    + cbn [fst]. cbn [count_occ] in N. destruct (list_eq_dec _ _ _) as [_|X]; [|congruence].
      assert (N' : ~ In closing r) by (intros X; apply (count_occ_In (list_eq_dec Ascii.ascii_dec)) in X; lia).
      assert (K : cKind (self s1) = VCALENDAR).
      { destruct st as [i f s op m]. destruct L as (_ & _ & _ & K & _). cbn [inside self] in *. subst i. cbn [ComponentModel.parse_line negb] in E. rewrite K in E. cbn in E.
        destruct s as [k ? ? ?]. cbn in K. subst k. cbn in E. injection E as <-. reflexivity. }
      rewrite <- S. symmetry. exact (proj1 (outside r s1 st' N' K I' H J)).
    + apply (IH s1 o' st'); auto.
      * destruct C as [C|[C D]]; [left; auto|]. destruct (found s1) eqn:Q; [left; auto|right; auto].
      * cbn [count_occ] in N. destruct (list_eq_dec _ _ _); [|exact N]. lia.
Qed.

Lemma parse_like cal : cKind cal = VCALENDAR -> forall k s ps subs, cal = Comp k s ps subs -> like (mkParse false false (Comp k s [] subs) [] 0) (mkOne false cal [] None false 0).
Proof. intros K k s ps subs ->. cbn in K. subst k. repeat split. Qed.

Lemma accepts cal data x : cKind cal = VCALENDAR -> parse tzo ctx fl uuids cal data = Ok x -> exists r, snd (parseComponent tzo ctx fl uuids cal data) = Ok r.
Proof.
  intros K H. destruct cal as [k s ps subs] eqn:Q. rewrite <- Q in *. unfold parseComponent. unfold parse in H. rewrite Q in H at 1.
  destruct (parse_lines _ _) as [st|] eqn:E; cbn [rbind] in H; [|discriminate].
  pose proof (like_lines _ _ _ _ (parse_like cal K k s ps subs Q) E) as L. destruct (one_lines _ _) as [o r]. cbn [snd] in *. subst r. eexists. reflexivity.
Qed.
Lemma same cal data cal' : cKind cal = VCALENDAR -> parse tzo ctx fl uuids cal data = Ok (true, cal') -> (count_occ (list_eq_dec Ascii.ascii_dec) (unfolded data) closing <= 1)%nat ->
  fst (parseComponent tzo ctx fl uuids cal data) = with_subs cal (cSubs cal').
Proof.
  intros K H N. destruct cal as [k s ps subs] eqn:Q. rewrite <- Q in *. unfold parseComponent. unfold parse in H. rewrite Q in H at 1. fold (unfolded data) in *.
  destruct (parse_lines _ _) as [st|] eqn:E; cbn [rbind] in H; [|discriminate]. destruct (inside st) eqn:I; [discriminate|].
  destruct (found st && _) eqn:V; [discriminate|]. injection H as F <-.
  pose proof (same_lines _ _ _ _ (parse_like cal K k s ps subs Q) E I (or_intror (conj eq_refl F)) N) as L.
  destruct (inv_lines cal (unfolded data) _ (inv_start cal)) as (new & S & _).
  destruct (one_lines _ _) as [o r]. cbn [fst] in *. rewrite S in *. cbn [with_subs cSubs] in L. rewrite <- L. reflexivity.
Qed.
Lemma kept cal data : exists new, fst (parseComponent tzo ctx fl uuids cal data) = with_subs cal (cSubs cal ++ new) /\
  forall r zs, snd (parseComponent tzo ctx fl uuids cal data) = Ok (r, zs) -> (new <> [] -> r = hd_error new).
Proof.
  unfold parseComponent. destruct (inv_lines cal (unfolded data) _ (inv_start cal)) as (new & S & F). fold (unfolded data). exists new. destruct (one_lines _ _) as [o r]. cbn [fst snd] in *.
  split; [exact S|]. intros c zs H N. destruct r; cbn [rbind] in H; [|discriminate]. injection H as <- _. rewrite F. destruct new; [congruence|reflexivity].
Qed.
Lemma stops cal a : cKind cal = VCALENDAR -> forall st b b', inv cal st -> one_lines (a ++ closing :: b) st = one_lines (a ++ closing :: b') st.
Proof.
  intros K. induction a as [|l r IH]; intros st b b' I; cbn [app ReadOneModel.one_lines].
  - destruct I as (new & S & _). destruct st as [i s o f z m]. cbn [oSelf] in S. subst s. destruct i; cbn [ReadOneModel.one_line negb with_subs cKind]; rewrite K; reflexivity.
  - destruct (one_line l st) as [[[] st']|e] eqn:E; try reflexivity. apply IH. exact (inv_line _ _ _ _ _ I E).
Qed.
Lemma rest cal data data' a b b' : cKind cal = VCALENDAR -> unfolded data = a ++ closing :: b -> unfolded data' = a ++ closing :: b' ->
  parseComponent tzo ctx fl uuids cal data = parseComponent tzo ctx fl uuids cal data'.
Proof. intros K E E'. unfold parseComponent. fold (unfolded data). fold (unfolded data'). rewrite E, E', (stops cal a K _ b b' (inv_start cal)). reflexivity. Qed.
End P.

(** The time zones that are merged. *)
Section Merge.
Variable tzo : tzid -> Z -> Z -> Z -> Z -> Z -> Z -> bool -> bool -> Z.
Variable ctx : pctx.
Variable fl : floats.
Variable uuids : nat -> bytes.
Notation one_line := (one_line tzo ctx fl uuids).
Notation one_lines := (one_lines tzo ctx fl uuids).
Definition vtz (c : comp) : bool := beq (getType (cKind c)) (lit "VTIMEZONE").
Lemma finalise_kind c c' : finalise tzo c = Ok c' -> cKind c' = cKind c.
Proof.
  destruct c as [k s ps subs]. cbn [finalise cKind]. intros H.
  destruct k; repeat match type of H with rbind ?r _ = _ => destruct r; cbn [rbind] in H; [|discriminate H] end; injection H as <-; reflexivity.
Qed.
Definition noted (cal : comp) (st : onestate) : Prop :=
  (exists new, oSelf st = with_subs cal (cSubs cal ++ new) /\ (existsb vtz new = true -> oZone st = true)) /\ (existsb vtz (oOpen st) = true -> oZone st = true).
Lemma noted_line cal l st b st' : noted cal st -> one_line l st = Ok (b, st') -> noted cal st'.
Proof.
  intros ((new & E & F) & G). destruct st as [i s o f z m]. cbn [oSelf oFirst oZone oOpen] in E, F, G. unfold ReadOneModel.one_line, one_blank. intros H.
  assert (I : noted cal (mkOne i s o f z m)) by (split; [exists new; auto|exact G]).
  assert (I' : forall i', noted cal (mkOne i' s o f z m)) by (intros; split; [exists new; auto|exact G]).
  destruct i; cbn [negb] in H.
  2:{ destruct (beq l _); [injection H as <- <-; auto|]. destruct l; [|discriminate]. destruct (peqb _ _); [discriminate|]. injection H as <- <-. auto. }
  destruct (startswith l _).
  { cbv zeta in H. generalize dependent (makeComponent (skipn 6 l) (uuids m)). intros c H. match type of H with Ok (_, ?y) = _ => assert (Y : st' = y) by congruence end. subst st'. split; [exists new; cbn [oSelf oZone]; split; [exact E|]; intros X; rewrite (F X); reflexivity|]. cbn [oOpen oZone existsb]. intros X. apply orb_true_iff in X as [X|X]; [unfold vtz in X; rewrite X; apply orb_true_r|rewrite (G X); reflexivity]. }
  destruct (beq l _); [injection H as <- <-; auto|]. destruct o as [|c o].
  { destruct l; [destruct (peqb _ _); [discriminate|]|]; injection H as <- <-; auto. }
  cbn [existsb] in G. destruct (beq l _).
  - destruct (finalise tzo c) as [c'|] eqn:Q; cbn [rbind] in H; [|discriminate]. apply finalise_kind in Q. destruct o as [|d o].
    + subst s. cbn [with_subs addComponent] in H. destruct (allowed _ _); [|discriminate]. cbn [rbind] in H. injection H as <- <-. split; [|cbn; discriminate].
      exists (new ++ [c']). cbn [oSelf oZone]. unfold with_subs. rewrite app_assoc. split; [reflexivity|]. rewrite existsb_app. cbn [existsb]. rewrite orb_false_r.
      intros X. apply orb_true_iff in X as [X|X]; [exact (F X)|]. apply G. unfold vtz in *. rewrite Q in X. rewrite X. reflexivity.
    + destruct d as [dk ds dp dc]. cbn [addComponent] in H. destruct (allowed _ _); [|discriminate]. cbn [rbind] in H. injection H as <- <-. split; [exists new; auto|]. cbn [oOpen oZone existsb] in *.
      intros X. apply G. unfold vtz in *. cbn [cKind] in *. rewrite X. apply orb_true_r.
  - destruct l; [destruct (peqb _ _); [discriminate|]; injection H as <- <-; auto|]. destruct (prop_parse _ _ _); cbn [rbind] in H; [|discriminate]. injection H as <- <-. split; [exists new; auto|].
    cbn [oOpen oZone existsb] in *. intros X. apply G. destruct c as [k t ps sb]. exact X.
Qed.
Lemma noted_lines cal ls : forall st, noted cal st -> noted cal (fst (one_lines ls st)).
Proof.
  induction ls as [|l r IH]; intros st I; cbn [ReadOneModel.one_lines]; [exact I|].
  destruct (one_line l st) as [[[] st']|e] eqn:E; [exact (noted_line _ _ _ _ _ I E)|exact (IH _ (noted_line _ _ _ _ _ I E))|exact I].
Qed.
Lemma merged_zones cal data r zs : snd (parseComponent tzo ctx fl uuids cal data) = Ok (r, zs) -> let after := fst (parseComponent tzo ctx fl uuids cal data) in
  (zs = [] \/ zs = filter vtz (cSubs after)) /\ (forall new, cSubs after = cSubs cal ++ new -> existsb vtz new = true -> zs = filter vtz (cSubs after)).
Proof.
  unfold parseComponent. fold (unfolded data). assert (N : noted cal (mkOne false cal [] None false 0)).
  { split; [|cbn; discriminate]. exists []. split; [destruct cal; cbn; rewrite app_nil_r; reflexivity|discriminate]. }
  apply (noted_lines cal (unfolded data)) in N. destruct (one_lines _ _) as [st o]. cbn [fst snd] in *. destruct o; cbn [rbind]; [|discriminate]. intros [= _ <-].
  split; [destruct (oZone st); auto|]. intros new E X. destruct N as ((new' & E' & Z) & _). rewrite E' in E. cbn [with_subs cSubs] in E. apply app_inv_head in E. subst new'. rewrite (Z X). reflexivity.
Qed.
End Merge.

(** What is refused. *)
Section Refused.
Variable tzo : tzid -> Z -> Z -> Z -> Z -> Z -> Z -> bool -> bool -> Z.
Variable ctx : pctx.
Variable fl : floats.
Variable uuids : nat -> bytes.
Lemma refused cal data n l rest : cKind cal = VCALENDAR -> unfolded data = repeat [] n ++ l :: rest -> l <> [] -> l <> lit "BEGIN:VCALENDAR" ->
  parseComponent tzo ctx fl uuids cal data = (cal, Raise InvalidData).
Proof.
  intros K E N B. unfold parseComponent. fold (unfolded data). rewrite E. clear E.
  assert (H : one_lines tzo ctx fl uuids (repeat [] n ++ l :: rest) (mkOne false cal [] None false 0) = (mkOne false cal [] None false 0, Raise InvalidData)); [|rewrite H; reflexivity].
  induction n as [|n IH]; cbn [repeat app one_lines].
  - unfold one_line. cbn [negb]. rewrite K. destruct (beq l _) eqn:Q; [apply beq_eq in Q; contradiction|]. destruct l; [contradiction|reflexivity].
  - unfold one_line. cbn [negb]. rewrite K. cbn [beq]. change (beq [] (beginDelimiter VCALENDAR)) with false. cbn iota. unfold one_blank. destruct (peqb _ _); [reflexivity|exact IH].
Qed.
Lemma plain_not l t : plain_text l -> beq l (lit "END:" ++ t) = false.
Proof. intros (_ & _ & E). destruct (beq l _) eqn:Q; [|reflexivity]. apply beq_eq in Q. subst l. cbn in E. destruct t; discriminate E. Qed.
Lemma plain_top l cal f z m : cKind cal = VCALENDAR -> plain_text l -> one_line tzo ctx fl uuids l (mkOne true cal [] f z m) = Ok (false, mkOne true cal [] f z m).
Proof. intros K P. unfold one_line. cbn [negb]. rewrite K. unfold endDelimiter. rewrite (plain_not l _ P). destruct P as (N & B & _). rewrite B. destruct l; [contradiction|reflexivity]. Qed.
Lemma plain_in l cal c o f z m : cKind cal = VCALENDAR -> plain_text l -> one_line tzo ctx fl uuids l (mkOne true cal (c :: o) f z m) =
  do p <- prop_parse ctx fl l; Ok (false, mkOne true cal (put_prop p c :: o) f z m).
Proof. intros K P. unfold one_line. cbn [negb]. rewrite K. unfold endDelimiter. rewrite !(plain_not l _ P). destruct P as (N & B & _). rewrite B. destruct l; [contradiction|reflexivity]. Qed.
Lemma unreadable cal data top n ps l rest e : cKind cal = VCALENDAR ->
  unfolded data = lit "BEGIN:VCALENDAR" :: top ++ (lit "BEGIN:" ++ n) :: ps ++ l :: rest -> Forall plain_text top ->
  Forall (fun p => plain_text p /\ exists q, prop_parse ctx fl p = Ok q) ps -> plain_text l -> prop_parse ctx fl l = Raise e ->
  parseComponent tzo ctx fl uuids cal data = (cal, Raise e).
Proof.
  intros K E T P L X. unfold parseComponent. fold (unfolded data). rewrite E. clear E.
  assert (H : exists st, one_lines tzo ctx fl uuids (lit "BEGIN:VCALENDAR" :: top ++ (lit "BEGIN:" ++ n) :: ps ++ l :: rest) (mkOne false cal [] None false 0) = (st, Raise e) /\ oSelf st = cal).
  2:{ destruct H as (st & -> & S). cbn [rbind]. rewrite S. reflexivity. }
  cbn [one_lines]. unfold one_line at 1. cbn [negb]. rewrite K. change (beq (lit "BEGIN:VCALENDAR") (beginDelimiter VCALENDAR)) with true. cbn iota.
  induction T as [|a top Pa T IH]; cbn [app one_lines]; [|rewrite (plain_top a cal _ _ _ K Pa); exact IH].
  unfold one_line at 1. cbn [negb]. assert (B : startswith (lit "BEGIN:" ++ n) (lit "BEGIN:") = true) by (cbn; destruct n; reflexivity).
  change ("B" :: "E" :: "G" :: "I" :: "N" :: ":" :: n)%char with (lit "BEGIN:" ++ n). rewrite B. cbv zeta.
  generalize (makeComponent (skipn 6 (lit "BEGIN:" ++ n)) (uuids 0%nat)). intros c. generalize (false || beq (getType (cKind c)) (lit "VTIMEZONE")). intros z. revert c.
  induction P as [|p ps (Pp & q & Q) P IH]; intros c; cbn [app one_lines].
  - rewrite (plain_in l cal c _ _ _ _ K L), X. cbn [rbind]. eexists. split; reflexivity.
  - rewrite (plain_in p cal c _ _ _ _ K Pp), Q. cbn [rbind]. apply IH.
Qed.
End Refused.
