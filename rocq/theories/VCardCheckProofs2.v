(** Proofs about validation and duplicates of vCards that were read. *)
From Coq Require Import Lia Sorting.Permutation.
From Verif Require Import PyBase PyProofs ParserCtx TextModel LineModel LineProofs PropertyModel PropertySpec PropertyProofs ComponentModel
  ValidateProofs8 VCardModel VCardSpec VCardProofs VCardProofs2 VCardProofs3 VCardCheckModel VCardCheckSpec VCardCheckProofs.

Lemma vloop_value ctx f : forall txt ps strip ps', vparam_loop ctx f txt ps strip = Some (Ok (None, ps')) -> txt = [] /\ ps' = ps.
Proof.
  induction f as [|f IH]; intros txt ps strip ps'; destruct txt as [|c t]; cbn [vparam_loop]; try discriminate; try (intro H; injection H as <-; auto).
  destruct (vcard_round ctx (c :: t) ps strip) as [|t1 ps1 s1|t1 ps1|e] eqn:R; try discriminate; [|destruct e; discriminate].
  intro H. apply IH in H as [-> _]. exfalso. unfold vcard_round in R. destruct (Ascii.eqb c ";").
  - destruct (strduptokenstr t _) as [[[n|] t2]|e]; try discriminate. destruct t2 as [|d t2]; [discriminate|]. cbv zeta in R.
    repeat (match type of R with context [if ?b then _ else _] => destruct b end; try discriminate);
      try (destruct (strduptokenstr t2 _) as [[[v|] t3]|e]; try discriminate);
      (match type of R with context [more_values ?n ?x] => destruct (more_values n x) as [[[vs t4]|e']|] eqn:M end; try discriminate; injection R as -> _ _; eapply more_some; [exact M|reflexivity]).
  - destruct (Ascii.eqb c ":"); discriminate.
Qed.
Lemma vline_no_value ctx f data l : vcard_parseLine ctx f data = Some (Ok l) -> lValue l = None -> lParams l = [].
Proof.
  unfold vcard_parseLine. destruct (strduptokenstr data _) as [[[[|x n]|] txt]|e]; try discriminate. destruct (split_group (x :: n)) as [g name].
  destruct (vparam_loop ctx f txt [] false) as [[[v ps]|e]|] eqn:E; try discriminate. intro H. injection H as <-. cbn [lValue lParams]. intros ->.
  apply vloop_value in E as [_ E]. exact E.
Qed.
Lemma citem_texts ctx fl t s i : citem_parse ctx fl t (Some s) = Ok i -> match i with CItem (VPlain _ None) | CItem (VUri None) => False | _ => True end.
Proof.
  intro H. destruct t as [t| | | |]; cbn [citem_parse] in H;
    try (unfold rbind in H; match type of H with match ?x with _ => _ end = _ => destruct x; [|discriminate] end; injection H as <-; exact Logic.I);
    [|injection H as <-; exact Logic.I].
  assert (X : forall i', item_parse ctx fl t (Some s) = Ok i' -> match i' with VPlain _ None | VUri None => False | _ => True end).
  { intros i' Q. destruct i' as [| p [x|] | [x|] | | | | | | | | |]; try exact Logic.I; apply (item_words _ _ _ _ _ Q); [left; eauto|right; reflexivity]. }
  destruct t; try (destruct (utcoffset_parse true s 0) as [n [u|]]; [|discriminate]; injection H as <-; exact Logic.I);
    try (unfold rbind in H; destruct (dt_parseText ctx true s); [|discriminate]; injection H as <-; exact Logic.I);
    (unfold rbind in H; match type of H with match ?x with _ => _ end = _ => destruct x as [i'|] eqn:E; [|discriminate] end; injection H as <-; specialize (X _ eq_refl); destruct i' as [| p [x|] | [x|] | | | | | | | | |]; exact X).
Qed.
Lemma parsed_text ctx fl text p : cprop_parse ctx fl text = Some (Ok p) -> In (upper (cpName p)) [lit "VERSION"; lit "PROFILE"] -> has_text p.
Proof.
  unfold cprop_parse. destruct (vcard_parseLine ctx _ text) as [[l|]|] eqn:L; try discriminate.
  destruct (cline_value _ _ _ _ _) as [v|] eqn:E; [|discriminate]. intros [= <-]. cbn [cpName]. intro I. unfold has_text. cbn [cpValue].
  unfold cline_value, rbind in E. destruct (cdetermine (lName l) (lParams l)) as [t|] eqn:Et; [|discriminate].
  destruct (cis_multi (lName l)).
  - unfold cmulti_parse, rbind in E. destruct (lValue l); [|discriminate]. destruct (map_r _ _); [|discriminate]. injection E as <-. exact Logic.I.
  - destruct (lValue l) as [s|] eqn:Lv.
    + destruct (citem_parse ctx fl t (Some s)) as [i|] eqn:Ei; [|discriminate]. injection E as <-. pose proof (citem_texts _ _ _ _ _ Ei) as C. destruct i as [[| p [x|] | [x|] | | | | | | | | |]|l'|l'|l']; exact C.
    + pose proof (vline_no_value _ _ _ _ L Lv) as P. rewrite P in Et. unfold cdetermine in Et. exfalso.
      assert (t = CT T_TEXT) as -> by (destruct I as [I|[I|[]]]; rewrite <- I in Et; vm_compute in Et; congruence). cbn in E. discriminate E.
Qed.

Definition read_in ctx fl (c : cprops) : Prop := card_tidy c /\ forall p, in_card p c -> exists t, cprop_parse ctx fl t = Some (Ok p).
Lemma read_nil ctx fl : read_in ctx fl [].
Proof. split; [split; constructor|]. intros p (k & l & [] & _). Qed.
Lemma in_cadd k p c q : in_card q (cadd k p c) -> q = p \/ in_card q c.
Proof.
  induction c as [|[k' l] r IH]; cbn [cadd].
  - intros (a & b & [[= <- <-]|[]] & [<-|[]]). left. reflexivity.
  - destruct (beq k' k).
    + intros (a & b & [[= <- <-]|I] & J); [apply in_app_iff in J; destruct J as [J|[<-|[]]]; [right; exists k', l; split; [left; reflexivity|exact J]|left; reflexivity]|right; exists a, b; split; [right; exact I|exact J]].
    + intros (a & b & [[= <- <-]|I] & J); [right; exists k', l; split; [left; reflexivity|exact J]|].
      destruct IH as [X|(a' & b' & X & Y)]; [exists a, b; auto|left; exact X|right; exists a', b'; split; [right; exact X|exact Y]].
Qed.
Lemma cadd_keys k p c a : In a (map fst (cadd k p c)) <-> a = k \/ In a (map fst c).
Proof.
  induction c as [|[k' l] r IH]; cbn [cadd].
  - cbn [map fst In]. split; [intros [<-|[]]; left; reflexivity|intros [->|[]]; left; reflexivity].
  - destruct (beq_case k' k) as [[-> ->]|[D ->]]; cbn [map fst In].
    + split; [intros [H|H]; [right; left; exact H|right; right; exact H]|intros [->|[H|H]]; [left; reflexivity|left; exact H|right; exact H]].
    + rewrite IH. tauto.
Qed.
Lemma cadd_tidy p c : card_tidy c -> card_tidy (card_addProperty p c).
Proof.
  unfold card_addProperty. intros [N F]. split.
  - clear F. induction c as [|[k l] r IH]; cbn [cadd]; [repeat constructor; intros []|]. cbn [map fst] in N. apply NoDup_cons_iff in N. destruct N as [N1 N2].
    destruct (beq_case k (upper (cpName p))) as [[-> ->]|[D ->]]; cbn [map fst]; constructor; try assumption; [|apply IH, N2].
    intro X. apply cadd_keys in X. destruct X as [X|X]; [exact (D X)|exact (N1 X)].
  - clear N. induction c as [|[k l] r IH]; cbn [cadd]; [repeat constructor; discriminate|]. inversion F as [|? ? [F1 F2] F3]; subst. cbn [fst snd] in F1, F2.
    destruct (beq_case k (upper (cpName p))) as [[-> ->]|[D ->]]; constructor; try assumption; cbn [fst snd].
    + split; [destruct l; discriminate|]. apply Forall_app. split; [exact F2|repeat constructor].
    + split; assumption.
    + apply IH, F3.
Qed.
Lemma read_add ctx fl t p c : cprop_parse ctx fl t = Some (Ok p) -> read_in ctx fl c -> read_in ctx fl (card_addProperty p c).
Proof. intros H [T R]. split; [apply cadd_tidy, T|]. intros q I. destruct (in_cadd _ _ _ _ I) as [->|J]; [eauto|apply R, J]. Qed.

Section Read.
Variables (ctx : pctx) (fl : floats).
Lemma blank_same {A} (st st' : A) : cblank ctx st = Some (Ok st') -> st' = st.
Proof. unfold cblank. destruct (peqb _ _); [discriminate|]. intros [= <-]. reflexivity. Qed.
Lemma card_lines_read lines : forall i f ps i' f' ps', card_lines ctx fl lines (i, f, ps) = Some (Ok (i', f', ps')) -> read_in ctx fl ps -> read_in ctx fl ps'.
Proof.
  induction lines as [|l r IH]; cbn [card_lines]; intros i f ps i' f' ps' H R; [injection H as _ _ <-; exact R|].
  destruct (card_line ctx fl l (i, f, ps)) as [[[[i1 f1] ps1]|]|] eqn:E; try discriminate. apply (IH _ _ _ _ _ _ H). clear IH H. unfold card_line in E.
  destruct (negb i).
  - destruct (beq l _); [injection E as _ _ <-; exact R|]. destruct l; [apply blank_same in E; injection E as _ _ ->; exact R|discriminate].
  - destruct (beq l _); [injection E as _ _ <-; exact R|]. destruct l as [|c l]; [apply blank_same in E; injection E as _ _ ->; exact R|].
    destruct (cprop_parse ctx fl (c :: l)) as [[p|]|] eqn:P; try discriminate. destruct (card_valid p); [|discriminate]. injection E as _ _ <-. eapply read_add; eassumption.
Qed.
Lemma card_read text c : card_parse ctx fl text = Some (Ok (Some c)) -> read_in ctx fl c.
Proof.
  unfold card_parse. destruct (card_lines _ _ _ _) as [[[[i f] ps]|]|] eqn:E; try discriminate. destruct i; [discriminate|]. destruct f; cbn [andb]; [|discriminate].
  destruct (card_has _ ps); [|discriminate]. intros [= <-]. eapply card_lines_read; [exact E|apply read_nil].
Qed.
Lemma cards_lines_read lines : forall i rs ps i' rs' ps', cards_lines ctx fl lines (i, rs, ps) = Some (Ok (i', rs', ps')) -> read_in ctx fl ps -> Forall (read_in ctx fl) rs -> Forall (read_in ctx fl) rs'.
Proof.
  induction lines as [|l r IH]; cbn [cards_lines]; intros i rs ps i' rs' ps' H R F; [injection H as _ <- _; exact F|].
  destruct (cards_line ctx fl l (i, rs, ps)) as [[[[i1 f1] ps1]|]|] eqn:E; try discriminate.
  assert (X : read_in ctx fl ps1 /\ Forall (read_in ctx fl) f1); [|apply (IH _ _ _ _ _ _ H); apply X]. clear IH H. unfold cards_line in E.
  destruct (negb i).
  - destruct (beq l _); [injection E as _ <- <-; auto|]. destruct l; [apply blank_same in E; injection E as _ -> ->; auto|discriminate].
  - destruct (beq l _).
    + destruct (card_has _ ps); [|discriminate]. injection E as _ <- <-. split; [apply read_nil|]. apply Forall_app. auto.
    + destruct l as [|c l]; [apply blank_same in E; injection E as _ -> ->; auto|].
      destruct (cprop_parse ctx fl (c :: l)) as [[p|]|] eqn:P; try discriminate. destruct (card_valid p); [|discriminate]. injection E as _ <- <-. split; [eapply read_add; eassumption|exact F].
Qed.
Lemma cards_read text cs : cards_parse ctx fl text = Some (Ok cs) -> Forall (read_in ctx fl) cs.
Proof.
  unfold cards_parse. destruct (cards_lines _ _ _ _) as [[[[i rs] ps]|]|] eqn:E; try discriminate. destruct i; [discriminate|]. intros [= <-].
  eapply cards_lines_read; [exact E|apply read_nil|constructor].
Qed.
Lemma read_texts c p : read_in ctx fl c -> in_card p c -> In (upper (cpName p)) [lit "VERSION"; lit "PROFILE"] -> has_text p.
Proof. intros [_ R] I. destruct (R p I) as [t E]. exact (parsed_text _ _ _ _ E). Qed.

(** ** Duplicates. *)
Lemma read_duplicate c : cuts ctx -> read_in ctx fl c -> card_duplicate c = Ok c.
Proof.
  intros C [_ R]. unfold card_duplicate. assert (X : forall k l, In (k, l) c -> map_r cprop_duplicate l = Ok l).
  { intros k l I. assert (Y : forall p, In p l -> cprop_duplicate p = Ok p) by (intros p J; destruct (R p) as [t E]; [exists k, l; auto|exact (prop_duplicate _ _ _ _ C E)]).
    clear - Y. induction l as [|p l IH]; [reflexivity|]. cbn [map_r]. rewrite (Y p (or_introl eq_refl)). cbn [rbind]. rewrite IH by (intros q J; apply Y; right; exact J). reflexivity. }
  clear R. induction c as [|[k l] r IH]; [reflexivity|]. cbn [map_r fst snd]. rewrite (X k l (or_introl eq_refl)). cbn [rbind]. rewrite IH by (intros k' l' J; apply (X k' l'); right; exact J). reflexivity.
Qed.
End Read.
