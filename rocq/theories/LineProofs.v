From Verif Require Import PyBase PyProofs ParserCtx TextModel TextSpec TextProofs LineModel LineSpec.
From Coq Require Import Lia ZifyBool ZifyNat.

(** ** Tokens *)
Lemma until_token_len tokens txt a b : until_token tokens txt = (a, b) -> (List.length b <= List.length txt)%nat.
Proof.
  revert a b; induction txt as [|s r IH]; intros a b; cbn [until_token].
  - intros [= <- <-]; cbn; lia.
  - destruct (cin s tokens); [intros [= <- <-]; lia|].
    destruct (until_token tokens r) as [x y]; intros [= <- <-]; specialize (IH _ _ eq_refl); cbn [List.length]; lia.
Qed.

Lemma quoted_len skip txt a b : quoted skip txt = Some (a, b) -> (List.length b < List.length txt)%nat.
Proof.
  revert skip a b; induction txt as [|s r IH]; intros skip a b; cbn [quoted]; [discriminate|].
  destruct skip.
  - destruct (quoted false r) as [[x y]|] eqn:Hq; cbn; [|discriminate]. intros [= <- <-]; specialize (IH _ _ _ Hq); lia.
  - destruct (Ascii.eqb s DQUOTE); [intros [= <- <-]; cbn; lia|].
    destruct (quoted _ r) as [[x y]|] eqn:Hq; cbn; [|discriminate]. intros [= <- <-]; specialize (IH _ _ _ Hq); lia.
Qed.

Lemma lstrip_len s : (List.length (lstrip s) <= List.length s)%nat.
Proof. induction s as [|c r IH]; cbn; [lia|]. destruct (is_space c); cbn; lia. Qed.

Lemma strdup_len txt tokens v r : strduptokenstr txt tokens = Ok (v, r) -> (List.length r <= List.length txt)%nat.
Proof.
  destruct txt as [|c t]; [discriminate|]; unfold strduptokenstr; cbv zeta.
  match goal with |- match ?x with _ => _ end = _ -> _ =>
    assert (Hl : (List.length x <= List.length (c :: t))%nat) by (destruct (Ascii.eqb c SPC); [apply lstrip_len|lia]);
    destruct x as [|d u] end.
  - intros [= <- <-]; cbn; lia.
  - destruct (Ascii.eqb d DQUOTE).
    + destruct (quoted false u) as [[a b]|] eqn:Hq; intros [= <- <-]; [|assumption].
      apply quoted_len in Hq; cbn [List.length] in *; lia.
    + destruct (until_token tokens (d :: u)) as [a b] eqn:Hu; intros [= <- <-]; apply until_token_len in Hu; lia.
Qed.

Lemma more_values_total fuel txt : (List.length txt < fuel)%nat ->
  exists r, more_values fuel txt = Some r /\
    (forall vs t, r = Ok (vs, t) -> (List.length t <= List.length txt)%nat).
Proof.
  revert txt; induction fuel as [|f IH]; intros txt Hl; [lia|]; cbn [more_values].
  destruct txt as [|c r]; [eexists; split; [reflexivity|]; discriminate|].
  destruct (Ascii.eqb c ","); [|eexists; split; [reflexivity|]; intros vs t [= <- <-]; lia].
  destruct (strduptokenstr r (lit ":;,")) as [[[v|] r']|e] eqn:Hs; try (eexists; split; [reflexivity|]; discriminate).
  apply strdup_len in Hs; cbn [List.length] in Hl.
  destruct (IH r') as (x & -> & Hx); [lia|].
  destruct x as [[vs t]|e]; eexists; (split; [reflexivity|]); [|discriminate].
  intros vs' t' [= <- <-]; specialize (Hx _ _ eq_refl); cbn [List.length]; lia.
Qed.

Lemma ical_round_len txt ps : txt <> [] ->
  match ical_round txt ps with Stuck => False | Next t _ => (List.length t < List.length txt)%nat | _ => True end.
Proof.
  intros Hn; destruct txt as [|c t]; [congruence|]; cbn [ical_round].
  destruct (Ascii.eqb c ";"); [|destruct (Ascii.eqb c ":"); exact I].
  destruct (strduptokenstr t (lit "=")) as [[[pn|] t1]|e] eqn:H1; try exact I.
  destruct (strduptokenstr (tl t1) (lit ":;,")) as [[[v|] t2]|e] eqn:H2; try exact I.
  apply strdup_len in H1; apply strdup_len in H2.
  destruct (more_values_total (S (List.length t2)) t2) as (x & -> & Hx); [lia|].
  destruct x as [[vs t3]|e]; [|exact I].
  specialize (Hx _ _ eq_refl). destruct t1; cbn [tl List.length] in *; lia.
Qed.

Lemma ical_params_total fuel txt ps : (List.length txt <= fuel)%nat -> exists r, param_loop ical_round fuel txt ps = Some r.
Proof.
  revert txt ps; induction fuel as [|f IH]; intros txt ps Hl.
  - destruct txt; [eexists; reflexivity|cbn in Hl; lia].
  - destruct txt as [|c t]; [eexists; reflexivity|].
    pose proof (ical_round_len (c :: t) ps) as Hr; specialize (Hr ltac:(congruence)).
    cbn [param_loop]. destruct (ical_round (c :: t) ps) as [|t' ps'|t' ps'|e]; try contradiction.
    + apply IH; lia.
    + eexists; reflexivity.
    + eexists; reflexivity.
Qed.

Lemma ical_parse_total data : forall fuel, (List.length data <= fuel)%nat -> exists r, ical_parseLine fuel data = Some r.
Proof.
  intros fuel Hf; unfold ical_parseLine.
  destruct (strduptokenstr data (lit ";:")) as [[[[|c n]|] txt]|e] eqn:Hs; try (eexists; reflexivity).
  apply strdup_len in Hs.
  destruct (ical_params_total fuel txt []) as [[[v ps]|e] ->]; [lia| |]; eexists; reflexivity.
Qed.

Lemma param_loop_more rnd f1 f2 txt ps r : (f1 <= f2)%nat -> param_loop rnd f1 txt ps = Some r -> param_loop rnd f2 txt ps = Some r.
Proof.
  revert f2 txt ps; induction f1 as [|f1 IH]; intros f2 txt ps Hl H.
  - destruct txt; [destruct f2; exact H|discriminate].
  - destruct f2 as [|f2]; [lia|]. destruct txt; [exact H|].
    cbn [param_loop] in *. destruct (rnd _ _); try assumption. apply IH; [lia|assumption].
Qed.

Lemma ical_parse_more f1 f2 data r : (f1 <= f2)%nat -> ical_parseLine f1 data = Some r -> ical_parseLine f2 data = Some r.
Proof.
  intros Hl; unfold ical_parseLine.
  destruct (strduptokenstr data (lit ";:")) as [[[[|c n]|] txt]|e]; try (intros H; exact H).
  destruct (param_loop ical_round f1 txt []) as [x|] eqn:Hp; [|discriminate].
  rewrite (param_loop_more _ _ _ _ _ _ Hl Hp); intros H; exact H.
Qed.

(** ** The vCard loop *)
Lemma vcard_stuck ctx c r ps strip : c <> ";"%char -> c <> ":"%char ->
  forall fuel, vparam_loop ctx fuel (c :: r) ps strip = None.
Proof.
  intros H1 H2; induction fuel as [|f IH]; [reflexivity|].
  cbn [vparam_loop vcard_round]. apply Ascii.eqb_neq in H1, H2; rewrite H1, H2; exact IH.
Qed.

Lemma vcard_loops ctx : forall fuel, vcard_parseLine ctx fuel (lit "X;P=" ++ DQUOTE :: lit "a" ++ DQUOTE :: lit "b:c") = None.
Proof.
  intros [|f]; [reflexivity|].
  unfold vcard_parseLine; cbn [lit list_ascii_of_string app].
  change (strduptokenstr _ _) with (Ok (A := option bytes * bytes) (Some (lit "X"), lit ";P=" ++ DQUOTE :: lit "a" ++ DQUOTE :: lit "b:c")).
  cbv iota. change (split_group (lit "X")) with (@None bytes, lit "X"). cbv iota.
  change (vparam_loop ctx (S f) (lit ";P=" ++ DQUOTE :: lit "a" ++ DQUOTE :: lit "b:c") [] false)
    with (vparam_loop ctx f (lit "b:c") [(lit "P", [(lit "P", [lit "a"])])] false).
  rewrite (vcard_stuck ctx "b" (lit ":c")) by discriminate. reflexivity.
Qed.

(** When every round leaves a text that starts with a separator, the loop ends. *)
Lemma vround_len ctx txt ps strip : txt <> [] ->
  match vcard_round ctx txt ps strip with
  | VStuck => False
  | VNext t _ _ => (List.length t < List.length txt)%nat \/ (t = txt /\ match txt with c :: _ => c <> ";"%char /\ c <> ":"%char | [] => False end)
  | _ => True
  end.
Proof.
  intros Hn; destruct txt as [|c t]; [congruence|]; cbn [vcard_round].
  destruct (eqb_case c ";") as [[_ ->]|[N1 ->]].
  2:{ destruct (eqb_case c ":") as [[_ ->]|[N2 ->]]; [exact I|]. right; auto. }
  destruct (strduptokenstr t (lit "=:;")) as [[[pn|] t1]|e] eqn:H1; try exact I.
  apply strdup_len in H1.
  destruct t1 as [|d t1']; [exact I|]. cbv zeta.
  assert (Hfin : forall pname v t2 s, (List.length t2 <= List.length t)%nat ->
    match (match more_values (S (List.length t2)) t2 with
            | None => VStuck
            | Some (Raise e) => VThrow e
            | Some (Ok (vs, t3)) =>
              VNext t3 (add_param (upper pname) (pname, match v with Some v => decodeParameterValue v :: vs | None => vs end) ps) s
            end) with
    | VStuck => False
    | VNext t0 _ _ => (List.length t0 < List.length (c :: t))%nat \/ (t0 = c :: t /\ (c <> ";"%char /\ c <> ":"%char))
    | _ => True end).
  { intros pname v t2 s Hl.
    destruct (more_values_total (S (List.length t2)) t2) as (x & -> & Hx); [lia|].
    destruct x as [[vs t3]|e]; [|exact I]. specialize (Hx _ _ eq_refl); left; cbn [List.length]; lia. }
  destruct (negb (Ascii.eqb d "=")).
  - destruct (peqb _ _); [exact I|]. destruct (peqb _ _); [|exact I].
    destruct (_ && _); [apply (Hfin (lit "ENCODING") (Some (lit "B")) (d :: t1') true)|apply (Hfin pn None (d :: t1') strip)]; assumption.
  - destruct (strduptokenstr t1' (lit ":;,")) as [[[v|] t2]|e] eqn:H2; try exact I.
    apply strdup_len in H2. apply (Hfin pn (Some v) t2 strip). cbn [List.length] in *; lia.
Qed.

(** The loop either ends within |txt| rounds or runs for ever, having come to a text that
    does not start with a separator. *)
Lemma vcard_dichotomy ctx : forall n txt ps strip, (List.length txt <= n)%nat ->
  (exists r, vparam_loop ctx n txt ps strip = Some r) \/ (forall fuel, vparam_loop ctx fuel txt ps strip = None).
Proof.
  induction n as [|n IH]; intros txt ps strip Hl.
  - destruct txt; [left; eexists; reflexivity|cbn in Hl; lia].
  - destruct txt as [|c t]; [left; eexists; reflexivity|].
    pose proof (vround_len ctx (c :: t) ps strip ltac:(congruence)) as Hr.
    destruct (vcard_round ctx (c :: t) ps strip) as [|t' ps' s'|t' ps'|e] eqn:Hv; try contradiction.
    + destruct Hr as [Hr|[_ [Hr1 Hr2]]]; [|right; apply vcard_stuck; assumption].
      destruct (IH t' ps' s') as [[r H]|H]; [lia| |].
      * left; exists r; cbn [vparam_loop]; rewrite Hv; assumption.
      * right; intros [|f]; [reflexivity|]; cbn [vparam_loop]; rewrite Hv; apply H.
    + left; cbn [vparam_loop]; rewrite Hv; eexists; reflexivity.
    + left; cbn [vparam_loop]; rewrite Hv; eexists; reflexivity.
Qed.

(** ** Reading back what was written *)
Lemma until_token_app tokens s c r : Forall (fun x => cin x tokens = false) s -> cin c tokens = true ->
  until_token tokens (s ++ c :: r) = (s, c :: r).
Proof.
  induction 1 as [|x s Hx _ IH]; intros Hc; cbn [app until_token].
  - rewrite Hc; reflexivity.
  - rewrite Hx, (IH Hc); reflexivity.
Qed.

Lemma strdup_plain tokens s c r : starts_ok s -> c <> SPC -> c <> DQUOTE ->
  Forall (fun x => cin x tokens = false) s -> cin c tokens = true ->
  strduptokenstr (s ++ c :: r) tokens = Ok (Some s, c :: r).
Proof.
  intros Hs Hc1 Hc2 Hf Hc.
  assert (Hd : exists d u, s ++ c :: r = d :: u /\ d <> SPC /\ d <> DQUOTE).
  { destruct s as [|d u]; [exists c, r; auto|]. destruct Hs; exists d, (u ++ c :: r); auto. }
  destruct Hd as (d & u & He & H1 & H2).
  pose proof (until_token_app tokens s c r Hf Hc) as Hu. rewrite He in *.
  unfold strduptokenstr. apply Ascii.eqb_neq in H1, H2; rewrite H1, H2, Hu; reflexivity.
Qed.

(** Whether the scanner is about to skip a character after reading s. *)
Fixpoint skipping (b : bool) (s : bytes) : bool :=
  match s with
  | [] => b
  | c :: r => skipping (if b then false else Ascii.eqb c BSLASH) r
  end.

Lemma quoted_app s : forall b r, ~ In DQUOTE s -> skipping b s = false -> quoted b (s ++ DQUOTE :: r) = Some (s, r).
Proof.
  induction s as [|c s IH]; intros b r Hn Hs; cbn [app quoted].
  - cbn in Hs; subst b; reflexivity.
  - assert (Hc : c <> DQUOTE) by (intros ->; apply Hn; left; reflexivity).
    assert (Hn' : ~ In DQUOTE s) by (intros H; apply Hn; right; assumption).
    cbn [skipping] in Hs. destruct b.
    + rewrite (IH false r Hn' Hs); reflexivity.
    + apply Ascii.eqb_neq in Hc; rewrite Hc, (IH _ r Hn' Hs); reflexivity.
Qed.

Lemma skipping_app b s t : skipping b (s ++ t) = skipping (skipping b s) t.
Proof. revert b; induction s as [|c s IH]; intros b; [reflexivity|apply IH]. Qed.

Lemma trailing_snoc s c : trailing_backslashes (s ++ [c]) = if Ascii.eqb c BSLASH then S (trailing_backslashes s) else O.
Proof. unfold trailing_backslashes; rewrite rev_app_distr; reflexivity. Qed.

Lemma skipping_odd s : skipping false s = Nat.odd (trailing_backslashes s).
Proof.
  induction s as [|c s IH] using rev_ind; [reflexivity|].
  rewrite skipping_app, IH, trailing_snoc; cbn [skipping].
  destruct (Ascii.eqb c BSLASH).
  - rewrite Nat.odd_succ, <- Nat.negb_odd; destruct (Nat.odd _); reflexivity.
  - destruct (Nat.odd _); reflexivity.
Qed.

Lemma strdup_quoted tokens s r : ~ In DQUOTE s -> Nat.even (trailing_backslashes s) = true ->
  strduptokenstr (DQUOTE :: s ++ DQUOTE :: r) tokens = Ok (Some s, r).
Proof.
  intros Hn He; unfold strduptokenstr.
  change (Ascii.eqb DQUOTE SPC) with false; cbv iota; change (Ascii.eqb DQUOTE DQUOTE) with true; cbv iota.
  rewrite quoted_app; [reflexivity|assumption|].
  rewrite skipping_odd, <- Nat.negb_even, He; reflexivity.
Qed.

(** Encoded parameter values. *)
Lemma enc_loop_app a : forall last b, enc_loop last (a ++ b) = enc_loop last a ++ enc_loop (lastof last a) b.
Proof.
  induction a as [|c a IH]; intros last b; [reflexivity|].
  cbn [app]; rewrite (enc_loop_shape (c :: a ++ b)), (enc_loop_shape (c :: a)), IH, lastof_cons, app_assoc; reflexivity.
Qed.

Lemma trailing_app_nb s t c : c <> BSLASH -> trailing_backslashes (s ++ t ++ [c]) = O.
Proof. intros H; rewrite app_assoc, trailing_snoc; apply Ascii.eqb_neq in H; rewrite H; reflexivity. Qed.

Lemma enc_trailing v : trailing_backslashes (enc_loop None v) = trailing_backslashes v.
Proof.
  induction v as [|c v IH] using rev_ind; [reflexivity|].
  rewrite enc_loop_app, trailing_snoc.
  destruct (eqb_case c BSLASH) as [[-> _]|[Hc ->]].
  - change (enc_loop (lastof None v) [BSLASH]) with [BSLASH]. rewrite trailing_snoc, Ascii.eqb_refl, IH; reflexivity.
  - rewrite (enc_loop_shape [c]); change (enc_loop (Some c) []) with (@nil ascii); rewrite app_nil_r.
    destruct (eqb_case c CR) as [[_ ->]|[_ ->]]; [apply (trailing_app_nb _ [_]); discriminate|].
    destruct (eqb_case c LF) as [[_ ->]|[_ ->]].
    + assert (Hg : trailing_backslashes (enc_loop None v ++ lit "^n") = O) by (apply (trailing_app_nb _ ["^"%char]); discriminate).
      destruct (lastof None v) as [l|] eqn:Hl; [|assumption].
      destruct (eqb_case l CR) as [[-> ->]|[_ ->]]; [|assumption].
      rewrite app_nil_r, IH. unfold lastof in Hl. unfold trailing_backslashes.
      destruct (rev v) as [|x t]; [discriminate|]. injection Hl as ->; reflexivity.
    + destruct (eqb_case c DQUOTE) as [[_ ->]|[_ ->]]; [apply (trailing_app_nb _ [_]); discriminate|].
      destruct (eqb_case c "^") as [[_ ->]|[_ ->]]; [apply (trailing_app_nb _ [_]); discriminate|].
      apply (trailing_app_nb _ []); assumption.
Qed.

Lemma enc_in x v last : x <> "^"%char -> x <> "n"%char -> x <> "'"%char -> x <> CR -> x <> LF -> x <> DQUOTE ->
  (In x (enc_loop last v) <-> In x v).
Proof.
  intros N1 N2 N3 N4 N5 N6; revert last; induction v as [|c v IH]; intros last; [reflexivity|].
  rewrite enc_loop_shape, in_app_iff, IH; cbn [In].
  enough (H : In x (if Ascii.eqb c CR then lit "^n"
     else if Ascii.eqb c LF then (match last with Some l => if Ascii.eqb l CR then [] else lit "^n" | None => lit "^n" end)
     else if Ascii.eqb c DQUOTE then lit "^'"
     else if Ascii.eqb c "^" then lit "^^" else [c]) <-> c = x) by tauto.
  destruct (eqb_case c CR) as [[-> ->]|[_ ->]]; [cbn; intuition congruence|].
  destruct (eqb_case c LF) as [[-> ->]|[_ ->]].
  { destruct last as [l|]; [destruct (Ascii.eqb l CR)|]; cbn; intuition congruence. }
  destruct (eqb_case c DQUOTE) as [[-> ->]|[_ ->]]; [cbn; intuition congruence|].
  destruct (eqb_case c "^") as [[-> ->]|[_ ->]]; cbn; intuition congruence.
Qed.

Lemma enc_starts v : match v with c :: _ => c <> SPC | [] => True end -> starts_ok (enc_loop None v).
Proof.
  destruct v as [|c v]; [intros _; exact I|]; intros Hc; rewrite enc_loop_shape.
  destruct (eqb_case c CR) as [[-> ->]|[_ ->]]; [split; discriminate|].
  destruct (eqb_case c LF) as [[-> ->]|[_ ->]]; [split; discriminate|].
  destruct (eqb_case c DQUOTE) as [[-> ->]|[Hd ->]]; [split; discriminate|].
  destruct (eqb_case c "^") as [[-> ->]|[_ ->]]; [split; discriminate|].
  split; assumption.
Qed.

Lemma cin_false c s : cin c s = false <-> ~ In c s.
Proof. rewrite <- (cin_In c s); destruct (cin c s); intuition congruence. Qed.

Lemma gen_pvalue_read v c r : value_ok v -> In c (lit ":;,") ->
  exists s, strduptokenstr (gen_pvalue v ++ c :: r) (lit ":;,") = Ok (Some s, c :: r) /\ decodeParameterValue s = v.
Proof.
  intros (H1 & H2 & H3) Hc; unfold gen_pvalue; rewrite encodeParam_loop.
  assert (Hn : (cin ":" (enc_loop None v) || cin ";" (enc_loop None v) || cin "," (enc_loop None v)) = true <-> needs_quotes v).
  { rewrite !orb_true_iff, !cin_In, !enc_in by discriminate. unfold needs_quotes; tauto. }
  exists (enc_loop None v); split.
  - destruct (_ || _ || _) eqn:Hq.
    + replace ((DQUOTE :: enc_loop None v ++ [DQUOTE]) ++ c :: r) with (DQUOTE :: enc_loop None v ++ DQUOTE :: c :: r)
        by (cbn [app]; rewrite <- app_assoc; reflexivity).
      apply strdup_quoted.
      * intros Hi; apply enc_loop_clean in Hi; intuition.
      * rewrite enc_trailing; apply H1, Hn; reflexivity.
    + apply strdup_plain.
      * apply enc_starts, H2; rewrite <- Hn; congruence.
      * cbn in Hc; intros ->; intuition discriminate.
      * cbn in Hc; intros ->; intuition discriminate.
      * rewrite !orb_false_iff, !cin_false in Hq. destruct Hq as [[Q1 Q2] Q3].
        apply Forall_forall; intros x Hx. apply cin_false; cbn; intros [<-|[<-|[<-|[]]]]; contradiction.
      * apply cin_In; assumption.
  - rewrite decodeParam_loop, dec_enc; apply unix_same; assumption.
Qed.

Lemma gen_values_read vs : forall c r fuel, Forall value_ok vs -> c = ":"%char \/ c = ";"%char ->
  (List.length (flat_map (fun v => ","%char :: gen_pvalue v) vs ++ c :: r) < fuel)%nat ->
  more_values fuel (flat_map (fun v => ","%char :: gen_pvalue v) vs ++ c :: r) = Some (Ok (vs, c :: r)).
Proof.
  induction vs as [|v vs IH]; intros c r fuel Hv Hc Hf; (destruct fuel as [|fuel]; [lia|]).
  - cbn [flat_map app more_values]; destruct Hc as [-> | ->]; reflexivity.
  - cbn [flat_map app more_values]. inversion Hv; subst.
    change (Ascii.eqb "," ",") with true; cbv iota. rewrite <- app_assoc.
    set (rest := flat_map (fun v => ","%char :: gen_pvalue v) vs ++ c :: r) in *.
    assert (Hr : exists d u, rest = d :: u /\ In d (lit ":;,")).
    { unfold rest; destruct vs; cbn [flat_map app]; eexists; eexists; (split; [reflexivity|]); destruct Hc as [-> | ->]; cbn; auto. }
    destruct Hr as (d & u & Hr & Hd). rewrite Hr.
    destruct (gen_pvalue_read v d u H1 Hd) as (s & -> & <-). rewrite <- Hr. unfold rest.
    rewrite IH; [reflexivity|assumption|assumption|].
    cbn [flat_map app List.length] in Hf; rewrite <- app_assoc, app_length in Hf; lia.
Qed.

Lemma join_flat x r : join_char "," (x :: r) = x ++ flat_map (fun v => ","%char :: v) r.
Proof.
  revert x; induction r as [|y r IH]; intros x; [cbn; symmetry; apply app_nil_r|].
  rewrite join_cons; cbn [flat_map app]; rewrite IH; reflexivity.
Qed.
Lemma flat_map_map {A B C} (f : A -> B) (g : B -> list C) l : flat_map g (map f l) = flat_map (fun x => g (f x)) l.
Proof. induction l; cbn; congruence. Qed.

(** sorting *)
Lemma insert_perm {A} key (x : A) l : Permutation (insert_by key x l) (x :: l).
Proof.
  induction l as [|y r IH]; [reflexivity|]; cbn [insert_by].
  destruct (ble (key x) (key y)); [reflexivity|].
  rewrite IH; apply perm_swap.
Qed.
Lemma sort_perm {A} key (l : list A) : Permutation (sort_by key l) l.
Proof. induction l as [|x r IH]; [reflexivity|]; cbn [sort_by]; rewrite insert_perm, IH; reflexivity. Qed.

Lemma sort_ne {A} key (l : list A) : l <> [] -> sort_by key l <> [].
Proof. intros H E0; apply H; apply Permutation_nil; rewrite <- E0; apply sort_perm. Qed.

Definition sorted_param (p : param) : param := (fst p, sort_by (fun v => v) (snd p)).
Definition sorted_params (ps : params) : params := map (fun kl => (fst kl, map sorted_param (snd kl))) (sort_by fst ps).

Lemma gen_param_read key p c r ps : param_ok key p -> c = ":"%char \/ c = ";"%char ->
  ical_round (";"%char :: gen_param p ++ c :: r) ps = Next (c :: r) (add_param key (sorted_param p) ps).
Proof.
  intros (Hk & Hs & Hn & Hv & Hvs) Hc; destruct p as [pn vs]; cbn [fst snd] in *.
  unfold gen_param, sorted_param; cbn [fst snd].
  set (ws := sort_by (fun v => v) vs).
  assert (Hw : ws <> []) by (apply sort_ne; assumption).
  assert (Hws : Forall value_ok ws) by (eapply Permutation_Forall; [symmetry; apply sort_perm|assumption]).
  replace (match vs with [] => [] | b :: l => "="%char :: join_char "," (map gen_pvalue (sort_by (fun v => v) (b :: l))) end)
    with ("="%char :: join_char "," (map gen_pvalue ws)) by (unfold ws; destruct vs; [congruence|reflexivity]).
  cbn [ical_round]. change (Ascii.eqb ";" ";") with true; cbv iota.
  rewrite <- app_assoc; cbn [app].
  rewrite strdup_plain; [|assumption|discriminate|discriminate| |reflexivity].
  2:{ apply Forall_forall; intros x Hx; apply cin_false; cbn; intros [<-|[]]; contradiction. }
  cbn [tl]. clearbody ws. destruct ws as [|w ws']; [congruence|]. inversion Hws; subst.
  cbn [map]; rewrite join_flat, <- app_assoc, flat_map_map.
  set (rest := flat_map (fun x => ","%char :: gen_pvalue x) ws' ++ c :: r).
  assert (Hr : exists d u, rest = d :: u /\ In d (lit ":;,")).
  { unfold rest; destruct ws'; cbn [flat_map app]; eexists; eexists; (split; [reflexivity|]); destruct Hc as [-> | ->]; cbn; auto. }
  destruct Hr as (d & u & Hr & Hd). rewrite Hr.
  destruct (gen_pvalue_read w d u H1 Hd) as (s & -> & Hdec). rewrite <- Hr. unfold rest.
  rewrite gen_values_read; [|assumption|assumption|lia].
  rewrite Hdec; reflexivity.
Qed.

(** dictionaries *)
Lemma beq_case (a b : bytes) : {a = b /\ beq a b = true} + {a <> b /\ beq a b = false}.
Proof.
  destruct (beq a b) eqn:H; [left; split; [apply beq_eq; assumption|reflexivity]|right; split; [|reflexivity]].
  intros ->; rewrite beq_refl in H; discriminate.
Qed.

Lemma add_param_new k p ps : ~ In k (map fst ps) -> add_param k p ps = ps ++ [(k, [p])].
Proof.
  induction ps as [|[k' l] ps IH]; intros H; [reflexivity|]; cbn [add_param map fst In] in *.
  destruct (beq_case k' k) as [[-> _]|[_ ->]]; [exfalso; apply H; left; reflexivity|].
  rewrite IH; [reflexivity|]. intros Hi; apply H; right; assumption.
Qed.
Lemma add_param_last k p ps l : ~ In k (map fst ps) -> add_param k p (ps ++ [(k, l)]) = ps ++ [(k, l ++ [p])].
Proof.
  induction ps as [|[k' l'] ps IH]; intros H; cbn [app add_param map fst In] in *; [rewrite beq_refl; reflexivity|].
  destruct (beq_case k' k) as [[-> _]|[_ ->]]; [exfalso; apply H; left; reflexivity|].
  rewrite IH; [reflexivity|]. intros Hi; apply H; right; assumption.
Qed.

Definition gens (l : list param) : bytes := flat_map (fun p => ";"%char :: gen_param p) l.

Lemma gens_head l c r : c = ":"%char \/ c = ";"%char -> exists d u, gens l ++ c :: r = d :: u /\ (d = ":"%char \/ d = ";"%char).
Proof. intros H; destruct l; cbn; eauto. Qed.

Section Rounds.
Variable rnd : bytes -> params -> round.
Variable good : bytes -> param -> Prop.
Hypothesis Hrnd : forall key p c r ps, good key p -> c = ":"%char \/ c = ";"%char ->
  rnd (";"%char :: gen_param p ++ c :: r) ps = Next (c :: r) (add_param key (sorted_param p) ps).

Lemma group_read k l : forall done got c r fuel ps, Forall (good k) l -> c = ":"%char \/ c = ";"%char ->
  ~ In k (map fst ps) -> ps = done ++ [] -> got <> [] \/ l <> [] ->
  (List.length (gens l ++ c :: r) <= fuel)%nat ->
  exists fuel', (List.length (c :: r) <= fuel')%nat /\
  param_loop rnd fuel (gens l ++ c :: r) (match got with [] => ps | _ => ps ++ [(k, got)] end) =
  param_loop rnd fuel' (c :: r) (ps ++ [(k, got ++ map sorted_param l)]).
Proof.
  induction l as [|p l IH]; intros done got c r fuel ps Hl Hc Hk Hd Hg Hf.
  - destruct Hg as [Hg|Hg]; [|congruence]. exists fuel; split; [exact Hf|].
    cbn [gens flat_map app map]; rewrite app_nil_r. destruct got; [congruence|reflexivity].
  - inversion Hl; subst. destruct fuel as [|fuel]; [cbn in Hf; lia|].
    destruct (gens_head l c r Hc) as (d & u & He & Hd').
    cbn [gens flat_map]. fold (gens l).
    replace ((";"%char :: gen_param p) ++ gens l) with (";"%char :: gen_param p ++ gens l) by reflexivity.
    cbn [app]; rewrite <- app_assoc, He. cbn [param_loop].
    rewrite (Hrnd k p d u _ H1 Hd').
    assert (Hf' : (List.length (gens l ++ c :: r) <= fuel)%nat).
    { cbn [gens flat_map] in Hf; fold (gens l) in Hf; rewrite <- app_assoc in Hf; cbn [app List.length] in Hf; rewrite app_length in Hf. lia. }
    destruct (IH done (got ++ [sorted_param p]) c r fuel (done ++ []) H2 Hc Hk eq_refl) as (f' & Hf1 & Hf2);
      [left; destruct got; discriminate|assumption|].
    exists f'; split; [assumption|].
    replace (map sorted_param (p :: l)) with ([sorted_param p] ++ map sorted_param l) by reflexivity.
    rewrite app_assoc. rewrite <- Hf2, He. f_equal.
    destruct got as [|g got'].
    + cbn [app]. rewrite add_param_new by assumption; reflexivity.
    + rewrite add_param_last by assumption. reflexivity.
Qed.

Definition gen_groups (ps : params) : bytes := flat_map (fun kl => gens (snd kl)) ps.

Lemma groups_read (qs : params) : forall ps c r fuel,
  NoDup (map fst (ps ++ qs)) -> Forall (fun kl => snd kl <> [] /\ Forall (good (fst kl)) (snd kl)) qs ->
  c = ":"%char \/ c = ";"%char -> (List.length (gen_groups qs ++ c :: r) <= fuel)%nat ->
  exists fuel', (List.length (c :: r) <= fuel')%nat /\
  param_loop rnd fuel (gen_groups qs ++ c :: r) ps =
  param_loop rnd fuel' (c :: r) (ps ++ map (fun kl => (fst kl, map sorted_param (snd kl))) qs).
Proof.
  induction qs as [|[k l] qs IH]; intros ps c r fuel Hn Hf Hc Hl.
  - exists fuel; split; [exact Hl|]. cbn [gen_groups flat_map map app]; rewrite app_nil_r; reflexivity.
  - inversion Hf as [|x y [Hne Hp] Hf']; subst; cbn [fst snd] in *.
    cbn [gen_groups flat_map snd] in *. fold (gen_groups qs) in *. rewrite <- app_assoc in *.
    assert (Hh : exists d u, gen_groups qs ++ c :: r = d :: u /\ (d = ":"%char \/ d = ";"%char)).
    { destruct qs as [|[k' [|p' l']] qs']; cbn [gen_groups flat_map snd gens app]; eauto.
      inversion Hf' as [|x y [Hx _] _]; subst; cbn in Hx; congruence. }
    destruct Hh as (d & u & He & Hd).
    assert (Hk : ~ In k (map fst ps)).
    { rewrite map_app in Hn; cbn [map fst] in Hn. apply NoDup_remove_2 in Hn. rewrite in_app_iff in Hn; tauto. }
    rewrite He in *.
    destruct (group_read k l ps [] d u fuel ps Hp Hd Hk) as (f1 & Hf1 & Hf2);
      [rewrite app_nil_r; reflexivity|right; assumption|assumption|].
    rewrite Hf2; cbn [app]. rewrite <- He in *.
    assert (Hn' : NoDup (map fst ((ps ++ [(k, map sorted_param l)]) ++ qs))).
    { rewrite !map_app in *; cbn [map fst] in *; rewrite <- app_assoc; exact Hn. }
    destruct (IH (ps ++ [(k, map sorted_param l)]) c r f1 Hn' Hf' Hc Hf1) as (f2 & Hf3 & Hf4).
    exists f2; split; [assumption|]. rewrite Hf4, <- app_assoc; reflexivity.
Qed.

End Rounds.

Lemma gen_line_plain l : lGroup l = None ->
  gen_line l = lName l ++ gen_groups (sort_by fst (lParams l)) ++ ":"%char :: match lValue l with Some v => v | None => [] end.
Proof. intros H; unfold gen_line; rewrite H; reflexivity. Qed.

Lemma sorted_groups_ok ps : params_ok ps -> NoDup (map fst (sort_by fst ps)) /\
  Forall (fun kl => snd kl <> [] /\ Forall (param_ok (fst kl)) (snd kl)) (sort_by fst ps).
Proof.
  intros [H1 H2]; split.
  - eapply Permutation_NoDup; [|exact H1]. apply Permutation_map; symmetry; apply sort_perm.
  - eapply Permutation_Forall; [symmetry; apply sort_perm|assumption].
Qed.

Lemma line_read_back name ps v fuel : name_ok name -> params_ok ps ->
  (List.length (gen_line (mkLine None name ps (Some v))) <= fuel)%nat ->
  ical_parseLine fuel (gen_line (mkLine None name ps (Some v))) = Some (Ok (mkLine None name (sorted_params ps) (Some v))).
Proof.
  intros (Hn & Hs & Hn1 & Hn2) Hp Hf; rewrite gen_line_plain in * by reflexivity; cbn [lName lParams lValue] in *.
  destruct (sorted_groups_ok ps Hp) as [P1 P2].
  set (qs := sort_by fst ps) in *.
  assert (Hh : exists d u, gen_groups qs ++ ":"%char :: v = d :: u /\ (d = ":"%char \/ d = ";"%char)).
  { destruct qs as [|[k' [|p' l']] qs']; cbn [gen_groups flat_map snd gens app]; eauto.
    inversion P2 as [|x y [Hx _] _]; subst; cbn in Hx; congruence. }
  destruct Hh as (d & u & He & Hd).
  unfold ical_parseLine. rewrite He, strdup_plain; [|assumption|destruct Hd as [-> | ->]; discriminate|destruct Hd as [-> | ->]; discriminate| |destruct Hd as [-> | ->]; reflexivity].
  2:{ apply Forall_forall; intros x Hx; apply cin_false; cbn; intros [<-|[<-|[]]]; contradiction. }
  destruct name as [|c0 name']; [congruence|]. rewrite <- He.
  assert (Hl : (List.length (gen_groups qs ++ ":"%char :: v) <= fuel)%nat) by (rewrite app_length in Hf; lia).
  destruct (groups_read ical_round param_ok gen_param_read qs [] ":" v fuel) as (f & Hf1 & ->); auto.
  destruct f as [|f]; [cbn in Hf1; lia|]. reflexivity.
Qed.

Lemma lookup_map (f : list param -> list param) ps k : f [] = [] ->
  lookup k (map (fun kl => (fst kl, f (snd kl))) ps) = f (lookup k ps).
Proof.
  intros Hf; induction ps as [|[k' l] ps IH]; [symmetry; assumption|]; cbn [map lookup fst snd].
  destruct (beq k' k); [reflexivity|assumption].
Qed.
Lemma lookup_in ps k l : NoDup (map fst ps) -> In (k, l) ps -> lookup k ps = l.
Proof.
  induction ps as [|[k' l'] ps IH]; intros Hn Hi; [destruct Hi|]; cbn [lookup map fst] in *. inversion Hn; subst.
  destruct Hi as [[= -> ->]|Hi]; [rewrite beq_refl; reflexivity|].
  destruct (beq_case k' k) as [[-> _]|[_ ->]]; [exfalso; apply H1; apply in_map_iff; exists (k, l); auto|].
  apply IH; assumption.
Qed.
Lemma lookup_notin ps k : ~ In k (map fst ps) -> lookup k ps = [].
Proof.
  induction ps as [|[k' l'] ps IH]; intros Hn; [reflexivity|]; cbn [lookup map fst In] in *.
  destruct (beq_case k' k) as [[-> _]|[_ ->]]; [exfalso; apply Hn; left; reflexivity|]. apply IH; tauto.
Qed.
Lemma lookup_perm ps qs k : NoDup (map fst ps) -> Permutation ps qs -> lookup k ps = lookup k qs.
Proof.
  intros Hn Hp.
  assert (Hn' : NoDup (map fst qs)) by (eapply Permutation_NoDup; [apply Permutation_map; eassumption|assumption]).
  destruct (in_dec (list_eq_dec ascii_dec) k (map fst ps)) as [Hi|Hi].
  - apply in_map_iff in Hi; destruct Hi as ([k' l] & <- & Hi); cbn [fst].
    rewrite (lookup_in ps k' l Hn Hi). symmetry; apply lookup_in; [assumption|]. eapply Permutation_in; eassumption.
  - rewrite lookup_notin by assumption. symmetry; apply lookup_notin.
    intros Hj; apply Hi. eapply Permutation_in; [symmetry; apply Permutation_map; eassumption|assumption].
Qed.

Lemma sorted_params_same ps : NoDup (map fst ps) -> same_params ps (sorted_params ps).
Proof.
  intros Hn k; unfold sorted_params. rewrite (lookup_map (map sorted_param)) by reflexivity.
  rewrite (lookup_perm (sort_by fst ps) ps);
    [|eapply Permutation_NoDup; [apply Permutation_map; symmetry; apply sort_perm|assumption]|apply sort_perm].
  induction (lookup k ps) as [|p l IH]; constructor; [|assumption].
  split; [reflexivity|cbn [sorted_param snd]; symmetry; apply sort_perm].
Qed.

Lemma line_round_trip name ps v : name_ok name -> params_ok ps ->
  let text := gen_line (mkLine None name ps (Some v)) in
  forall fuel, (List.length text <= fuel)%nat ->
  exists ps', ical_parseLine fuel text = Some (Ok (mkLine None name ps' (Some v))) /\ same_params ps ps'.
Proof.
  intros Hn Hp text fuel Hf; exists (sorted_params ps); split; [apply line_read_back; assumption|].
  apply sorted_params_same, Hp.
Qed.

(** Writing again gives the same text. *)
Lemma ble_total a : forall b, ble a b = false -> ble b a = true.
Proof.
  induction a as [|x a IH]; intros [|y b]; cbn [ble]; try discriminate; auto.
  destruct (Nat.ltb_spec (nat_of_ascii x) (nat_of_ascii y)); [discriminate|].
  destruct (Nat.ltb_spec (nat_of_ascii y) (nat_of_ascii x)); [reflexivity|]. apply IH.
Qed.
Lemma ble_trans a : forall b c, ble a b = true -> ble b c = true -> ble a c = true.
Proof.
  induction a as [|x a IH]; intros [|y b] [|z c]; cbn [ble]; try discriminate; auto.
  destruct (Nat.ltb_spec (nat_of_ascii x) (nat_of_ascii y)); destruct (Nat.ltb_spec (nat_of_ascii y) (nat_of_ascii z));
  destruct (Nat.ltb_spec (nat_of_ascii x) (nat_of_ascii z)); try lia; auto;
  destruct (Nat.ltb_spec (nat_of_ascii y) (nat_of_ascii x)); try lia; try discriminate;
  destruct (Nat.ltb_spec (nat_of_ascii z) (nat_of_ascii y)); try lia; try discriminate;
  destruct (Nat.ltb_spec (nat_of_ascii z) (nat_of_ascii x)); try lia; try discriminate. apply IH.
Qed.
Lemma ble_refl a : ble a a = true.
Proof. induction a as [|x a IH]; [reflexivity|]; cbn [ble]; rewrite Nat.ltb_irrefl; assumption. Qed.

Inductive in_order {A} (key : A -> bytes) : list A -> Prop :=
| io_nil : in_order key []
| io_cons : forall x l, Forall (fun y => ble (key x) (key y) = true) l -> in_order key l -> in_order key (x :: l).

Lemma insert_order {A} key (x : A) l : in_order key l -> in_order key (insert_by key x l).
Proof.
  induction 1 as [|y l Hy Hl IH]; cbn [insert_by]; [repeat constructor|].
  destruct (ble (key x) (key y)) eqn:Hb.
  - constructor; [|constructor; assumption]. constructor; [assumption|].
    eapply Forall_impl; [|exact Hy]. intros a Ha; eapply ble_trans; eassumption.
  - constructor; [|assumption].
    eapply Permutation_Forall; [symmetry; apply insert_perm|]. constructor; [apply ble_total; assumption|assumption].
Qed.
Lemma sort_order {A} key (l : list A) : in_order key (sort_by key l).
Proof. induction l; cbn [sort_by]; [constructor|apply insert_order; assumption]. Qed.

Lemma sort_sorted {A} key (l : list A) : in_order key l -> sort_by key l = l.
Proof.
  induction 1 as [|x l Hx Hl IH]; [reflexivity|]; cbn [sort_by]; rewrite IH.
  destruct l as [|y l]; [reflexivity|]. inversion Hx; subst; cbn [insert_by]. rewrite H1; reflexivity.
Qed.
Lemma sort_idem {A} key (l : list A) : sort_by key (sort_by key l) = sort_by key l.
Proof. apply sort_sorted, sort_order. Qed.

Lemma in_order_map {A B} (key : A -> bytes) (key' : B -> bytes) (f : A -> B) l :
  (forall x, key' (f x) = key x) -> in_order key l -> in_order key' (map f l).
Proof.
  intros Hk; induction 1 as [|x l Hx Hl IH]; cbn [map]; constructor; [|assumption].
  apply Forall_map. eapply Forall_impl; [|exact Hx]. cbv beta; intros; rewrite !Hk; assumption.
Qed.

Lemma gen_param_sorted p : gen_param (sorted_param p) = gen_param p.
Proof.
  destruct p as [n vs]; unfold gen_param, sorted_param; cbn [fst snd].
  destruct vs as [|v vs]; [reflexivity|].
  destruct (sort_by (fun v0 => v0) (v :: vs)) as [|w ws] eqn:He.
  - exfalso; eapply sort_ne; [|exact He]; discriminate.
  - rewrite <- He, sort_idem; reflexivity.
Qed.

Lemma gen_line_sorted name ps v : gen_line (mkLine None name (sorted_params ps) v) = gen_line (mkLine None name ps v).
Proof.
  rewrite !gen_line_plain by reflexivity; cbn [lName lParams lValue]. do 2 f_equal.
  unfold sorted_params. rewrite sort_sorted by (apply (in_order_map fst); [reflexivity|apply sort_order]).
  unfold gen_groups; rewrite flat_map_map. apply flat_map_ext; intros [k l]; cbn [fst snd].
  unfold gens; rewrite flat_map_map. apply flat_map_ext; intros p; rewrite gen_param_sorted; reflexivity.
Qed.

Lemma line_stable name ps v fuel : name_ok name -> params_ok ps ->
  let text := gen_line (mkLine None name ps (Some v)) in
  (List.length text <= fuel)%nat ->
  exists l, ical_parseLine fuel text = Some (Ok l) /\ gen_line l = text.
Proof.
  intros Hn Hp text Hf; eexists; split; [apply line_read_back; assumption|apply gen_line_sorted].
Qed.

(** ** vCard lines *)
Definition vcard_ok (key : bytes) (p : param) : Prop := param_ok key p /\ ~ In ":"%char (fst p) /\ ~ In ";"%char (fst p).

Definition vrnd (ctx : pctx) (txt : bytes) (ps : params) : round :=
  match vcard_round ctx txt ps false with
  | VNext t ps' false => Next t ps'
  | VReturn t ps' => Return t ps'
  | _ => Stuck
  end.

Lemma vrnd_loop ctx fuel : forall txt ps r, param_loop (vrnd ctx) fuel txt ps = Some r -> vparam_loop ctx fuel txt ps false = Some r.
Proof.
  induction fuel as [|f IH]; intros txt ps r; destruct txt as [|c t]; cbn [param_loop vparam_loop]; auto.
  unfold vrnd at 1. destruct (vcard_round ctx (c :: t) ps false) as [|t' ps' [|]|t' ps'|e]; try discriminate; auto.
Qed.

Lemma vgen_param_read ctx key p c r ps : vcard_ok key p -> c = ":"%char \/ c = ";"%char ->
  vrnd ctx (";"%char :: gen_param p ++ c :: r) ps = Next (c :: r) (add_param key (sorted_param p) ps).
Proof.
  intros ((Hk & Hs & Hn & Hv & Hvs) & Hn1 & Hn2) Hc; destruct p as [pn vs]; cbn [fst snd] in *.
  unfold vrnd, gen_param, sorted_param; cbn [fst snd].
  set (ws := sort_by (fun v => v) vs).
  assert (Hw : ws <> []) by (apply sort_ne; assumption).
  assert (Hws : Forall value_ok ws) by (eapply Permutation_Forall; [symmetry; apply sort_perm|assumption]).
  replace (match vs with [] => [] | b :: l => "="%char :: join_char "," (map gen_pvalue (sort_by (fun v => v) (b :: l))) end)
    with ("="%char :: join_char "," (map gen_pvalue ws)) by (unfold ws; destruct vs; [congruence|reflexivity]).
  cbn [vcard_round]. change (Ascii.eqb ";" ";") with true; cbv iota.
  rewrite <- app_assoc; cbn [app].
  rewrite strdup_plain; [|assumption|discriminate|discriminate| |reflexivity].
  2:{ apply Forall_forall; intros x Hx; apply cin_false; cbn; intros [<-|[<-|[<-|[]]]]; contradiction. }
  change (Ascii.eqb "=" "=") with true; cbv zeta; cbn [negb].
  clearbody ws. destruct ws as [|w ws']; [congruence|]. inversion Hws; subst.
  cbn [map]; rewrite join_flat, <- app_assoc, flat_map_map.
  set (rest := flat_map (fun x => ","%char :: gen_pvalue x) ws' ++ c :: r).
  assert (Hr : exists d u, rest = d :: u /\ In d (lit ":;,")).
  { unfold rest; destruct ws'; cbn [flat_map app]; eexists; eexists; (split; [reflexivity|]); destruct Hc as [-> | ->]; cbn; auto. }
  destruct Hr as (d & u & Hr & Hd). rewrite Hr.
  destruct (gen_pvalue_read w d u H1 Hd) as (s & -> & Hdec). rewrite <- Hr. unfold rest.
  rewrite gen_values_read; [|assumption|assumption|lia].
  rewrite Hdec; reflexivity.
Qed.

Lemma find_char_app c a b : ~ In c a -> find_char c (a ++ c :: b) = Some (List.length a).
Proof.
  induction a as [|x a IH]; intros H; cbn [app find_char List.length]; [rewrite Ascii.eqb_refl; reflexivity|].
  destruct (eqb_case c x) as [[-> _]|[_ ->]]; [exfalso; apply H; left; reflexivity|].
  rewrite IH; [reflexivity|]. intros Hi; apply H; right; assumption.
Qed.
Lemma find_char_none c a : ~ In c a -> find_char c a = None.
Proof.
  induction a as [|x a IH]; intros H; cbn [find_char]; [reflexivity|].
  destruct (eqb_case c x) as [[-> _]|[_ ->]]; [exfalso; apply H; left; reflexivity|].
  rewrite IH; [reflexivity|]. intros Hi; apply H; right; assumption.
Qed.
Lemma firstn_len_app {A} (a b : list A) : firstn (List.length a) (a ++ b) = a.
Proof. induction a as [|x a IH]; cbn [List.length app firstn]; [reflexivity|rewrite IH; reflexivity]. Qed.
Lemma skipn_len_app {A} (a b : list A) x : skipn (S (List.length a)) (a ++ x :: b) = b.
Proof. induction a as [|y a IH]; cbn [List.length app skipn]; [reflexivity|apply IH]. Qed.

Lemma vcard_read_back ctx g name ps v fuel : name_ok name -> group_ok g name -> params_ok ps ->
  Forall (fun kl => Forall (fun p => ~ In ":"%char (fst p) /\ ~ In ";"%char (fst p)) (snd kl)) ps ->
  (List.length (gen_line (mkLine g name ps (Some v))) <= fuel)%nat ->
  vcard_parseLine ctx fuel (gen_line (mkLine g name ps (Some v))) = Some (Ok (mkLine g name (sorted_params ps) (Some v))).
Proof.
  intros (Hn & Hs & Hn1 & Hn2) Hg Hp Hp' Hf.
  destruct (sorted_groups_ok ps Hp) as [P1 P2].
  assert (P3 : Forall (fun kl => snd kl <> [] /\ Forall (vcard_ok (fst kl)) (snd kl)) (sort_by fst ps)).
  { assert (Hp2 : Forall (fun kl : bytes * list param => Forall (fun p : param => ~ In ":"%char (fst p) /\ ~ In ";"%char (fst p)) (snd kl)) (sort_by fst ps))
      by (eapply Permutation_Forall; [symmetry; apply sort_perm|assumption]).
    clear -P2 Hp2. induction P2 as [|kl l [Q1 Q2] Q3 IH]; [constructor|]. inversion Hp2; subst.
    constructor; [split; [assumption|]|apply IH; assumption].
    clear -Q2 H1. induction Q2; [constructor|]. inversion H1; subst; constructor; [split; assumption|apply IHQ2; assumption]. }
  set (full := match g with Some g => g ++ "."%char :: name | None => name end).
  assert (He : gen_line (mkLine g name ps (Some v)) = full ++ gen_groups (sort_by fst ps) ++ ":"%char :: v).
  { unfold gen_line, full; cbn [lGroup lName lParams lValue]. destruct g as [[|c g]|]; [destruct Hg; congruence| |reflexivity].
    cbn [lit list_ascii_of_string]. rewrite <- !app_assoc; reflexivity. }
  rewrite He in *. set (qs := sort_by fst ps) in *.
  assert (Hh : exists d u, gen_groups qs ++ ":"%char :: v = d :: u /\ (d = ":"%char \/ d = ";"%char)).
  { destruct qs as [|[k' [|p' l']] qs']; cbn [gen_groups flat_map snd gens app]; eauto.
    inversion P2 as [|x y [Hx _] _]; subst; cbn in Hx; congruence. }
  destruct Hh as (d & u & Hd0 & Hd).
  assert (F1 : full <> [] /\ starts_ok full /\ (~ In ";"%char full /\ ~ In ":"%char full) /\ split_group full = (g, name)).
  { unfold full, split_group; destruct g as [g|]; cbn [group_ok] in Hg.
    - destruct Hg as (G1 & G2 & G3 & G4 & G5). rewrite find_char_app, firstn_len_app, skipn_len_app by assumption.
      split; [destruct g; [congruence|discriminate]|]. split; [destruct g; [congruence|exact G2]|].
      rewrite !in_app_iff; cbn [In]. split; [|reflexivity]. intuition discriminate.
    - rewrite find_char_none by assumption. auto. }
  destruct F1 as (F1 & F2 & [F3 F4] & F5).
  unfold vcard_parseLine. rewrite Hd0, strdup_plain; [|assumption|destruct Hd as [-> | ->]; discriminate|destruct Hd as [-> | ->]; discriminate| |destruct Hd as [-> | ->]; reflexivity].
  2:{ apply Forall_forall; intros x Hx; apply cin_false; cbn; intros [<-|[<-|[]]]; contradiction. }
  clearbody full. destruct full as [|c0 full']; [congruence|]. rewrite F5, <- Hd0.
  assert (Hl : (List.length (gen_groups qs ++ ":"%char :: v) <= fuel)%nat) by (rewrite app_length in Hf; lia).
  destruct (groups_read (vrnd ctx) vcard_ok (vgen_param_read ctx) qs [] ":" v fuel) as (f & Hf1 & Hf2); auto.
  assert (Hv : vparam_loop ctx fuel (gen_groups qs ++ ":"%char :: v) [] false = Some (Ok (Some v, sorted_params ps))).
  { apply vrnd_loop. rewrite Hf2. destruct f as [|f]; [cbn in Hf1; lia|]. reflexivity. }
  rewrite Hv; reflexivity.
Qed.

Lemma vcard_round_trip ctx g name ps v : name_ok name -> group_ok g name -> params_ok ps ->
  Forall (fun kl => Forall (fun p => ~ In ":"%char (fst p) /\ ~ In ";"%char (fst p)) (snd kl)) ps ->
  let text := gen_line (mkLine g name ps (Some v)) in
  forall fuel, (List.length text <= fuel)%nat ->
  exists ps', vcard_parseLine ctx fuel text = Some (Ok (mkLine g name ps' (Some v))) /\ same_params ps ps'.
Proof.
  intros Hn Hg Hp Hp' text fuel Hf; exists (sorted_params ps); split; [apply vcard_read_back; assumption|].
  apply sorted_params_same, Hp.
Qed.
