From Verif Require Import PyBase PyProofs ParserCtx TextModel TextSpec.
From Coq Require Import Lia ZifyBool ZifyNat.

Lemma eqb_case (a b : ascii) : {a = b /\ Ascii.eqb a b = true} + {a <> b /\ Ascii.eqb a b = false}.
Proof. destruct (Ascii.eqb_spec a b); auto. Qed.

(** Character by character forms of the two loops. *)
Definition esc1 (c : ascii) : bytes := if cin c esc_tokens then BSLASH :: esc_char c else [c].
Definition E (s : bytes) : bytes := flat_map esc1 s.

Fixpoint dec (ctx : pctx) (s : bytes) : res bytes :=
  match s with
  | [] => Ok []
  | c :: r =>
    if Ascii.eqb c BSLASH then
      match r with
      | [] => Ok []
      | d :: r' => match unesc_char ctx d with
                   | Raise e => Raise e
                   | Ok w => match dec ctx r' with Ok o => Ok (w ++ o) | Raise e => Raise e end
                   end
      end
    else match dec ctx r with Ok o => Ok (c :: o) | Raise e => Raise e end
  end.

Lemma ffo_len rest toks seg tl : find_first_of rest toks = (seg, tl) -> (List.length tl <= List.length rest)%nat.
Proof.
  revert seg tl; induction rest as [|c r IH]; intros seg tl; cbn.
  - intros [= <- <-]; cbn; lia.
  - destruct (cin c toks).
    + intros [= <- <-]; cbn; lia.
    + destruct (find_first_of r toks) as [a b] eqn:Hf; intros [= <- <-].
      specialize (IH _ _ eq_refl); lia.
Qed.

Lemma ffo_esc rest seg tl : find_first_of rest esc_tokens = (seg, tl) ->
  E rest = seg ++ E tl /\ match tl with [] => True | c :: _ => cin c esc_tokens = true end.
Proof.
  revert seg tl; induction rest as [|c r IH]; intros seg tl; cbn [find_first_of].
  - intros [= <- <-]; auto.
  - destruct (cin c esc_tokens) eqn:Hc.
    + intros [= <- <-]; auto.
    + destruct (find_first_of r esc_tokens) as [a b]; intros [= <- <-].
      destruct (IH _ _ eq_refl) as [H1 H2]; split; auto.
      unfold E in *; cbn [flat_map]; rewrite H1; unfold esc1 at 1; rewrite Hc; reflexivity.
Qed.

Lemma write_loop_E fuel rest : (List.length rest < fuel)%nat -> write_loop fuel rest = Some (E rest).
Proof.
  revert rest; induction fuel as [|f IH]; intros rest Hl; [lia|]; cbn [write_loop].
  destruct (find_first_of rest esc_tokens) as [seg tl] eqn:Hf.
  destruct (ffo_esc _ _ _ Hf) as [H1 H2]; pose proof (ffo_len _ _ _ _ Hf) as H3.
  destruct tl as [|c r].
  - rewrite H1; cbn [E flat_map]; unfold E; cbn; rewrite app_nil_r; reflexivity.
  - cbn in H3; rewrite IH by lia; cbn [option_map]; rewrite H1; unfold E; cbn [flat_map].
    unfold esc1 at 2; rewrite H2; cbn; reflexivity.
Qed.

Lemma escape_E v : escapeTextValue v = E v.
Proof. unfold escapeTextValue; rewrite write_loop_E by lia; reflexivity. Qed.

Lemma ffo_bs rest seg tl : find_first_of rest [BSLASH] = (seg, tl) ->
  rest = seg ++ tl /\ Forall (fun c => c <> BSLASH) seg /\ match tl with [] => True | c :: _ => c = BSLASH end.
Proof.
  revert seg tl; induction rest as [|c r IH]; intros seg tl; cbn [find_first_of].
  - intros [= <- <-]; auto.
  - destruct (cin c [BSLASH]) eqn:Hc.
    + intros [= <- <-]; apply cin_In in Hc; destruct Hc as [Hc|[]]; auto.
    + destruct (find_first_of r [BSLASH]) as [a b]; intros [= <- <-].
      destruct (IH _ _ eq_refl) as (H1 & H2 & H3); repeat split; auto.
      * cbn; rewrite H1 at 1; reflexivity.
      * constructor; auto; intros ->; vm_compute in Hc; discriminate.
Qed.

Definition pre_ok (a : bytes) (r : res bytes) : res bytes := match r with Ok o => Ok (a ++ o) | Raise e => Raise e end.
Lemma pre_ok_app a b r : pre_ok a (pre_ok b r) = pre_ok (a ++ b) r.
Proof. destruct r; cbn; [rewrite app_assoc|]; reflexivity. Qed.
Lemma pre_ok_nil r : pre_ok [] r = r.
Proof. destruct r; reflexivity. Qed.

Lemma dec_plain ctx seg s : Forall (fun c => c <> BSLASH) seg -> dec ctx (seg ++ s) = pre_ok seg (dec ctx s).
Proof.
  induction 1 as [|c r Hc _ IH]; [symmetry; apply pre_ok_nil|].
  cbn [app dec]. destruct (eqb_case c BSLASH) as [[H _]|[_ ->]]; [contradiction|].
  rewrite IH; destruct (dec ctx s); reflexivity.
Qed.

Lemma decode_loop_dec ctx fuel rest : (List.length rest < fuel)%nat -> decode_loop ctx fuel rest = Some (dec ctx rest).
Proof.
  revert rest; induction fuel as [|f IH]; intros rest Hl; [lia|]; cbn [decode_loop].
  destruct (find_first_of rest [BSLASH]) as [seg tl] eqn:Hf.
  destruct (ffo_bs _ _ _ Hf) as (-> & H2 & H3).
  rewrite dec_plain by assumption.
  destruct tl as [|b [|c r]].
  - cbn; rewrite app_nil_r; reflexivity.
  - subst b; cbn; rewrite app_nil_r; reflexivity.
  - subst b; cbn [dec]; rewrite Ascii.eqb_refl.
    rewrite app_length in Hl; cbn [List.length] in Hl.
    destruct (unesc_char ctx c) as [w|e]; [|reflexivity].
    destruct r as [|d r'].
    + cbn; rewrite app_nil_r; reflexivity.
    + cbn [List.length] in Hl; rewrite IH by (cbn [List.length]; lia). destruct (dec ctx (d :: r')); reflexivity.
Qed.

Lemma decode_dec ctx v : decodeTextValue ctx v = dec ctx v.
Proof. unfold decodeTextValue; rewrite decode_loop_dec by lia; reflexivity. Qed.

(** C20 *)
Lemma esc_cases c :
  (c = CR /\ esc1 c = [BSLASH; "r"%char]) \/ (c = LF /\ esc1 c = [BSLASH; "n"%char]) \/
  (In c [";"%char; BSLASH; ","%char] /\ esc1 c = [BSLASH; c]) \/
  (~ In c [CR; LF; ";"%char; ","%char; BSLASH] /\ esc1 c = [c]).
Proof.
  destruct (eqb_case c CR) as [[-> _]|[H1 _]]; [left; split; reflexivity|].
  destruct (eqb_case c LF) as [[-> _]|[H2 _]]; [right; left; split; reflexivity|].
  destruct (eqb_case c ";") as [[-> _]|[H3 _]]; [right; right; left; split; [cbn; auto|reflexivity]|].
  destruct (eqb_case c BSLASH) as [[-> _]|[H4 _]]; [right; right; left; split; [cbn; auto|reflexivity]|].
  destruct (eqb_case c ",") as [[-> _]|[H5 _]]; [right; right; left; split; [cbn; auto|reflexivity]|].
  right; right; right; split; [cbn; intuition congruence|].
  unfold esc1; destruct (cin c esc_tokens) eqn:Hc; [|reflexivity].
  apply cin_In in Hc; cbn in Hc; intuition congruence.
Qed.

Lemma dec_esc1 ctx c s : dec ctx (esc1 c ++ s) = pre_ok [c] (dec ctx s).
Proof.
  destruct (esc_cases c) as [[-> ->]|[[-> ->]|[[Hi ->]|[Hn ->]]]].
  - cbn; destruct (dec ctx s); reflexivity.
  - cbn; destruct (dec ctx s); reflexivity.
  - cbn in Hi; destruct Hi as [<-|[<-|[<-|[]]]]; cbn; destruct (dec ctx s); reflexivity.
  - cbn [app dec]; destruct (eqb_case c BSLASH) as [[H _]|[_ ->]]; [exfalso; apply Hn; cbn; auto 6|].
    destruct (dec ctx s); reflexivity.
Qed.

Lemma dec_E ctx t s : dec ctx (E t ++ s) = pre_ok t (dec ctx s).
Proof.
  induction t as [|c t IH]; [symmetry; apply pre_ok_nil|].
  unfold E; cbn [flat_map]; rewrite <- app_assoc, dec_esc1; fold (E t); rewrite IH, pre_ok_app; reflexivity.
Qed.

Lemma decode_escape ctx t : decodeTextValue ctx (escapeTextValue t) = Ok t.
Proof.
  rewrite decode_dec, escape_E; rewrite <- (app_nil_r (E t)), dec_E; cbn; rewrite app_nil_r; reflexivity.
Qed.

Lemma escape_form t : escaped_form (escapeTextValue t).
Proof.
  rewrite escape_E; induction t as [|c t IH]; [constructor|].
  unfold E; cbn [flat_map]; fold (E t).
  destruct (esc_cases c) as [[-> ->]|[[-> ->]|[[Hi ->]|[Hn ->]]]]; cbn [app].
  - apply ef_esc; [cbn; auto 6|assumption].
  - apply ef_esc; [cbn; auto 6|assumption].
  - apply ef_esc; [cbn in *; intuition|assumption].
  - apply ef_plain; assumption.
Qed.

(** every character in escaped form is plain *)
Lemma escaped_no_newline t : escaped_form t -> ~ In CR t /\ ~ In LF t.
Proof.
  induction 1 as [|c r Hc _ [I1 I2]|c r Hc _ [I1 I2]]; [split; intros []| |].
  - split; intros [->|H]; try contradiction; apply Hc; cbn; auto.
  - split; intros [H|[H|H]]; try contradiction; try discriminate; subst c; cbn in Hc;
      repeat (destruct Hc as [Hc|Hc]; [discriminate Hc|]); contradiction.
Qed.

Lemma escape_same t : ~ (exists c, In c t /\ In c [CR; LF; ";"%char; ","%char; BSLASH]) -> escapeTextValue t = t.
Proof.
  rewrite escape_E; induction t as [|c t IH]; intros H; [reflexivity|].
  unfold E; cbn [flat_map]; fold (E t); rewrite IH.
  - destruct (esc_cases c) as [[-> _]|[[-> _]|[[Hi _]|[Hn ->]]]]; [| | |reflexivity];
      exfalso; apply H; eexists; (split; [left; reflexivity|]); cbn in *; intuition.
  - intros (d & Hd & Hd'); apply H; exists d; split; [right|]; assumption.
Qed.

(** C21 *)
Lemma bs_dec c : {c = BSLASH} + {c <> BSLASH}.
Proof. apply ascii_dec. Qed.

Lemma pieces_total s : exists ps, pieces s ps.
Proof.
  enough (H : forall n s, (List.length s <= n)%nat -> exists ps, pieces s ps) by (apply (H (List.length s)); lia).
  clear s; induction n as [|n IH]; intros s Hl.
  - destruct s; [exists []; constructor|cbn in Hl; lia].
  - destruct s as [|c r]; [exists []; constructor|].
    destruct (bs_dec c) as [->|Hc].
    + destruct r as [|d r]; [exists [Lone]; constructor|].
      destruct (IH r) as [ps Hps]; [cbn in Hl; lia|]. exists (Esc d :: ps); constructor; assumption.
    + destruct (IH r) as [ps Hps]; [cbn in Hl; lia|]. exists (Plain c :: ps); constructor; assumption.
Qed.

Lemma pieces_unique s ps : pieces s ps -> forall ps', pieces s ps' -> ps = ps'.
Proof.
  induction 1 as [| |c r ps H IH|c r ps Hc H IH]; intros ps' H'; inversion H'; subst; try reflexivity; try congruence.
  - f_equal; auto.
  - f_equal; auto.
Qed.

Lemma unesc_spec ctx c :
  (rejected ctx (Esc c) /\ unesc_char ctx c = Raise ValueError) \/
  (~ rejected ctx (Esc c) /\ unesc_char ctx c = Ok (stands_for ctx (Esc c))).
Proof.
  destruct c as [[] [] [] [] [] [] [] []];
  try (right; split; [intros [H _]; apply H; unfold is_escape; cbn; tauto|reflexivity]);
  unfold unesc_char, rejected, stands_for, is_escape; cbn;
  destruct (INVALID_COLON_ESCAPE_SEQUENCE ctx), (INVALID_ESCAPE_SEQUENCES ctx);
  first [ left; split; [split; [intuition discriminate|reflexivity]|reflexivity]
        | right; split; [intros [_ H]; discriminate H|reflexivity] ].
Qed.

Lemma dec_pieces ctx s ps : pieces s ps ->
  ((exists p, In p ps /\ rejected ctx p) -> dec ctx s = Raise ValueError) /\
  (~ (exists p, In p ps /\ rejected ctx p) -> dec ctx s = Ok (flat_map (stands_for ctx) ps)).
Proof.
  induction 1 as [| |c r ps H [I1 I2]|c r ps Hc H [I1 I2]].
  - split; [intros (p & [] & _)|reflexivity].
  - split; [intros (p & [<-|[]] & [])|reflexivity].
  - cbn [dec]; rewrite Ascii.eqb_refl.
    destruct (unesc_spec ctx c) as [[Hr ->]|[Hr ->]].
    + split; [reflexivity|]; intros Hn; exfalso; apply Hn; exists (Esc c); split; [left; reflexivity|assumption].
    + split.
      * intros (p & [<-|Hp] & Hp'); [contradiction|]. rewrite I1; [reflexivity|]. exists p; auto.
      * intros Hn; rewrite I2; [reflexivity|]. intros (p & Hp & Hp'); apply Hn; exists p; split; [right|]; assumption.
  - cbn [dec]; destruct (eqb_case c BSLASH) as [[Hx _]|[_ ->]]; [contradiction|]. split.
    + intros (p & [<-|Hp] & Hp'); [destruct Hp'|]. rewrite I1; [reflexivity|]. exists p; auto.
    + intros Hn; rewrite I2; [reflexivity|]. intros (p & Hp & Hp'); apply Hn; exists p; split; [right|]; assumption.
Qed.

(** C22 *)
Lemma enc_loop_shape s last :
  enc_loop last s = match s with
  | [] => []
  | c :: r =>
    (if Ascii.eqb c CR then lit "^n"
     else if Ascii.eqb c LF then (match last with Some l => if Ascii.eqb l CR then [] else lit "^n" | None => lit "^n" end)
     else if Ascii.eqb c DQUOTE then lit "^'"
     else if Ascii.eqb c "^" then lit "^^" else [c]) ++ enc_loop (Some c) r
  end.
Proof.
  destruct s as [|c r]; [reflexivity|]; cbn [enc_loop]; f_equal.
  destruct (cin c [CR; LF; DQUOTE; "^"%char]) eqn:Hc.
  - apply cin_In in Hc; cbn in Hc; destruct Hc as [<-|[<-|[<-|[<-|[]]]]]; cbn; try reflexivity.
    destruct last as [l|]; [|reflexivity]. destruct (Ascii.eqb l CR); reflexivity.
  - assert (H : forall x, In x [CR; LF; DQUOTE; "^"%char] -> Ascii.eqb c x = false).
    { intros x Hx; apply Ascii.eqb_neq; intros ->; apply cin_In in Hx; congruence. }
    rewrite !H by (cbn; auto); reflexivity.
Qed.

Definition after_cr (last : option ascii) : bool := match last with Some l => Ascii.eqb l CR | None => false end.

Lemma dec_enc s : forall last,
  dec_loop false (enc_loop last s) =
  if after_cr last then unix_newlines (match s with d :: r => if Ascii.eqb d LF then r else s | [] => [] end)
  else unix_newlines s.
Proof.
  induction s as [|c r IH]; intros last; [destruct (after_cr last); reflexivity|].
  rewrite enc_loop_shape.
  destruct (eqb_case c CR) as [[-> _]|[H1 H1']].
  - transitivity (unix_newlines (CR :: r)); [|destruct (after_cr last); reflexivity].
    transitivity (LF :: dec_loop false (enc_loop (Some CR) r)); [reflexivity|].
    rewrite IH; change (after_cr (Some CR)) with true; cbv iota.
    change (unix_newlines (CR :: r)) with (LF :: match r with
            | d :: r' => if Ascii.eqb d LF then unix_newlines r' else unix_newlines r
            | [] => []
            end).
    destruct r as [|d r']; [reflexivity|]. destruct (Ascii.eqb d LF); reflexivity.
  - rewrite H1'.
    destruct (eqb_case c LF) as [[-> _]|[H2 H2']].
    + change (Ascii.eqb LF LF) with true; cbv iota.
      assert (HL : dec_loop false (enc_loop (Some LF) r) = unix_newlines r) by (rewrite IH; reflexivity).
      destruct last as [l|]; unfold after_cr.
      * destruct (Ascii.eqb l CR); [exact HL|].
        transitivity (LF :: dec_loop false (enc_loop (Some LF) r)); [reflexivity|]. rewrite HL; reflexivity.
      * transitivity (LF :: dec_loop false (enc_loop (Some LF) r)); [reflexivity|]. rewrite HL; reflexivity.
    + rewrite H2'.
      assert (Hn : after_cr (Some c) = false) by exact H1'.
      assert (HL : dec_loop false (enc_loop (Some c) r) = unix_newlines r) by (rewrite IH, Hn; reflexivity).
      assert (HR : unix_newlines (c :: r) = c :: unix_newlines r) by (cbn [unix_newlines]; rewrite H1'; reflexivity).
      replace (if after_cr last then unix_newlines (c :: r) else unix_newlines (c :: r)) with (c :: unix_newlines r)
        by (rewrite HR; destruct (after_cr last); reflexivity).
      rewrite <- HL.
      destruct (eqb_case c DQUOTE) as [[-> _]|[H3 ->]]; [reflexivity|].
      destruct (eqb_case c "^") as [[-> _]|[H4 H4']]; [reflexivity|].
      rewrite H4'; cbn [app dec_loop]; rewrite H4'; reflexivity.
Qed.

Lemma dec_loop_nocaret s : cin "^" s = false -> dec_loop false s = s.
Proof.
  induction s as [|c r IH]; [reflexivity|]; intros H.
  assert (Hc : c <> "^"%char /\ cin "^" r = false).
  { split.
    - intros ->; assert (In "^"%char ("^"%char :: r)) as Hi by (left; reflexivity); apply cin_In in Hi; congruence.
    - destruct (cin "^" r) eqn:Hr; [|reflexivity]. apply cin_In in Hr.
      assert (In "^"%char (c :: r)) as Hi by (right; assumption); apply cin_In in Hi; congruence. }
  destruct Hc as [Hc Hr]; cbn [dec_loop]; apply Ascii.eqb_neq in Hc; rewrite Hc; cbn [negb]; rewrite IH; auto.
Qed.

Lemma decodeParam_loop s : decodeParameterValue s = dec_loop false s.
Proof. unfold decodeParameterValue; destruct (cin "^" s) eqn:Hc; [reflexivity|]. symmetry; apply dec_loop_nocaret; assumption. Qed.

Lemma enc_loop_plain s last : existsb (fun c => cin c s) [CR; LF; DQUOTE; "^"%char] = false -> enc_loop last s = s.
Proof.
  revert last; induction s as [|c r IH]; intros last H; [reflexivity|].
  assert (Hx : forall x, In x [CR; LF; DQUOTE; "^"%char] -> ~ In x (c :: r)).
  { intros x Hx Hi; apply cin_In in Hi.
    assert (existsb (fun c0 => cin c0 (c :: r)) [CR; LF; DQUOTE; "^"%char] = true) as Ht
      by (apply existsb_exists; exists x; auto). congruence. }
  cbn [enc_loop]. destruct (cin c [CR; LF; DQUOTE; "^"%char]) eqn:Hc.
  - apply cin_In in Hc; apply Hx in Hc; exfalso; apply Hc; left; reflexivity.
  - cbn [app]; f_equal; apply IH.
    destruct (existsb _ _) eqn:He; [|reflexivity]. apply existsb_exists in He; destruct He as (x & Hi & Hi').
    apply cin_In in Hi'; exfalso; apply (Hx x Hi); right; assumption.
Qed.

Lemma encodeParam_loop s : encodeParameterValue s = enc_loop None s.
Proof.
  unfold encodeParameterValue; destruct (existsb _ _) eqn:He; [reflexivity|].
  symmetry; apply enc_loop_plain; assumption.
Qed.

Lemma param_round_trip s : decodeParameterValue (encodeParameterValue s) = unix_newlines s.
Proof. rewrite encodeParam_loop, decodeParam_loop, dec_enc; reflexivity. Qed.

Lemma enc_loop_clean s last x : In x (enc_loop last s) -> x <> CR /\ x <> LF /\ x <> DQUOTE.
Proof.
  revert last; induction s as [|c r IH]; intros last; [intros []|].
  rewrite enc_loop_shape, in_app_iff; intros [H|H]; [|eauto].
  destruct (eqb_case c CR) as [[_ E1]|[? E1]]; rewrite E1 in H;
    [destruct H as [<-|[<-|[]]]; repeat split; discriminate|].
  destruct (eqb_case c LF) as [[_ E2]|[? E2]]; rewrite E2 in H.
  { destruct last as [l|]; [destruct (Ascii.eqb l CR)|]; cbn in H; intuition; subst; discriminate. }
  destruct (eqb_case c DQUOTE) as [[_ E3]|[? E3]]; rewrite E3 in H;
    [destruct H as [<-|[<-|[]]]; repeat split; discriminate|].
  destruct (eqb_case c "^") as [[_ E4]|[? E4]]; rewrite E4 in H;
    [destruct H as [<-|[<-|[]]]; repeat split; discriminate|].
  destruct H as [<-|[]]; auto.
Qed.

Lemma param_clean s x : In x (encodeParameterValue s) -> x <> CR /\ x <> LF /\ x <> DQUOTE.
Proof. rewrite encodeParam_loop; apply enc_loop_clean. Qed.

Lemma unix_same s : ~ In CR s -> unix_newlines s = s.
Proof.
  induction s as [|c r IH]; [reflexivity|]; intros H; cbn [unix_newlines].
  destruct (eqb_case c CR) as [[-> _]|[_ ->]]; [exfalso; apply H; left; reflexivity|].
  rewrite IH; [reflexivity|]. intros Hi; apply H; right; assumption.
Qed.

(** C27 *)
Definition issep (s : ascii) : Prop := s = ";"%char \/ s = ","%char.
Definition isbs (p : option ascii) : bool := match p with Some c => Ascii.eqb c BSLASH | None => false end.
Definition lastof (p : option ascii) (s : bytes) : option ascii := match rev s with c :: _ => Some c | [] => p end.

Lemma lastof_cons p c s : lastof p (c :: s) = lastof (Some c) s.
Proof. unfold lastof; cbn; destruct (rev s); reflexivity. Qed.
Lemma lastof_app p a s : lastof p (a ++ s) = lastof (lastof p a) s.
Proof.
  revert p; induction a as [|c a IH]; intros p; [reflexivity|].
  cbn [app]; rewrite !lastof_cons; apply IH.
Qed.

Lemma isbs_esc p x : isbs p = false -> isbs (lastof p (E x)) = ends_bs x.
Proof.
  intros Hp; destruct x as [|y x'] using rev_ind; [exact Hp|]. clear IHx'.
  unfold E; rewrite flat_map_app, lastof_app; unfold ends_bs; rewrite rev_app_distr; cbn [rev app flat_map].
  rewrite app_nil_r.
  destruct (esc_cases y) as [[-> ->]|[[-> ->]|[[Hi ->]|[Hn ->]]]]; try reflexivity.
Qed.

Lemma ptl_esc ctx sep x : issep sep -> forall pre item rest,
  ptl_loop ctx sep pre item (E x ++ rest) = ptl_loop ctx sep (lastof pre (E x)) (rev (E x) ++ item) rest.
Proof.
  intros Hs; induction x as [|c x IH]; intros pre item rest; [reflexivity|].
  unfold E; cbn [flat_map]; fold (E x).
  assert (Hb : Ascii.eqb BSLASH sep = false) by (destruct Hs as [->| ->]; reflexivity).
  rewrite rev_app_distr, lastof_app, <- !app_assoc.
  destruct (esc_cases c) as [[-> ->]|[[-> ->]|[[Hi ->]|[Hn ->]]]]; cbn [app rev].
  - cbn [ptl_loop]; rewrite Hb; cbn [andb]; change (Ascii.eqb BSLASH BSLASH) with true; cbn [negb]; rewrite andb_false_r, IH; reflexivity.
  - cbn [ptl_loop]; rewrite Hb; cbn [andb]; change (Ascii.eqb BSLASH BSLASH) with true; cbn [negb]; rewrite andb_false_r, IH; reflexivity.
  - cbn [ptl_loop]; rewrite Hb; cbn [andb]; change (Ascii.eqb BSLASH BSLASH) with true; cbn [negb]; rewrite andb_false_r, IH; reflexivity.
  - cbn [ptl_loop]. assert (Hc : Ascii.eqb c sep = false).
    { apply Ascii.eqb_neq; intros ->; apply Hn; destruct Hs as [->| ->]; cbn; auto. }
    rewrite Hc; cbn [andb]; rewrite IH; reflexivity.
Qed.

Lemma join_cons sep x y r : join_char sep (x :: y :: r) = x ++ sep :: join_char sep (y :: r).
Proof. reflexivity. Qed.

Definition complete ctx (q a : bytes) : Prop := forall s, dec ctx (q ++ s) = pre_ok a (dec ctx s).
Lemma complete_E ctx q a x : complete ctx q a -> complete ctx (q ++ E x) (a ++ x).
Proof. intros H s; rewrite <- app_assoc, H, dec_E, pre_ok_app; reflexivity. Qed.
Lemma complete_sep ctx q a sep : issep sep -> complete ctx q a -> complete ctx (q ++ [sep]) (a ++ [sep]).
Proof.
  intros Hs H s; rewrite <- app_assoc, H; cbn [app dec].
  replace (Ascii.eqb sep BSLASH) with false by (destruct Hs as [->| ->]; reflexivity).
  destruct (dec ctx s); cbn; rewrite <- ?app_assoc; reflexivity.
Qed.
Lemma complete_nil ctx : complete ctx [] [].
Proof. intros s; symmetry; apply pre_ok_nil. Qed.
Lemma complete_dec ctx q a : complete ctx q a -> dec ctx q = Ok a.
Proof. intros H; rewrite <- (app_nil_r q), H; cbn; rewrite app_nil_r; reflexivity. Qed.

Definition glue (a : bytes) (l : list bytes) : list bytes := match l with y :: t => (a ++ y) :: t | [] => [a] end.
Lemma merged_cons sep x y r : merged sep (x :: y :: r) =
  if ends_bs x then glue (x ++ [sep]) (merged sep (y :: r)) else x :: merged sep (y :: r).
Proof.
  cbn [merged]. destruct (merged sep r) as [|z t]; destruct (ends_bs x); cbn [glue]; rewrite <- ?app_assoc; try reflexivity.
  all: destruct (ends_bs y); cbn [glue]; rewrite <- ?app_assoc; reflexivity.
Qed.

Lemma glue_merged_ne sep x r : exists y t, merged sep (x :: r) = y :: t.
Proof.
  cbn [merged]; destruct (merged sep r) as [|y t]; [eauto|]. destruct (ends_bs x); eauto.
Qed.

Lemma ptl_list ctx sep r : issep sep -> forall x pre q a,
  isbs pre = false -> complete ctx q a ->
  ptl_loop ctx sep pre (rev q) (join_char sep (map E (x :: r))) = Ok (glue a (merged sep (x :: r))).
Proof.
  intros Hs; induction r as [|y r IH]; intros x pre q a Hp Hq.
  - cbn [map join_char]. rewrite <- (app_nil_r (E x)) at 1; rewrite ptl_esc by assumption; cbn [ptl_loop].
    rewrite decode_dec, rev_app_distr, !rev_involutive.
    rewrite (complete_dec ctx _ _ (complete_E ctx q a x Hq)); reflexivity.
  - cbn [map]; rewrite join_cons, ptl_esc by assumption.
    cbn [ptl_loop]; rewrite Ascii.eqb_refl.
    change (match lastof pre (E x) with Some p => Ascii.eqb p BSLASH | None => false end) with (isbs (lastof pre (E x))).
    rewrite isbs_esc by assumption. rewrite merged_cons.
    assert (Hp' : isbs (Some sep) = false) by (destruct Hs as [->| ->]; reflexivity).
    destruct (ends_bs x); cbn [negb andb].
    + change (sep :: rev (E x) ++ rev q) with ([sep] ++ rev (E x) ++ rev q).
      rewrite <- rev_app_distr. replace ([sep] ++ rev (q ++ E x)) with (rev ((q ++ E x) ++ [sep])) by (rewrite rev_app_distr; reflexivity).
      change (E y :: map E r) with (map E (y :: r)).
      rewrite (IH y (Some sep) _ ((a ++ x) ++ [sep])); [|assumption|apply complete_sep, complete_E; assumption].
      destruct (glue_merged_ne sep y r) as (z & t & ->); cbn [glue]; rewrite <- !app_assoc; reflexivity.
    + rewrite decode_dec, rev_app_distr, !rev_involutive.
      rewrite (complete_dec ctx _ _ (complete_E ctx q a x Hq)).
      change (E y :: map E r) with (map E (y :: r)).
      change (@nil ascii) with (rev (@nil ascii)).
      rewrite (IH y (Some sep) [] []); [|assumption|apply complete_nil].
      destruct (glue_merged_ne sep y r) as (z & t & ->); reflexivity.
Qed.

Lemma list_read_back ctx sep items : issep sep -> items <> [] ->
  parseTextList ctx sep (generateTextList sep items) = Ok (merged sep items).
Proof.
  intros Hs Hn; destruct items as [|x r]; [congruence|].
  unfold parseTextList, generateTextList.
  replace (map escapeTextValue (x :: r)) with (map E (x :: r)) by (apply map_ext; intros; symmetry; apply escape_E).
  change (@nil ascii) with (rev (@nil ascii)).
  rewrite (ptl_list ctx sep r Hs x None [] []); [|reflexivity|apply complete_nil].
  destruct (glue_merged_ne sep x r) as (z & t & ->); reflexivity.
Qed.

Lemma ends_bs_iff s : ends_bs s = true <-> ends_with_backslash s.
Proof.
  unfold ends_bs, ends_with_backslash; split.
  - destruct (rev s) as [|c t] eqn:Hr; [discriminate|]. intros H; apply Ascii.eqb_eq in H; subst c.
    exists (rev t); rewrite <- (rev_involutive s), Hr; reflexivity.
  - intros [t ->]; rewrite rev_app_distr; reflexivity.
Qed.

Lemma merged_length sep items : (List.length (merged sep items) <= List.length items)%nat.
Proof.
  induction items as [|x r IH]; [cbn; lia|]. cbn [merged].
  destruct (merged sep r) as [|y t]; cbn [List.length] in *; [lia|]. destruct (ends_bs x); cbn [List.length]; lia.
Qed.

Lemma merged_same sep items : merged sep items = items <-> Forall (fun x => ~ ends_with_backslash x) (but_last items).
Proof.
  induction items as [|x [|y r] IH].
  - split; [constructor|reflexivity].
  - split; [constructor|reflexivity].
  - change (but_last (x :: y :: r)) with (x :: but_last (y :: r)).
    rewrite merged_cons. destruct (ends_bs x) eqn:Hx.
    + split.
      * intros H; exfalso. assert (Hl : List.length (glue (x ++ [sep]) (merged sep (y :: r))) = List.length (x :: y :: r)) by (rewrite H; reflexivity).
        pose proof (merged_length sep (y :: r)). destruct (glue_merged_ne sep y r) as (z & t & Hz); rewrite Hz in *.
        cbn in *; lia.
      * intros H; inversion H; subst. exfalso; apply ends_bs_iff in Hx; contradiction.
    + split.
      * intros [= H]; constructor; [rewrite <- ends_bs_iff; congruence|apply IH; assumption].
      * intros H; inversion H; subst; f_equal; apply IH; assumption.
Qed.

Lemma list_round_trip ctx sep items : issep sep -> items <> [] ->
  (parseTextList ctx sep (generateTextList sep items) = Ok items <->
   Forall (fun x => ~ ends_with_backslash x) (but_last items)).
Proof.
  intros Hs Hn; rewrite list_read_back by assumption; rewrite <- (merged_same sep items).
  split; [intros [= H]; exact H|intros ->; reflexivity].
Qed.

Lemma dec_only_value ctx s e : dec ctx s = Raise e -> e = ValueError.
Proof.
  destruct (pieces_total s) as [ps Hps]; destruct (dec_pieces ctx s ps Hps) as [H1 H2]; intros He.
  assert (D : (exists p, In p ps /\ rejected ctx p) \/ ~ (exists p, In p ps /\ rejected ctx p)).
  { clear; induction ps as [|p ps IH]; [right; intros (p & [] & _)|].
    assert (Hp : rejected ctx p \/ ~ rejected ctx p).
    { destruct p as [c|c|]; [right; intros []| |right; intros []].
      destruct (unesc_spec ctx c) as [[H _]|[H _]]; auto. }
    destruct Hp as [Hp|Hp]; [left; exists p; split; [left; reflexivity|assumption]|].
    destruct IH as [(q & Hq & Hq')|IH]; [left; exists q; split; [right|]; assumption|].
    right; intros (q & [<-|Hq] & Hq'); [contradiction|]. apply IH; exists q; auto. }
  destruct D as [D|D]; [rewrite (H1 D) in He|rewrite (H2 D) in He]; congruence.
Qed.

Lemma ptl_only_value ctx sep data : forall pre item e, ptl_loop ctx sep pre item data = Raise e -> e = ValueError.
Proof.
  induction data as [|s r IH]; intros pre item e; cbn [ptl_loop].
  - rewrite decode_dec; destruct (dec ctx (rev item)) as [o|e'] eqn:Hd; cbn; [discriminate|].
    intros [= <-]; eapply dec_only_value; eassumption.
  - destruct (_ && _).
    + rewrite decode_dec; destruct (dec ctx (rev item)) as [o|e'] eqn:Hd; cbn.
      * destruct (ptl_loop ctx sep (Some s) [] r) as [t|e''] eqn:Ht; cbn; [discriminate|].
        intros [= <-]; eapply IH; eassumption.
      * intros [= <-]; eapply dec_only_value; eassumption.
    + apply IH.
Qed.

(** Nested lists. *)
Lemma pdn_esc ctx x : forall pre items item rest,
  pdn_loop ctx pre items item (E x ++ rest) = pdn_loop ctx (lastof pre (E x)) items (rev (E x) ++ item) rest.
Proof.
  induction x as [|c x IH]; intros pre items item rest; [reflexivity|].
  unfold E; cbn [flat_map]; fold (E x).
  rewrite rev_app_distr, lastof_app, <- !app_assoc.
  assert (Hbb : forall d, In d (lit "rn;,\") -> pdn_loop ctx pre items item (BSLASH :: d :: E x ++ rest) =
    pdn_loop ctx (lastof (lastof pre [BSLASH; d]) (E x)) items (rev (E x) ++ [d; BSLASH] ++ item) rest).
  { intros d Hd. transitivity (pdn_loop ctx (Some d) items (d :: BSLASH :: item) (E x ++ rest)); [|rewrite IH; reflexivity].
    cbn in Hd; destruct Hd as [<-|[<-|[<-|[<-|[<-|[]]]]]]; reflexivity. }
  destruct (esc_cases c) as [[-> ->]|[[-> ->]|[[Hi ->]|[Hn ->]]]]; cbn [app rev].
  - rewrite Hbb by (cbn; auto); reflexivity.
  - rewrite Hbb by (cbn; auto); reflexivity.
  - rewrite Hbb by (cbn in *; intuition); reflexivity.
  - cbn [pdn_loop].
    replace (Ascii.eqb c ";") with false by (symmetry; apply Ascii.eqb_neq; intros ->; apply Hn; cbn; auto).
    replace (Ascii.eqb c ",") with false by (symmetry; apply Ascii.eqb_neq; intros ->; apply Hn; cbn; auto).
    cbn [andb]; rewrite IH; reflexivity.
Qed.

Definition pcs (n : nested) : list bytes := match n with NStr s => [s] | NTup [] => [[]] | NTup t => t end.
Definition mk (l : list bytes) : nested := match l with [x] => NStr x | _ => NTup l end.

Lemma normal_mk n : normal n = mk (pcs n).
Proof. destruct n as [s|[|x [|y r]]]; reflexivity. Qed.
Lemma pcs_ne n : pcs n <> [].
Proof. destruct n as [s|[|x l]]; cbn; congruence. Qed.

Lemma flat_join x r : E x ++ flat_map (fun b => ","%char :: escapeTextValue b) r = join_char "," (map E (x :: r)).
Proof.
  revert x; induction r as [|y r IH]; intros x; [cbn; apply app_nil_r|].
  cbn [flat_map map]; rewrite join_cons; cbn [app]; rewrite escape_E.
  change (E y :: map E r) with (map E (y :: r)); rewrite <- IH; reflexivity.
Qed.

Lemma write_element_join n : write_element n = join_char "," (map E (pcs n)).
Proof.
  destruct n as [s|[|x r]]; cbn [write_element pcs]; [apply escape_E|reflexivity|].
  rewrite escape_E; apply flat_join.
Qed.

Lemma pdn_pieces ctx xs : forall x pre items rest,
  isbs pre = false -> Forall (fun y => ends_bs y = false) (removelast (x :: xs)) ->
  exists pre', (isbs pre' = ends_bs (last (x :: xs) [])) /\
  pdn_loop ctx pre items [] (join_char "," (map E (x :: xs)) ++ rest) =
  pdn_loop ctx pre' (rev (map E (removelast (x :: xs))) ++ items) (rev (E (last (x :: xs) []))) rest.
Proof.
  induction xs as [|y xs IH]; intros x pre items rest Hp Hf.
  - exists (lastof pre (E x)); split; [apply isbs_esc; assumption|].
    cbn [map join_char]; rewrite pdn_esc, app_nil_r; reflexivity.
  - cbn [map]; rewrite join_cons, <- app_assoc, pdn_esc; cbn [app pdn_loop].
    change (removelast (x :: y :: xs)) with (x :: removelast (y :: xs)) in *.
    inversion Hf; subst.
    change (match lastof pre (E x) with Some p => Ascii.eqb p BSLASH | None => false end) with (isbs (lastof pre (E x))).
    rewrite isbs_esc, H1 by assumption. cbn [negb andb Ascii.eqb Bool.eqb].
    destruct (IH y (Some ","%char) (rev (rev (E x) ++ []) :: items) rest) as (pre' & Hp' & Heq); [reflexivity|assumption|].
    exists pre'; split; [exact Hp'|].
    change (E y :: map E xs) with (map E (y :: xs)); rewrite Heq.
    rewrite app_nil_r, rev_involutive. cbn [map rev]; rewrite <- app_assoc. reflexivity.
Qed.

Lemma removelast_last {A} (l : list A) d : l <> [] -> removelast l ++ [last l d] = l.
Proof. intros H; symmetry; apply app_removelast_last; assumption. Qed.

Lemma map_r_E ctx l : map_r (decodeTextValue ctx) (map E l) = Ok l.
Proof.
  induction l as [|x l IH]; [reflexivity|]. cbn [map map_r].
  rewrite <- escape_E, decode_escape; cbn; rewrite IH; reflexivity.
Qed.

Lemma mk_nested_E ctx l : l <> [] -> mk_nested ctx (map E l) = Ok (mk l).
Proof.
  intros H; destruct l as [|x [|y r]]; [congruence| |].
  - cbn; rewrite <- escape_E, decode_escape; reflexivity.
  - unfold mk_nested; change (map E (x :: y :: r)) with (E x :: E y :: map E r) at 1; cbv iota.
    change (E x :: E y :: map E r) with (map E (x :: y :: r)).
    change (mk (x :: y :: r)) with (NTup (x :: y :: r)). rewrite map_r_E; reflexivity.
Qed.

Lemma but_last_app (a b : list bytes) : b <> [] -> removelast (a ++ b) = a ++ removelast b.
Proof. intros H; apply removelast_app; assumption. Qed.

Lemma leaves_pcs l : leaves l = flat_map pcs l.
Proof. reflexivity. Qed.

Lemma pdn_list ctx r : forall n pre,
  isbs pre = false -> Forall (fun y => ends_bs y = false) (removelast (leaves (n :: r))) ->
  pdn_loop ctx pre [] [] (join_char ";" (map write_element (n :: r))) = Ok (map normal (n :: r)).
Proof.
  induction r as [|m r IH]; intros n pre Hp Hf.
  - cbn [map join_char]; rewrite write_element_join.
    cbn [leaves flat_map] in Hf; fold (pcs n) in Hf; unfold leaves in Hf; cbn [flat_map] in Hf.
    change (Forall (fun y => ends_bs y = false) (removelast (pcs n ++ []))) in Hf.
    rewrite app_nil_r in Hf. pose proof (pcs_ne n) as Hne; rewrite normal_mk.
    destruct (pcs n) as [|x xs]; [congruence|].
    destruct (pdn_pieces ctx xs x pre [] [] Hp Hf) as (pre' & _ & Heq).
    rewrite app_nil_r in Heq; rewrite Heq; cbn [pdn_loop].
    rewrite rev_involutive, app_nil_r. cbn [rev]; rewrite rev_involutive.
    change [E (last (x :: xs) [])] with (map E [last (x :: xs) []]). rewrite <- map_app, removelast_last by congruence.
    rewrite mk_nested_E by congruence; reflexivity.
  - cbn [map]; rewrite join_cons, write_element_join.
    unfold leaves in Hf; cbn [flat_map] in Hf.
    change (Forall (fun y => ends_bs y = false) (removelast (pcs n ++ leaves (m :: r)))) in Hf.
    assert (Hl : leaves (m :: r) <> []).
    { rewrite leaves_pcs; cbn [flat_map]; pose proof (pcs_ne m); destruct (pcs m); [congruence|discriminate]. }
    rewrite but_last_app in Hf by assumption. apply Forall_app in Hf; destruct Hf as [Hf1 Hf2].
    pose proof (pcs_ne n) as Hne. rewrite (normal_mk n).
    destruct (pcs n) as [|x xs]; [congruence|].
    rewrite <- (removelast_last (x :: xs) []) in Hf1 by congruence; apply Forall_app in Hf1; destruct Hf1 as [Hf1 Hf1'].
    assert (H1 : ends_bs (last (x :: xs) []) = false) by (inversion Hf1'; assumption).
    destruct (pdn_pieces ctx xs x pre [] (";"%char :: join_char ";" (map write_element (m :: r))) Hp Hf1) as (pre' & Hp' & Heq).
    change (write_element m :: map write_element r) with (map write_element (m :: r)).
    rewrite Heq; cbn [pdn_loop].
    change (match pre' with Some p => Ascii.eqb p BSLASH | None => false end) with (isbs pre').
    rewrite Hp', H1. cbn [negb andb Ascii.eqb Bool.eqb].
    rewrite rev_involutive, app_nil_r. cbn [rev]; rewrite rev_involutive.
    change [E (last (x :: xs) [])] with (map E [last (x :: xs) []]). rewrite <- map_app, removelast_last by congruence.
    rewrite mk_nested_E by congruence.
    change (normal m :: map normal r) with (map normal (m :: r)).
    rewrite (IH m (Some ";"%char)); [reflexivity|reflexivity|assumption].
Qed.

Lemma nested_round_trip ctx data n : data <> [] -> (List.length data <= n)%nat ->
  Forall (fun x => ~ ends_with_backslash x) (but_last (leaves data)) ->
  parseDoubleNestedList ctx (generateDoubleNestedList data) n =
  Ok (map normal data ++ repeat (NStr []) (n - List.length data)).
Proof.
  intros Hne Hl Hf; unfold parseDoubleNestedList, generateDoubleNestedList.
  destruct data as [|d r]; [congruence|].
  rewrite pdn_list; [|reflexivity|].
  - cbn [rbind]. rewrite map_length.
    replace (n <? _)%nat with false; [reflexivity|].
    symmetry; apply Nat.ltb_ge; rewrite app_length, map_length, repeat_length; lia.
  - eapply Forall_impl; [|exact Hf]. intros a Ha; destruct (ends_bs a) eqn:He; [apply ends_bs_iff in He; contradiction|reflexivity].
Qed.

Lemma nested_size ctx data n l : INVALID_ADR_N_VALUES ctx = PARSER_FIX \/ INVALID_ADR_N_VALUES ctx = PARSER_RAISE ->
  parseDoubleNestedList ctx data n = Ok l -> List.length l = n.
Proof.
  intros Hc; unfold parseDoubleNestedList.
  destruct (pdn_loop ctx None [] [] data) as [rs|e]; cbn [rbind]; [|discriminate].
  destruct (Nat.ltb_spec n (List.length (rs ++ repeat (NStr []) (n - List.length rs)))) as [H|H].
  - destruct Hc as [-> | ->]; cbn [peqb].
    + intros [= <-]. rewrite firstn_length; lia.
    + discriminate.
  - intros [= <-]. rewrite app_length, repeat_length in *; lia.
Qed.

Lemma caret_reads_dec n s : (List.length s <= n)%nat -> caret_reads s (dec_loop false s).
Proof.
  revert s. induction n as [|n IH]; intros [|a r] L; cbn [List.length] in L; try (constructor; fail); [lia|].
  cbn [dec_loop]. destruct (eqb_case a "^") as [[-> ->]|[Hc ->]]; cbn [negb]; [|apply caret_plain; [exact Hc|apply IH; lia]].
  destruct r as [|c r]; [constructor|]. cbn [List.length] in L.
  assert (R : caret_reads r (dec_loop false r)) by (apply IH; lia).
  cbn [dec_loop].
  destruct (eqb_case c "n") as [[-> ->]|[Hn ->]]; [exact (caret_newline _ _ R)|].
  destruct (eqb_case c "'") as [[-> ->]|[Hq ->]]; [exact (caret_quote _ _ R)|].
  destruct (eqb_case c "^") as [[-> ->]|[Hc ->]]; [exact (caret_caret _ _ R)|].
  apply caret_other; [|exact R]. intros [<-|[<-|[<-|[]]]]; congruence.
Qed.

Lemma caret_reads_iff s t : decodeParameterValue s = t <-> caret_reads s t.
Proof.
  rewrite decodeParam_loop. split; [intros <-; apply (caret_reads_dec (List.length s)); lia|].
  induction 1 as [| |r t _ IH|r t _ IH|r t _ IH|c r t N _ IH|c r t N _ IH]; try reflexivity; try (cbn; rewrite IH; reflexivity).
  - cbn [dec_loop]. cbn in N.
    destruct (eqb_case c "n") as [[-> ->]|[_ ->]]; [tauto|].
    destruct (eqb_case c "'") as [[-> ->]|[_ ->]]; [tauto|].
    destruct (eqb_case c "^") as [[-> ->]|[_ ->]]; [tauto|].
    cbn. rewrite IH. reflexivity.
  - cbn [dec_loop]. apply Ascii.eqb_neq in N. rewrite N. cbn [negb]. rewrite IH. reflexivity.
Qed.
