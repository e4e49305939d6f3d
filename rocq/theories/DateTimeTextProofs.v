(** Proofs about the DateTime text codecs. *)
From Coq Require Import Lia ZifyBool ZifyNat.
From Verif Require Import PyBase CalModel CalSpec DateTimeModel DateTimeSpec DateTimeSpec2 DateTimeText PyProofs ParserCtx CalProofs.
Ltac Zify.zify_post_hook ::= Z.div_mod_to_equations.

Lemma num2 n : 0 <= n < 100 -> exists a b, fmt0 2 n = [a; b] /\ is_digit a = true /\ is_digit b = true /\ pyint [a; b] = Ok n.
Proof.
  intro H. destruct (fmt0_2 n H) as (a & b & E & A & B & R). exists a, b.
  rewrite pyint_digits, R; [auto| |discriminate]. cbn. rewrite A, B. reflexivity.
Qed.
Lemma num4 n : 0 <= n < 10000 -> exists a b c d, fmt0 4 n = [a; b; c; d] /\ is_digit a = true /\ is_digit b = true /\
  is_digit c = true /\ is_digit d = true /\ pyint [a; b; c; d] = Ok n.
Proof.
  intro H. destruct (fmt0_4 n H) as (a & b & c & d & E & A & B & C & D & R). exists a, b, c, d.
  rewrite pyint_digits, R; [auto 10| |discriminate]. cbn. rewrite A, B, C, D. reflexivity.
Qed.

Lemma dneq c x : is_digit c = true -> is_digit x = false -> Ascii.eqb c x = false.
Proof. intros H1 H2. destruct (Ascii.eqb_spec c x); [subst; congruence|reflexivity]. Qed.
Lemma dneq' c x : is_digit c = true -> is_digit x = false -> Ascii.eqb x c = false.
Proof. intros H1 H2. destruct (Ascii.eqb_spec x c); [subst; congruence|reflexivity]. Qed.

(** The date and the time printed. *)
Ltac dig := repeat match goal with
  | H : is_digit ?a = true |- context [Ascii.eqb ?a ?x] => rewrite (dneq a x H) by reflexivity
  | H : is_digit ?a = true |- context [Ascii.eqb ?x ?a] => rewrite (dneq' a x H) by reflexivity
  end.

Ltac fields d :=
  match goal with H : printable d |- _ =>
    destruct H as (Hy & Hm & Hd & Hh & Hmi & Hs);
    destruct (num4 (mYear d) ltac:(lia)) as (y1 & y2 & y3 & y4 & Ey & Dy1 & Dy2 & Dy3 & Dy4 & Py);
    destruct (num2 (mMonth d) ltac:(lia)) as (m1 & m2 & Em & Dm1 & Dm2 & Pm);
    destruct (num2 (mDay d) ltac:(lia)) as (d1 & d2 & Ed & Dd1 & Dd2 & Pd);
    destruct (num2 (mHours d) ltac:(lia)) as (h1 & h2 & Eh & Dh1 & Dh2 & Ph);
    destruct (num2 (mMinutes d) ltac:(lia)) as (i1 & i2 & Ei & Di1 & Di2 & Pi);
    destruct (num2 (mSeconds d) ltac:(lia)) as (s1 & s2 & Es & Ds1 & Ds2 & Ps)
  end.

Section P.
Variable ctx : pctx.

(** An object with no time of day and no zone, as made by DateTime(). *)
Lemma nonneg3 a b c : 0 <= a -> 0 <= b -> 0 <= c -> (a <? 0) || (b <? 0) || (c <? 0) = false.
Proof. lia. Qed.

Lemma parseDate_plain (full : bool) d rest old : printable d ->
  (rest = [] \/ exists t, rest = "T"%char :: t) ->
  parseDate ctx full (fmt0 4 (mYear d) ++ fmt0 2 (mMonth d) ++ fmt0 2 (mDay d) ++ rest) old =
  (with_ymd old (mYear d) (mMonth d) (mDay d), Ok rest).
Proof.
  intros P Hr. fields d. rewrite Ey, Em, Ed. cbn [app].
  unfold parseDate, mbind, mlift, mupd, mret, mraise.
  cbn [firstn skipn]. rewrite Py. unfold skip_sep. destruct full; cbn [head_r rbind tl firstn skipn];
    dig; cbn [firstn skipn]; rewrite Pm; cbn [head_r rbind tl firstn skipn]; dig; cbn [firstn skipn]; rewrite Pd;
    (match goal with |- context [firstn ?n ?l] => replace (firstn n l) with [y1; y2; y3; y4; m1; m2; d1; d2] by
      (cbn [List.length]; match goal with |- _ = firstn (?a - _) _ => idtac end;
       replace (S (S (S (S (S (S (S (S (List.length rest)))))))) - List.length rest)%nat with 8%nat by lia; reflexivity) end);
    (cbn [cin]; unfold SPC; dig; cbn [orb andb]);
    rewrite nonneg3 by lia; reflexivity.
Qed.

Lemma parseDate_xml d rest old : printable d ->
  (rest = [] \/ exists t, rest = "T"%char :: t) ->
  parseDate ctx true (fmt0 4 (mYear d) ++ lit "-" ++ fmt0 2 (mMonth d) ++ lit "-" ++ fmt0 2 (mDay d) ++ rest) old =
  (with_ymd old (mYear d) (mMonth d) (mDay d), Ok rest).
Proof.
  intros P Hr. fields d. rewrite Ey, Em, Ed. change (lit "-") with ["-"%char]. cbn [app].
  unfold parseDate, mbind, mlift, mupd, mret, mraise.
  cbn [firstn skipn]. rewrite Py. unfold skip_sep. cbn [head_r rbind tl firstn skipn].
  change (Ascii.eqb "-" "-") with true. cbn [tl firstn skipn]. rewrite Pm. cbn [head_r rbind tl firstn skipn].
  change (Ascii.eqb "-" "-") with true. cbn [tl firstn skipn]. rewrite Pd.
  (match goal with |- context [firstn ?n ?l] => replace (firstn n l) with [y1; y2; y3; y4; "-"%char; m1; m2; "-"%char; d1; d2] by
      (cbn [List.length]; 
       replace (S (S (S (S (S (S (S (S (S (S (List.length rest)))))))))) - List.length rest)%nat with 10%nat by lia; reflexivity) end).
  cbn [cin]; unfold SPC; dig. change (Ascii.eqb " " "-") with false. cbn [orb andb].
  rewrite nonneg3 by lia. reflexivity.
Qed.

Lemma parseTime_plain (full : bool) d rest old : printable d ->
  parseTime full (fmt0 2 (mHours d) ++ fmt0 2 (mMinutes d) ++ fmt0 2 (mSeconds d) ++ rest) old =
  (with_hms old (mHours d) (mMinutes d) (mSeconds d), Ok rest).
Proof.
  intros P. fields d. rewrite Eh, Ei, Es. cbn [app].
  unfold parseTime, mbind, mlift, mupd, mret, mraise.
  cbn [firstn skipn]. rewrite Ph. unfold skip_sep. destruct full; cbn [head_r rbind tl firstn skipn];
    dig; cbn [firstn skipn]; rewrite Pi; cbn [head_r rbind tl firstn skipn]; dig; cbn [firstn skipn]; rewrite Ps; reflexivity.
Qed.

Lemma parseTime_xml d rest old : printable d ->
  parseTime true (fmt0 2 (mHours d) ++ lit ":" ++ fmt0 2 (mMinutes d) ++ lit ":" ++ fmt0 2 (mSeconds d) ++ rest) old =
  (with_hms old (mHours d) (mMinutes d) (mSeconds d), Ok rest).
Proof.
  intros P. fields d. rewrite Eh, Ei, Es. change (lit ":") with [":"%char]. cbn [app].
  unfold parseTime, mbind, mlift, mupd, mret, mraise.
  cbn [firstn skipn]. rewrite Ph. unfold skip_sep. cbn [head_r rbind tl firstn skipn].
  change (Ascii.eqb ":" ":") with true. cbn [tl firstn skipn]. rewrite Pi. cbn [head_r rbind tl firstn skipn].
  change (Ascii.eqb ":" ":") with true. cbn [tl firstn skipn]. rewrite Ps. reflexivity.
Qed.

Lemma parse_off (colon : bool) n old : off_ok n ->
  parseFractionalAndUTCOffset (tz_sign n ++ fmt0 2 (Z.abs n / 3600) ++ (if colon then lit ":" else []) ++ fmt0 2 ((Z.abs n / 60) mod 60)) old =
  (set_tzid (TzInt n) old, Ok []).
Proof.
  intros [H1 H2].
  destruct (num2 (Z.abs n / 3600) ltac:(lia)) as (h1 & h2 & Eh & Dh1 & Dh2 & Ph).
  destruct (num2 ((Z.abs n / 60) mod 60) ltac:(lia)) as (i1 & i2 & Ei & Di1 & Di2 & Pi).
  rewrite Eh, Ei.
  assert (V : (if n <? 0 then -1 else 1) * (Z.abs n / 3600 * 60 + Z.abs n / 60 mod 60) * 60 = n).
  { destruct (Z.ltb_spec n 0); lia. }
  unfold tz_sign, parseFractionalAndUTCOffset, skip_fraction.
  destruct (Z.ltb_spec n 0); destruct colon; unfold mbind, mlift, mupd, mret, mraise; cbn [app lit];
    cbn -[pyint Z.mul Z.div Z.modulo Z.abs Z.add]; rewrite Ph; 
    cbn -[pyint Z.mul Z.div Z.modulo Z.abs Z.add]; dig; cbn -[pyint Z.mul Z.div Z.modulo Z.abs Z.add]; rewrite Pi;
    cbn -[pyint Z.mul Z.div Z.modulo Z.abs Z.add]; unfold set_tzid; rewrite V; reflexivity.
Qed.

Lemma date_donly d : mDateOnly d = true -> said d = newDate (mYear d) (mMonth d) (mDay d) false TzNone.
Proof. intro H. unfold said. rewrite H. reflexivity. Qed.

(** iCalendar form. *)
Lemma text_round_trip (full : bool) d : printable d ->
  (mDateOnly d = false -> mTZUTC d = false -> match mTZID d with TzInt n => full = true /\ off_ok n | _ => True end) ->
  dt_parseText ctx full (getText d) = Ok (said d).
Proof.
  intros P HT. unfold dt_parseText, dt_parse, dt_parse_body, getText.
  unfold mbind at 1.
  destruct (mDateOnly d) eqn:D.
  - rewrite <- (app_nil_r (fmt0 2 (mDay d))). rewrite parseDate_plain by auto.
    rewrite date_donly by exact D. reflexivity.
  - specialize (HT eq_refl).
    destruct (mTZUTC d) eqn:U.
    + rewrite <- !app_assoc. change (lit "T") with ["T"%char]. cbn [app].
      rewrite parseDate_plain by eauto. change (negb (Ascii.eqb "T" "T")) with false. cbv iota.
      unfold mbind at 1. rewrite parseTime_plain by auto.
      unfold said. rewrite D, U. destruct full; reflexivity.
    + destruct (mTZID d) eqn:T; rewrite <- ?app_assoc; change (lit "T") with ["T"%char]; cbn [app].
      * rewrite <- (app_nil_r (fmt0 2 (mSeconds d))).
        rewrite parseDate_plain by eauto. change (negb (Ascii.eqb "T" "T")) with false. cbv iota.
        unfold mbind at 1. rewrite parseTime_plain by auto.
        unfold said. rewrite D, U, T. reflexivity.
      * rewrite <- (app_nil_r (fmt0 2 (mSeconds d))).
        rewrite parseDate_plain by eauto. change (negb (Ascii.eqb "T" "T")) with false. cbv iota.
        unfold mbind at 1. rewrite parseTime_plain by auto.
        unfold said. rewrite D, U, T. reflexivity.
      * destruct (HT eq_refl) as [-> O].
        rewrite parseDate_plain by eauto. change (negb (Ascii.eqb "T" "T")) with false. cbv iota.
        unfold mbind at 1. rewrite parseTime_plain by auto.
        unfold said. rewrite D, U, T. unfold mbind at 1, mupd at 1.
        pose proof (parse_off false n) as PO. cbn [app] in PO.
        set (tail := tz_sign n ++ fmt0 2 (Z.abs n / 3600) ++ fmt0 2 ((Z.abs n / 60) mod 60)) in *.
        assert (exists c t, tail = c :: t) as (c & t & Et) by (unfold tail, tz_sign; destruct (n <? 0); cbn; eauto).
        rewrite Et. rewrite <- Et. unfold mbind. rewrite PO by exact O. reflexivity.
Qed.

(** XML and JSON form. *)
Lemma xml_round_trip d : printable d ->
  (mDateOnly d = false -> mTZUTC d = false -> match mTZID d with TzInt n => off_ok n | _ => True end) ->
  dt_parseText ctx true (getXMLText d) = Ok (said d).
Proof.
  intros P HT. unfold dt_parseText, dt_parse, dt_parse_body, getXMLText.
  unfold mbind at 1.
  destruct (mDateOnly d) eqn:D.
  - rewrite <- (app_nil_r (fmt0 2 (mDay d))). rewrite parseDate_xml by auto.
    rewrite date_donly by exact D. reflexivity.
  - specialize (HT eq_refl).
    destruct (mTZUTC d) eqn:U.
    + rewrite <- !app_assoc. change (lit "T") with ["T"%char]. 
      change (["T"%char] ++ ?x) with ("T"%char :: x).
      rewrite parseDate_xml by eauto. change (negb (Ascii.eqb "T" "T")) with false. cbv iota.
      unfold mbind at 1. rewrite parseTime_xml by auto.
      unfold said. rewrite D, U. reflexivity.
    + destruct (mTZID d) eqn:T; rewrite <- ?app_assoc; change (lit "T") with ["T"%char]; change (["T"%char] ++ ?x) with ("T"%char :: x).
      * rewrite <- (app_nil_r (fmt0 2 (mSeconds d))).
        rewrite parseDate_xml by eauto. change (negb (Ascii.eqb "T" "T")) with false. cbv iota.
        unfold mbind at 1. rewrite parseTime_xml by auto.
        unfold said. rewrite D, U, T. reflexivity.
      * rewrite <- (app_nil_r (fmt0 2 (mSeconds d))).
        rewrite parseDate_xml by eauto. change (negb (Ascii.eqb "T" "T")) with false. cbv iota.
        unfold mbind at 1. rewrite parseTime_xml by auto.
        unfold said. rewrite D, U, T. reflexivity.
      * pose proof (HT eq_refl) as O.
        rewrite parseDate_xml by eauto. change (negb (Ascii.eqb "T" "T")) with false. cbv iota.
        unfold mbind at 1. rewrite parseTime_xml by auto.
        unfold said. rewrite D, U, T. unfold mbind at 1, mupd at 1.
        pose proof (parse_off true n) as PO. cbv iota in PO.
        set (tail := tz_sign n ++ fmt0 2 (Z.abs n / 3600) ++ lit ":" ++ fmt0 2 ((Z.abs n / 60) mod 60)) in *.
        assert (exists c t, tail = c :: t) as (c & t & Et) by (unfold tail, tz_sign; destruct (n <? 0); cbn; eauto).
        rewrite Et. rewrite <- Et. unfold mbind. rewrite PO by exact O. reflexivity.
Qed.
End P.

(** ** Only ValueError escapes. *)
Definition vi {A} (r : res A) : Prop := match r with Ok _ => True | Raise e => e = ValueError \/ e = IndexError end.

Lemma vi_bind {S A B} (m : M S A) (k : A -> M S B) s :
  vi (snd (m s)) -> (forall a s', vi (snd (k a s'))) -> vi (snd (mbind m k s)).
Proof. intros H1 H2. unfold mbind. destruct (m s) as [s' [a|e]]; cbn in *; auto. Qed.

Lemma vi_pyint s : vi (pyint s).
Proof. destruct (pyint s) as [n|e] eqn:E; cbn; auto. left. eapply pyint_only_value; eauto. Qed.
Lemma vi_head s : vi (head_r s).
Proof. destruct s; cbn; auto. Qed.
Lemma vi_skip f c s : vi (skip_sep f c s).
Proof. unfold skip_sep. destruct f; cbn; auto. destruct s; cbn; auto. Qed.
Lemma vi_frac s : vi (skip_fraction s).
Proof.
  unfold skip_fraction. destruct s as [|c s]; cbn; auto. destruct (Ascii.eqb c ","); cbn; auto.
  destruct s as [|x s]; cbn; auto. destruct (negb _); cbn; auto.
Qed.
Lemma vi_lift {S A} (r : res A) (s : S) : vi r -> vi (snd (mlift r s)).
Proof. auto. Qed.

Ltac vis := repeat first
  [ apply vi_bind; [|intros ? ?]
  | match goal with
    | |- vi (snd (mlift (pyint _) _)) => apply vi_lift, vi_pyint
    | |- vi (snd (mlift (head_r _) _)) => apply vi_lift, vi_head
    | |- vi (snd (mlift (skip_sep _ _ _) _)) => apply vi_lift, vi_skip
    | |- vi (snd (mlift (skip_fraction _) _)) => apply vi_lift, vi_frac
    | |- vi (snd (mret _ _)) => exact I
    | |- vi (snd (mupd _ _)) => exact I
    | |- vi (snd (mraise _ _)) => cbn; auto
    | |- vi (snd ((if ?x then _ else _) _)) => destruct x
    | |- vi (snd ((match ?x with _ => _ end) _)) => destruct x
    end ].

Lemma vi_date ctx f s d : vi (snd (parseDate ctx f s d)).
Proof. unfold parseDate. vis. Qed.
Lemma vi_time f s d : vi (snd (parseTime f s d)).
Proof. unfold parseTime. vis. Qed.
Lemma vi_off s d : vi (snd (parseFractionalAndUTCOffset s d)).
Proof. unfold parseFractionalAndUTCOffset. vis. Qed.

Lemma dt_parse_only_value ctx f s d e : snd (dt_parse ctx f s d) = Raise e -> e = ValueError.
Proof.
  unfold dt_parse. assert (H : vi (snd (dt_parse_body ctx f s d))).
  { unfold dt_parse_body. apply vi_bind; [apply vi_date|intros r d1]. destruct r as [|c t]; [exact I|].
    destruct (negb _); [cbn; auto|]. apply vi_bind; [apply vi_time|intros r d2]. apply vi_bind; [exact I|intros ? d3].
    destruct r as [|c1 t1]; [exact I|]. destruct f; [apply vi_bind; [apply vi_off|intros; exact I]|].
    destruct (negb _); [cbn; auto|]. apply vi_bind; [exact I|intros ? d4]. destruct t1; cbn; auto. }
  destruct (dt_parse_body ctx f s d) as [d' [a|x]]; cbn in *; [discriminate|].
  destruct H as [->| ->]; cbn; congruence.
Qed.

(** The year, month and day of an accepted text are not negative. *)
Lemma dt_parse_date_nonneg ctx f s d : dt_parseText ctx f s = Ok d -> 0 <= mYear d /\ 0 <= mMonth d /\ 0 <= mDay d.
Proof.
  unfold dt_parseText, dt_parse, dt_parse_body, mbind at 1.
  destruct (parseDate ctx f s newDefault) as [d1 [r|e]] eqn:E.
  2:{ cbn. destruct e; discriminate. }
  assert (N : 0 <= mYear d1 /\ 0 <= mMonth d1 /\ 0 <= mDay d1).
  { unfold parseDate, mbind, mlift, mupd, mret, mraise in E.
    destruct (pyint (firstn 4 s)) as [y|]; [|discriminate].
    destruct (skip_sep f "-" (skipn 4 s)) as [r1|]; [|discriminate].
    destruct (pyint (firstn 2 r1)) as [m|]; [|discriminate].
    destruct (skip_sep f "-" (skipn 2 r1)) as [r2|]; [|discriminate].
    destruct (pyint (firstn 2 r2)) as [dd|]; [|discriminate].
    destruct (_ && _); [discriminate|].
    destruct ((y <? 0) || (m <? 0) || (dd <? 0)) eqn:B; [discriminate|]. injection E as <- _. cbn. lia. }
  clear E.
  set (inv := fun x : dt => mYear x = mYear d1 /\ mMonth x = mMonth d1 /\ mDay x = mDay d1).
  assert (forall (k : M dt unit), (forall x, inv x -> inv (fst (k x))) ->
     match (match k d1 with (d', Ok _) => (changed d', Ok tt) | (d', rr) => (d', index_to_value rr) end) with
     | (d0, Ok _) => Ok d0 | (_, Raise e) => Raise e end = Ok d -> 0 <= mYear d /\ 0 <= mMonth d /\ 0 <= mDay d) as KK.
  { intros k Hk. assert (I1 : inv d1) by (unfold inv; auto). specialize (Hk d1 I1).
    destruct (k d1) as [d2 [u|e]]; [|destruct e; discriminate]. intro H. injection H as <-.
    cbn [fst] in Hk. destruct Hk as (K1 & K2 & K3). cbn [changed with_posix with_tzoff mYear mMonth mDay]. rewrite K1, K2, K3. exact N. }
  intro H. match type of H with match (match ?k d1 with _ => _ end) with _ => _ end = _ => apply (KK k); [|exact H] end.
  clear KK H. intros x Ix.
  assert (BI : forall (A B : Set) (m : M dt A) (k : A -> M dt B) x, inv x -> (forall x, inv x -> inv (fst (m x))) ->
            (forall a x, inv x -> inv (fst (k a x))) -> inv (fst (mbind m k x))).
  { intros A B m k x0 I0 Hm Hk. unfold mbind. specialize (Hm x0 I0). destruct (m x0) as [x1 [a|e]]; cbn in *; auto. }
  assert (LI : forall (A : Set) (r : res A) x, inv x -> inv (fst (mlift r x))) by auto.
  assert (UI : forall g x, (forall x, inv x -> inv (g x)) -> inv x -> inv (fst (@mupd dt g x))) by (intros; cbn; auto).
  assert (PT : forall t x, inv x -> inv (fst (parseTime f t x))).
  { intros t x0 I0. unfold parseTime. repeat (apply BI; [auto|intros; auto|intros]); cbn; auto. }
  assert (PO : forall t x, inv x -> inv (fst (parseFractionalAndUTCOffset t x))).
  { intros t x0 I0. unfold parseFractionalAndUTCOffset. apply BI; auto. intros r0 x1 I1. apply BI; auto.
    - intros x2 I2. destruct r0 as [|c t0]; [exact I2|]. destruct (Ascii.eqb c "Z").
      + apply BI; auto.
      + apply BI; [exact I2|intros x3 I3; destruct (Ascii.eqb c "+"); [exact I3|]; destruct (Ascii.eqb c "-"); exact I3|].
        intros sg x4 I4. repeat (apply BI; [auto|intros; auto|intros]); cbn; auto.
    - intros r1 x2 I2. destruct r1; exact I2. }
  destruct r as [|c t]; [exact Ix|].
  destruct (negb _); [exact Ix|]. apply BI; auto. intros r0 x1 I1. apply BI; auto.
  intros _ x2 I2. destruct r0 as [|c0 t0]; [exact I2|]. destruct f.
  - apply BI; auto.
  - destruct (negb _); [exact I2|]. apply BI; auto. intros _ x3 I3. destruct t0; exact I3.
Qed.

(** Parsing into an existing object. *)
Lemma parseDate_state ctx f s d1 d2 :
  snd (parseDate ctx f s d1) = snd (parseDate ctx f s d2) /\
  forall r, snd (parseDate ctx f s d1) = Ok r ->
    exists y m x, fst (parseDate ctx f s d1) = with_ymd d1 y m x /\ fst (parseDate ctx f s d2) = with_ymd d2 y m x.
Proof.
  unfold parseDate, mbind, mlift, mupd, mret, mraise.
  destruct (pyint (firstn 4 s)) as [y|]; [|split; [reflexivity|discriminate]].
  destruct (skip_sep f "-" (skipn 4 s)) as [r1|]; [|split; [reflexivity|discriminate]].
  destruct (pyint (firstn 2 r1)) as [m|]; [|split; [reflexivity|discriminate]].
  destruct (skip_sep f "-" (skipn 2 r1)) as [r2|]; [|split; [reflexivity|discriminate]].
  destruct (pyint (firstn 2 r2)) as [x|]; [|split; [reflexivity|discriminate]].
  cbv zeta. destruct (_ && _); [split; [reflexivity|discriminate]|].
  destruct (_ || _); [split; [reflexivity|discriminate]|].
  cbn [fst snd]. split; [reflexivity|]. intros _ _. exists y, m, x. split; reflexivity.
Qed.

Lemma parseTime_state f s d1 d2 :
  snd (parseTime f s d1) = snd (parseTime f s d2) /\
  forall r, snd (parseTime f s d1) = Ok r ->
    exists h m x, fst (parseTime f s d1) = with_hms d1 h m x /\ fst (parseTime f s d2) = with_hms d2 h m x.
Proof.
  unfold parseTime, mbind, mlift, mupd, mret, mraise.
  destruct (pyint (firstn 2 s)) as [y|]; [|split; [reflexivity|discriminate]].
  destruct (skip_sep f ":" (skipn 2 s)) as [r1|]; [|split; [reflexivity|discriminate]].
  destruct (pyint (firstn 2 r1)) as [m|]; [|split; [reflexivity|discriminate]].
  destruct (skip_sep f ":" (skipn 2 r1)) as [r2|]; [|split; [reflexivity|discriminate]].
  destruct (pyint (firstn 2 r2)) as [x|]; [|split; [reflexivity|discriminate]].
  cbn [fst snd]. split; [reflexivity|]. intros _ _. exists y, m, x. split; reflexivity.
Qed.

(** The iCalendar syntax: what a parse into an old object leaves in it. *)
Lemma parse_reuse ctx s d1 d2 :
  let r1 := fst (dt_parse ctx false s d1) in let r2 := fst (dt_parse ctx false s d2) in
  snd (dt_parse ctx false s d1) = snd (dt_parse ctx false s d2) /\
  (snd (dt_parse ctx false s d1) = Ok tt ->
    ymd r1 = ymd r2 /\ mDateOnly r1 = mDateOnly r2 /\ mTZID r1 = mTZID d1 /\
    (mDateOnly r1 = false -> (mHours r1, mMinutes r1, mSeconds r1, mTZUTC r1) = (mHours r2, mMinutes r2, mSeconds r2, mTZUTC r2)) /\
    (mDateOnly r1 = true -> (mHours r1, mMinutes r1, mSeconds r1, mTZUTC r1) = (mHours d1, mMinutes d1, mSeconds d1, mTZUTC d1))).
Proof.
  cbv zeta. unfold dt_parse, dt_parse_body. unfold mbind.
  destruct (parseDate_state ctx false s d1 d2) as [E1 E2].
  destruct (parseDate ctx false s d1) as [a1 [r|e]]; destruct (parseDate ctx false s d2) as [a2 [r'|e']]; cbn [fst snd] in *; try discriminate.
  2:{ injection E1 as <-. destruct e; cbn; split; auto; discriminate. }
  injection E1 as <-. destruct (E2 r eq_refl) as (y & m & x & -> & ->). clear E2.
  destruct r as [|c t]; [cbn; repeat split; auto; intros; discriminate|].
  destruct (negb (Ascii.eqb c "T")); [cbn; split; auto; discriminate|].
  destruct (parseTime_state false t (with_ymd d1 y m x) (with_ymd d2 y m x)) as [E1 E2].

  destruct (parseTime false t (with_ymd d1 y m x)) as [a1 [r|e]]; destruct (parseTime false t (with_ymd d2 y m x)) as [a2 [r'|e']]; cbn [fst snd] in *; try discriminate.
  2:{ injection E1 as <-. destruct e; cbn; split; auto; discriminate. }
  injection E1 as <-. destruct (E2 r eq_refl) as (h & mi & se & -> & ->). clear E2.
  destruct r as [|c1 t1]; [cbn; repeat split; auto; discriminate|].
  destruct (negb (Ascii.eqb c1 "Z")); [cbn; split; auto; discriminate|].
  destruct t1; cbn; repeat split; auto; intros; discriminate.
Qed.

(** Exactly the accepted texts. *)
Lemma cut_pre {A} n (l : list A) : l = firstn n l ++ skipn n l.
Proof. symmetry. apply firstn_skipn. Qed.
Lemma pyint_len s n : pyint s = Ok n -> (1 <= List.length s)%nat.
Proof. destruct s; [discriminate|cbn; lia]. Qed.
Lemma firstn_app_at {A} n (a b : list A) : List.length a = n -> firstn n (a ++ b) = a /\ skipn n (a ++ b) = b.
Proof.
  intros <-. rewrite firstn_app, skipn_app, firstn_all, skipn_all, Nat.sub_diag. cbn. rewrite app_nil_r. auto.
Qed.
Lemma firstn_short {A} n (a : list A) : (List.length a <= n)%nat -> firstn n a = a /\ skipn n a = [].
Proof. intro H. split; [apply firstn_all2; lia|apply skipn_all2; lia]. Qed.
Lemma consumed_8 (s r : bytes) k : r = skipn k s -> (k <= List.length s)%nat -> firstn (List.length s - List.length r) s = firstn k s.
Proof. intros -> H. rewrite skipn_length. f_equal. lia. Qed.
Lemma skip442 (s : bytes) : skipn 2 (skipn 2 (skipn 4 s)) = skipn 8 s.
Proof. do 8 (destruct s; [reflexivity|]). reflexivity. Qed.
Lemma consumed_any (s : bytes) : firstn (List.length s - List.length (skipn 8 s)) s = firstn 8 s.
Proof.
  rewrite skipn_length. destruct (Nat.le_gt_cases (List.length s) 8).
  - rewrite !firstn_all2 by lia. reflexivity.
  - f_equal. lia.
Qed.
Lemma space_policy ctx s : (cin SPC s && peqb (INVALID_DATETIME_LEADINGSPACE ctx) PARSER_RAISE) = false <->
  (INVALID_DATETIME_LEADINGSPACE ctx = PARSER_RAISE -> ~ In SPC s).
Proof.
  destruct (cin SPC s) eqn:E.
  - apply cin_In in E. destruct (INVALID_DATETIME_LEADINGSPACE ctx); cbn; intuition congruence.
  - split; [|reflexivity]. intros _ _ H. apply cin_In in H. congruence.
Qed.

Lemma parseDate_eq ctx s d : parseDate ctx false s d =
  match pyint (firstn 4 s) with
  | Raise e => (d, Raise e)
  | Ok y => match pyint (firstn 2 (skipn 4 s)) with
    | Raise e => (set_y y d, Raise e)
    | Ok m => match pyint (firstn 2 (skipn 2 (skipn 4 s))) with
      | Raise e => (set_mo m (set_y y d), Raise e)
      | Ok dd =>
        (set_da dd (set_mo m (set_y y d)),
         if cin SPC (firstn 8 s) && peqb (INVALID_DATETIME_LEADINGSPACE ctx) PARSER_RAISE then Raise ValueError
         else if (y <? 0) || (m <? 0) || (dd <? 0) then Raise ValueError else Ok (skipn 8 s))
      end end end.
Proof.
  unfold parseDate, mbind, mlift, mupd, mret, mraise, skip_sep. cbv iota zeta beta.
  destruct (pyint (firstn 4 s)); [|reflexivity].
  destruct (pyint (firstn 2 (skipn 4 s))); [|reflexivity].
  destruct (pyint (firstn 2 (skipn 2 (skipn 4 s)))); [|reflexivity].
  rewrite skip442, consumed_any.
  destruct (_ && _); [reflexivity|]. destruct (_ || _); reflexivity.
Qed.
Lemma parseTime_eq s d : parseTime false s d =
  match pyint (firstn 2 s) with
  | Raise e => (d, Raise e)
  | Ok y => match pyint (firstn 2 (skipn 2 s)) with
    | Raise e => (set_h y d, Raise e)
    | Ok m => match pyint (firstn 2 (skipn 2 (skipn 2 s))) with
      | Raise e => (set_mi m (set_h y d), Raise e)
      | Ok dd => (set_s dd (set_mi m (set_h y d)), Ok (skipn 2 (skipn 2 (skipn 2 s))))
      end end end.
Proof.
  unfold parseTime, mbind, mlift, mupd, mret, mraise, skip_sep. cbv iota zeta beta.
  destruct (pyint (firstn 2 s)); [|reflexivity].
  destruct (pyint (firstn 2 (skipn 2 s))); [|reflexivity].
  destruct (pyint (firstn 2 (skipn 2 (skipn 2 s)))); reflexivity.
Qed.

Lemma len_first {A} n (l : list A) : List.length (firstn n l) = Nat.min n (List.length l).
Proof. apply firstn_length. Qed.

Lemma accepted ctx s d : dt_parseText ctx false s = Ok d <->
  exists y m dd tm, dt_columns s (y, m, dd) tm /\ 0 <= y /\ 0 <= m /\ 0 <= dd /\
    (INVALID_DATETIME_LEADINGSPACE ctx = PARSER_RAISE -> ~ In SPC (firstn 8 s)) /\
    d = match tm with
        | None => newDate y m dd false TzNone
        | Some (h, mi, x, z) => newDateTime y m dd h mi x z TzNone
        end.
Proof.
  unfold dt_parseText, dt_parse, dt_parse_body. unfold mbind at 1. rewrite parseDate_eq. split.
  - destruct (pyint (firstn 4 s)) as [y|e] eqn:Y; [|destruct e; discriminate].
    destruct (pyint (firstn 2 (skipn 4 s))) as [m|e] eqn:M; [|destruct e; discriminate].
    destruct (pyint (firstn 2 (skipn 2 (skipn 4 s)))) as [dd|e] eqn:D; [|destruct e; discriminate].
    destruct (cin SPC (firstn 8 s) && _) eqn:P; [discriminate|]. pose proof (proj1 (space_policy _ _) P) as P0. clear P. rename P0 into P.
    destruct ((y <? 0) || (m <? 0) || (dd <? 0)) eqn:N; [discriminate|].
    pose proof (pyint_len _ _ D) as LD. rewrite len_first, !skipn_length in LD.
    destruct (skipn 8 s) as [|c t] eqn:R.
    + intro H. injection H as <-. exists y, m, dd, None.
      assert (L8 : (List.length s <= 8)%nat).
      { pose proof (skipn_length 8 s) as Q. rewrite R in Q. cbn in Q. lia. }
      repeat split; try lia; [|exact P].
      eapply cols_date; [| | | |exact Y|exact M|exact D]; rewrite ?len_first, ?skipn_length; try lia.
      rewrite (cut_pre 4 s) at 1. f_equal. rewrite (cut_pre 2 (skipn 4 s)) at 1. f_equal.
      rewrite (cut_pre 2 (skipn 2 (skipn 4 s))) at 1. rewrite skip442, R, app_nil_r. reflexivity.
    + assert (L8 : (8 < List.length s)%nat).
      { pose proof (skipn_length 8 s) as Q. rewrite R in Q. cbn in Q. lia. }
      assert (C : s = firstn 4 s ++ firstn 2 (skipn 4 s) ++ firstn 2 (skipn 2 (skipn 4 s)) ++ c :: t).
      { rewrite (cut_pre 4 s) at 1. f_equal. rewrite (cut_pre 2 (skipn 4 s)) at 1. f_equal.
        rewrite (cut_pre 2 (skipn 2 (skipn 4 s))) at 1. rewrite skip442, R. reflexivity. }
      destruct (Ascii.eqb_spec c "T") as [->|]; cbn [negb]; [|discriminate].
      unfold mbind at 1. rewrite parseTime_eq.
      destruct (pyint (firstn 2 t)) as [h|e] eqn:H; [|destruct e; discriminate].
      destruct (pyint (firstn 2 (skipn 2 t))) as [mi|e] eqn:MI; [|destruct e; discriminate].
      destruct (pyint (firstn 2 (skipn 2 (skipn 2 t)))) as [x|e] eqn:X; [|destruct e; discriminate].
      pose proof (pyint_len _ _ X) as LX. rewrite len_first, !skipn_length in LX.
      assert (CT : t = firstn 2 t ++ firstn 2 (skipn 2 t) ++ firstn 2 (skipn 2 (skipn 2 t)) ++ skipn 2 (skipn 2 (skipn 2 t))).
      { rewrite (cut_pre 2 t) at 1. f_equal. rewrite (cut_pre 2 (skipn 2 t)) at 1. f_equal.
        rewrite (cut_pre 2 (skipn 2 (skipn 2 t))) at 1. reflexivity. }
      pose proof (f_equal (@List.length ascii) (eq_refl (skipn 2 (skipn 2 (skipn 2 t))))) as Q. rewrite skipn_length in Q at 1. rewrite (skipn_length 2 (skipn 2 t)), (skipn_length 2 t) in Q.
      unfold mbind, mupd, mret, mraise.
      destruct (skipn 2 (skipn 2 (skipn 2 t))) as [|z r] eqn:RT; cbn [List.length] in Q.
      * intro E. injection E as <-. exists y, m, dd, (Some (h, mi, x, false)).
        repeat split; try lia; [|exact P].
        eapply (cols_time s _ _ _ _ _ _ false); [| | | | | | |exact Y|exact M|exact D|exact H|exact MI|exact X];
          rewrite ?len_first, ?skipn_length; try lia.
        rewrite C at 1. rewrite CT at 1. reflexivity.
      * destruct (Ascii.eqb_spec z "Z") as [->|]; cbn [negb]; [|discriminate].
        destruct r as [|? r]; [|discriminate]. cbn [List.length] in Q.
        intro E. injection E as <-. exists y, m, dd, (Some (h, mi, x, true)).
        repeat split; try lia; [|exact P].
        eapply (cols_time s _ _ _ _ _ _ true); [| | | | | | |exact Y|exact M|exact D|exact H|exact MI|exact X];
          rewrite ?len_first, ?skipn_length; try lia.
        rewrite C at 1. rewrite CT at 1. reflexivity.
  - intros (y & m & dd & tm & C & Py & Pm & Pd & P & ->). rewrite <- space_policy in P.
    assert (B : (y <? 0) || (m <? 0) || (dd <? 0) = false) by lia.
    inversion C as [yy mm ds y0 m0 d0 S L1 L2 L3 Y M D|yy mm ds hh mi ss z y0 m0 d0 h n x S L1 L2 L3 L4 L5 L6 Y M D H N X]; subst tm y0 m0 d0.
    + subst s. revert P. rewrite <- skip442.
      destruct (firstn_app_at 4 yy (mm ++ ds) L1) as [-> ->]. destruct (firstn_app_at 2 mm ds L2) as [-> ->].
      destruct (firstn_short 2 ds) as [-> ->]; [lia|]. rewrite Y, M, D, B. intros ->. reflexivity.
    + subst s. revert P. rewrite <- skip442.
      destruct (firstn_app_at 4 yy (mm ++ ds ++ lit "T" ++ hh ++ mi ++ ss ++ (if z then lit "Z" else [])) L1) as [-> ->].
      destruct (firstn_app_at 2 mm (ds ++ lit "T" ++ hh ++ mi ++ ss ++ (if z then lit "Z" else [])) L2) as [-> ->].
      destruct (firstn_app_at 2 ds (lit "T" ++ hh ++ mi ++ ss ++ (if z then lit "Z" else [])) L3) as [-> ->].
      rewrite Y, M, D, B. intros ->.
      change (lit "T" ++ hh ++ mi ++ ss ++ (if z then lit "Z" else [])) with ("T"%char :: hh ++ mi ++ ss ++ (if z then lit "Z" else [])).
      cbv iota. change (negb (Ascii.eqb "T" "T")) with false. cbv iota.
      unfold mbind at 1. rewrite parseTime_eq.
      destruct (firstn_app_at 2 hh (mi ++ ss ++ (if z then lit "Z" else [])) L4) as [-> ->].
      destruct (firstn_app_at 2 mi (ss ++ (if z then lit "Z" else [])) L5) as [-> ->].
      destruct z.
      * destruct (firstn_app_at 2 ss (lit "Z") L6) as [-> ->]. rewrite H, N, X. reflexivity.
      * rewrite app_nil_r. destruct (firstn_short 2 ss) as [-> ->]; [lia|]. rewrite H, N, X. reflexivity.
Qed.
