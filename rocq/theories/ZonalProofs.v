(** Proofs about the tz compiler: clocks, offsets, the days of a rule. *)
From Coq Require Import Lia ZifyBool ZifyNat.
From Verif Require Import ZonalModel ZonalSpec CalModel CalProofs PyProofs DateTimeProofs DateTimeProofs2 RecurTextProofs.
Ltac Zify.zify_post_hook ::= Z.div_mod_to_equations.

(** ** Clocks *)
Lemma later_abs d e n : valid_dt d -> valid_dt e -> (later d e n <-> abs_secs e = abs_secs d + n).
Proof.
  intros Vd Ve. unfold later, abs_secs. split.
  - intros (k & B & E). apply hb in B; [|apply Vd|apply Ve]. change (hdn (mYear e) (mMonth e) (mDay e) = hdn (mYear d) (mMonth d) (mDay d) + k) in B. lia.
  - intro E. exists (hdn (mYear e) (mMonth e) (mDay e) - hdn (mYear d) (mMonth d) (mDay d)).
    split; [|lia]. apply hb; [apply Vd|apply Ve|]. change (hdn (mYear e) (mMonth e) (mDay e) = hdn (mYear d) (mMonth d) (mDay d) + (hdn (mYear e) (mMonth e) (mDay e) - hdn (mYear d) (mMonth d) (mDay d))). lia.
Qed.
Lemma offsetSeconds_add d n : offsetSeconds d n = addSeconds d n.
Proof. reflexivity. Qed.
Lemma offset_abs d n : valid_dt d -> mDateOnly d = false ->
  valid_dt (offsetSeconds d n) /\ abs_secs (offsetSeconds d n) = abs_secs d + n /\ mDateOnly (offsetSeconds d n) = false.
Proof. intros V D. rewrite offsetSeconds_add. destruct (addSeconds_spec d n V D) as (A & B & C & _). auto. Qed.

Lemma clocks z offset std : valid_dt (zDt z) -> mDateOnly (zDt z) = false ->
  let local := getLocaltime z offset std in let utc := getUTC z offset std in
  valid_dt local /\ valid_dt utc /\ later utc local offset /\
  (zMode z = Some (lit "u") -> utc = zDt z) /\
  (zMode z = Some (lit "s") -> later utc (zDt z) std) /\
  (zMode z <> Some (lit "u") -> zMode z <> Some (lit "s") -> local = zDt z).
Proof.
  intros V D. cbv zeta. unfold getLocaltime, getUTC, mode_is.
  assert (K : forall m, match zMode z with Some x => beq x m | None => false end = true <-> zMode z = Some m).
  { intro m. destruct (zMode z) as [x|]; [rewrite beq_eq; split; congruence|split; discriminate]. }
  pose proof (K (lit "u")) as Ku. pose proof (K (lit "s")) as Ks.
  destruct (match zMode z with Some x => beq x (lit "u") | None => false end).
  - assert (E : zMode z = Some (lit "u")) by (apply Ku; reflexivity).
    destruct (offset_abs (zDt z) offset V D) as (A & B & C).
    split; [exact A|]. split; [exact V|]. split; [apply later_abs; auto|].
    split; [reflexivity|]. split; [rewrite E; discriminate|congruence].
  - destruct (match zMode z with Some x => beq x (lit "s") | None => false end).
    + assert (E : zMode z = Some (lit "s")) by (apply Ks; reflexivity).
      destruct (offset_abs (zDt z) (- std + offset) V D) as (A & B & C).
      destruct (offset_abs (zDt z) (- std) V D) as (A' & B' & C').
      split; [exact A|]. split; [exact A'|]. split; [apply later_abs; auto; lia|].
      split; [rewrite E; discriminate|]. split; [intros _; apply later_abs; auto; lia|congruence].
    + destruct (offset_abs (zDt z) (- offset) V D) as (A & B & C).
      split; [exact V|]. split; [exact A|]. split; [apply later_abs; auto; lia|].
      split; [intro E; apply Ku in E; discriminate|]. split; [intro E; apply Ks in E; discriminate|reflexivity].
Qed.

Lemma Ok_inj {A} (x y : A) : Ok x = Ok y -> x = y.
Proof. intro H. congruence. Qed.
(** ** Numbers *)
Lemma pyint_fmt0 p n : 0 <= n -> pyint (fmt0 p n) = Ok n.
Proof. intro H. destruct (fmt0_spec p n H) as (D & R & _ & N). rewrite pyint_digits by auto. rewrite R. reflexivity. Qed.
Lemma digits_cin c s : is_digit c = false -> all_digits s = true -> cin c s = false.
Proof.
  intros Hc. induction s as [|x s IH]; cbn; auto. intro H. apply andb_prop in H as [Hx Hs]. rewrite IH by exact Hs.
  rewrite orb_false_r. destruct (Ascii.eqb_spec c x); [subst; congruence|reflexivity].
Qed.
Lemma fmt0_cin c p n : is_digit c = false -> 0 <= n -> cin c (fmt0 p n) = false.
Proof. intros Hc H. destruct (fmt0_spec p n H) as (D & _). apply digits_cin; auto. Qed.
Lemma fmt0_head p n : 0 <= n -> exists c r, fmt0 p n = c :: r /\ is_digit c = true /\ all_digits (c :: r) = true.
Proof.
  intro H. destruct (fmt0_spec p n H) as (D & _ & _ & N). destruct (fmt0 p n) as [|c r]; [congruence|].
  exists c, r. split; [reflexivity|]. split; [|exact D]. cbn in D. apply andb_prop in D. tauto.
Qed.
Lemma pyint_minus p n : 0 <= n -> pyint ("-"%char :: fmt0 p n) = Ok (- n).
Proof.
  intro H. destruct (fmt0_spec p n H) as (D & R & _ & N). unfold pyint. cbv zeta.
  change (lstrip ("-"%char :: fmt0 p n)) with ("-"%char :: fmt0 p n). cbv beta iota. change (Ascii.eqb "-" "-") with true. cbv beta iota.
  rewrite lstrip_digits, span_digits_all by exact D. destruct (fmt0 p n); [congruence|]. cbn [lstrip]. rewrite R. reflexivity.
Qed.
Lemma pyint_plus p n : 0 <= n -> pyint ("+"%char :: fmt0 p n) = Ok n.
Proof.
  intro H. destruct (fmt0_spec p n H) as (D & R & _ & N). unfold pyint. cbv zeta.
  change (lstrip ("+"%char :: fmt0 p n)) with ("+"%char :: fmt0 p n). cbv beta iota. change (Ascii.eqb "+" "-") with false.
  change (Ascii.eqb "+" "+") with true. cbv beta iota.
  rewrite lstrip_digits, span_digits_all by exact D. destruct (fmt0 p n); [congruence|]. cbn [lstrip]. rewrite R. reflexivity.
Qed.
Lemma pyint_sign s p n : 0 <= n -> pyint (sign_text s ++ fmt0 p n) = Ok (signed s n).
Proof. intro H. destruct s; cbn [sign_text]; [apply pyint_plus|apply pyint_minus|apply pyint_fmt0]; exact H. Qed.
Lemma sign_cin s p n : 0 <= n -> cin ":" (sign_text s ++ fmt0 p n) = false.
Proof. intro H. destruct s; cbn [sign_text app cin existsb]; try apply fmt0_cin; auto; cbn; apply fmt0_cin; auto. Qed.
Lemma split_sign_h s p h : 0 <= h -> split_char ":" (sign_text s ++ fmt0 p h) = [sign_text s ++ fmt0 p h].
Proof. intro H. apply split_char_no. apply sign_cin; exact H. Qed.
Lemma split_sign_hm s p h q m : 0 <= h -> 0 <= m ->
  split_char ":" (sign_text s ++ fmt0 p h ++ lit ":" ++ fmt0 q m) = [sign_text s ++ fmt0 p h; fmt0 q m].
Proof.
  intros H Hm. rewrite app_assoc. change (lit ":" ++ fmt0 q m) with (":"%char :: fmt0 q m).
  rewrite split_char_app by (apply sign_cin; exact H). rewrite split_char_no by (apply fmt0_cin; auto). reflexivity.
Qed.
Lemma split_sign_hms s p h q m r x : 0 <= h -> 0 <= m -> 0 <= x ->
  split_char ":" (sign_text s ++ fmt0 p h ++ lit ":" ++ fmt0 q m ++ lit ":" ++ fmt0 r x) = [sign_text s ++ fmt0 p h; fmt0 q m; fmt0 r x].
Proof.
  intros H Hm Hx. rewrite app_assoc. change (lit ":" ++ fmt0 q m ++ lit ":" ++ fmt0 r x) with (":"%char :: (fmt0 q m ++ ":"%char :: fmt0 r x)).
  rewrite split_char_app by (apply sign_cin; exact H). rewrite split_char_app by (apply fmt0_cin; auto).
  rewrite split_char_no by (apply fmt0_cin; auto). reflexivity.
Qed.

(** ** Offsets *)
Lemma sget_sign s p h : 0 <= h -> exists c, sget (sign_text s ++ fmt0 p h) 0 = Ok c /\ Ascii.eqb c "-" = match s with Minus => true | _ => false end.
Proof.
  intro H. destruct (fmt0_head p h H) as (c & r & E & Dc & _). rewrite E.
  destruct s; cbn [sign_text app]; [exists "+"%char|exists "-"%char|exists c]; (split; [reflexivity|]); auto.
  apply is_digit_not_sign in Dc. tauto.
Qed.
Lemma utc_hours s p h : 0 <= h ->
  pyint (if match s with Minus => true | _ => false end then skipn 1 (sign_text s ++ fmt0 p h) else sign_text s ++ fmt0 p h) = Ok h.
Proof. intro H. destruct s; cbn [sign_text app skipn lit]; [apply pyint_plus|apply pyint_fmt0|apply pyint_fmt0]; exact H. Qed.
Lemma utc_offset z s h l : offset_text s h l (zGmtoff z) -> getUTCOffset z = Ok (signed s (seconds_of h l)).
Proof.
  intro T. unfold getUTCOffset. remember (zGmtoff z) as t eqn:Et; clear Et. destruct T as [p Hh|p q m Hh Hm|p q w m x Hh Hm Hx];
    [rewrite split_sign_h by auto|rewrite split_sign_hm by auto|rewrite split_sign_hms by auto];
    destruct (sget_sign s p h Hh) as (c & -> & Ec); cbn [rbind]; rewrite Ec, utc_hours by auto; cbn [rbind];
    rewrite ?pyint_fmt0 by auto; cbn [rbind]; rewrite ?pyint_fmt0 by auto; cbn [rbind]; f_equal; unfold seconds_of; cbn [nth];
    destruct s; cbn [signed]; lia.
Qed.

Lemma rule_offset r s h l : offset_text s h l (rlSave r) ->
  getOffset r = Ok (match s with
                    | Minus => if h =? 0 then 60 * (match l with [m] => m | _ => 0 end)
                               else - (3600 * h + 60 * match l with [m] => m | _ => 0 end)
                    | _ => 3600 * h + 60 * match l with [m] => m | _ => 0 end
                    end).
Proof.
  intro T. unfold getOffset. remember (rlSave r) as t eqn:Et; clear Et. destruct T as [p Hh|p q m Hh Hm|p q w m x Hh Hm Hx];
    [rewrite split_sign_h by auto|rewrite split_sign_hm by auto|rewrite split_sign_hms by auto];
    rewrite pyint_sign by auto; cbn [rbind]; rewrite ?pyint_fmt0 by auto; cbn [rbind]; f_equal;
    destruct s; cbn [signed];
    match goal with |- context [?a <? 0] => destruct (Z.ltb_spec a 0) end; try destruct (Z.eqb_spec h 0); lia.
Qed.
Lemma rule_offset_exact r s h l : offset_text s h l (rlSave r) -> (List.length l <= 1)%nat ->
  (getOffset r = Ok (signed s (seconds_of h l)) <-> ~ (s = Minus /\ h = 0 /\ nth 0 l 0 <> 0)).
Proof.
  intros T L. rewrite (rule_offset r s h l T).
  assert (Hh : 0 <= h) by (inversion T; auto). assert (Hl : 0 <= nth 0 l 0) by (inversion T; cbn; lia).
  destruct l as [|m [|? ?]]; [| |cbn in L; lia]; unfold seconds_of; cbn [nth] in *;
  destruct s; cbn [signed]; try destruct (Z.eqb_spec h 0); (split; [intro X; apply Ok_inj in X; intros (A & B & C)|intro N; f_equal]); try discriminate; try lia;
  destruct (Z.eq_dec m 0); try lia; exfalso; apply N; auto.
Qed.
Lemma numeric_offset z s h l : offset_text s h l (zRule z) ->
  getNumericOffset z = Ok (signed s (3600 * h) + 60 * nth 0 l 0).
Proof.
  intro T. unfold getNumericOffset.
  assert (N : beq (zRule z) (lit "-") = false).
  { apply Bool.not_true_is_false. intro B. apply beq_eq in B. rewrite B in T.
    assert (X : pyint (lit "-") = Raise ValueError) by reflexivity.
    remember (lit "-") as t eqn:Et. clear B. destruct T as [p Hh|p q m Hh Hm|p q w m x Hh Hm Hx].
    - rewrite pyint_sign in X by auto. discriminate.
    - apply (f_equal (split_char ":")) in Et. rewrite split_sign_hm in Et by auto. discriminate.
    - apply (f_equal (split_char ":")) in Et. rewrite split_sign_hms in Et by auto. discriminate. }
  rewrite N. clear N. remember (zRule z) as t eqn:Et; clear Et. destruct T as [p Hh|p q m Hh Hm|p q w m x Hh Hm Hx];
    [rewrite split_sign_h by auto|rewrite split_sign_hm by auto|rewrite split_sign_hms by auto];
    rewrite pyint_sign by auto; cbn [rbind]; rewrite ?pyint_fmt0 by auto; cbn [rbind nth]; f_equal; destruct s; cbn [signed]; lia.
Qed.
Lemma numeric_offset_exact z s h l : offset_text s h l (zRule z) ->
  (getNumericOffset z = Ok (signed s (seconds_of h l)) <-> ~ (s = Minus /\ nth 0 l 0 <> 0) /\ nth 1 l 0 = 0).
Proof.
  intros T. rewrite (numeric_offset z s h l T). unfold seconds_of.
  assert (Hh : 0 <= h) by (inversion T; auto). assert (Hl : 0 <= nth 0 l 0) by (inversion T; cbn; lia).
  assert (Hk : 0 <= nth 1 l 0) by (inversion T; cbn; lia).
  generalize dependent (nth 0 l 0). generalize dependent (nth 1 l 0). intros b Hb a Ha.
  destruct s; cbn [signed]; (split; [intro X; apply Ok_inj in X; split; [intros (A & B); try discriminate|]; lia|intros [N1 N2]; f_equal; try lia]).
  destruct (Z.eq_dec a 0); [lia|]. exfalso. apply N1. split; [reflexivity|assumption].
Qed.

(** ** The day of a rule *)
Lemma split_ge_no s : cin ">" s = false -> split_ge s = [s].
Proof.
  induction s as [|c s IH]; [reflexivity|]. intro H. cbn [cin existsb] in H. apply orb_false_iff in H as [Hc Hs].
  specialize (IH Hs). rewrite Ascii.eqb_sym in Hc.
  destruct s as [|d s]; [reflexivity|]. change (split_ge (c :: d :: s)) with
    (if Ascii.eqb c ">" && Ascii.eqb d "=" then [] :: split_ge s
     else match split_ge (d :: s) with [] => [[c]] | h :: t => (c :: h) :: t end).
  rewrite Hc. cbn [andb]. rewrite IH. reflexivity.
Qed.
Lemma w_cases (P : Z -> Prop) w : P 0 -> P 1 -> P 2 -> P 3 -> P 4 -> P 5 -> P 6 -> 0 <= w <= 6 -> P w.
Proof.
  intros. assert (E : w = 0 \/ w = 1 \/ w = 2 \/ w = 3 \/ w = 4 \/ w = 5 \/ w = 6) by lia.
  destruct E as [->|[->|[->|[->|[->|[->| ->]]]]]]; assumption.
Qed.
Lemma last_in w : 0 <= w <= 6 ->
  in_table (lit "last" ++ wd_name w) LASTDAY_NAME_TO_DAY = true /\ table (lit "last" ++ wd_name w) LASTDAY_NAME_TO_DAY = Ok w.
Proof. intro H. pattern w. apply w_cases; try exact H; vm_compute; auto. Qed.
Lemma wd_in w : 0 <= w <= 6 -> table (wd_name w) DAY_NAME_TO_DAY = Ok w.
Proof. intro H. pattern w. apply w_cases; try exact H; vm_compute; auto. Qed.
Lemma wd_not_last w t : 0 <= w <= 6 -> in_table (wd_name w ++ t) LASTDAY_NAME_TO_DAY = false.
Proof. intro H. pattern w. apply w_cases; try exact H; reflexivity. Qed.
Lemma wd_split_ge w n p : 0 <= w <= 6 -> 0 <= n -> split_ge (wd_name w ++ lit ">=" ++ fmt0 p n) = [wd_name w; fmt0 p n].
Proof.
  intros H Hn. assert (K : split_ge (fmt0 p n) = [fmt0 p n]) by (apply split_ge_no, fmt0_cin; auto).
  pattern w. apply w_cases; try exact H;
  match goal with |- split_ge (wd_name ?k ++ _) = _ =>
    let v := eval vm_compute in (wd_name k) in
    change (wd_name k) with v; change (split_ge (v ++ lit ">=" ++ fmt0 p n)) with
    (match split_ge (fmt0 p n) with _ => v :: split_ge (fmt0 p n) end); rewrite K; reflexivity end.
Qed.
Lemma wd_le w n p : 0 <= w <= 6 -> 0 <= n ->
  split_ge (wd_name w ++ lit "<=" ++ fmt0 p n) = [wd_name w ++ lit "<=" ++ fmt0 p n] /\
  pyint (wd_name w ++ lit "<=" ++ fmt0 p n) = Raise ValueError.
Proof.
  intros H Hn. split.
  - apply split_ge_no. assert (K : cin ">" (fmt0 p n) = false) by (apply fmt0_cin; auto).
    pattern w. apply w_cases; try exact H; cbn; exact K.
  - pattern w. apply w_cases; try exact H; reflexivity.
Qed.
Lemma digits_not_last s : all_digits s = true -> in_table s LASTDAY_NAME_TO_DAY = false.
Proof.
  intro H. apply Bool.not_true_is_false. intro K. apply existsb_exists in K as ((k & v) & I & E). apply beq_eq in E. cbn in E. subst s.
  cbn [In LASTDAY_NAME_TO_DAY] in I. intuition; match goal with X : _ = (k, v) |- _ => injection X as <- <-; discriminate end.
Qed.
Lemma mon_in m : 1 <= m <= 12 -> table (mon_name m) MONTH_NAME_TO_POS = Ok m.
Proof.
  intro H. assert (E : m = 1 \/ m = 2 \/ m = 3 \/ m = 4 \/ m = 5 \/ m = 6 \/ m = 7 \/ m = 8 \/ m = 9 \/ m = 10 \/ m = 11 \/ m = 12) by lia.
  repeat (destruct E as [->|E]; [reflexivity|]). subst m. reflexivity.
Qed.

Lemma at_time_spec h mi s t : at_text h mi s t -> h < 24 -> at_time t = Ok (h, mi, 0, s).
Proof.
  intros [p h' Hh|p h' m' s' Hh Hm Hs] H24; unfold at_time.
  - rewrite split_char_no by (apply fmt0_cin; auto). rewrite pyint_fmt0 by auto. cbn [rbind].
    change (pyint (lit "0")) with (Ok (A:=Z) 0). cbn [List.length lit]. change (2 <? Z.of_nat 1) with false. cbv iota. cbn [rbind].
    destruct (Z.eqb_spec h' 24); [lia|]. reflexivity.
  - change (fmt0 p h' ++ lit ":" ++ fmt0 2 m' ++ s') with (fmt0 p h' ++ ":"%char :: (fmt0 2 m' ++ s')).
    rewrite split_char_app by (apply fmt0_cin; auto).
    destruct (fmt0_2 m' Hm) as (a & b & E & Da & Db & R).
    rewrite split_char_no.
    2:{ rewrite cin_app, (fmt0_cin ":" 2 m') by (auto; lia). cbn [orb]. apply Bool.not_true_is_false. rewrite cin_In. exact Hs. }
    rewrite pyint_fmt0 by auto. cbn [rbind]. rewrite E.
    assert (P : pyint [a; b] = Ok m') by (rewrite <- E; apply pyint_fmt0; lia).
    destruct s' as [|c s'].
    + rewrite app_nil_r. change (2 <? Z.of_nat (List.length [a; b])) with false. cbv iota. rewrite P. cbn [rbind].
      destruct (Z.eqb_spec h' 24); [lia|]. reflexivity.
    + assert (L : (2 <? Z.of_nat (List.length ([a; b] ++ c :: s'))) = true) by (cbn [app List.length]; lia).
      rewrite L. change (slice ([a; b] ++ c :: s') 0 2) with [a; b]. rewrite P. cbn [rbind app skipn].
      destruct (Z.eqb_spec h' 24); [lia|]. reflexivity.
Qed.

Lemma vis_setYear d y : visible (setYear d y) = ((y, mMonth d, mDay d), (mHours d, mMinutes d, mSeconds d), mDateOnly d, mTZUTC d, mTZID d).
Proof. unfold setYear. destruct (Z.eqb_spec (mYear d) y); cbn [negb]; subst; reflexivity. Qed.
Lemma vis_setMonth d m : visible (setMonth d m) = ((mYear d, m, mDay d), (mHours d, mMinutes d, mSeconds d), mDateOnly d, mTZUTC d, mTZID d).
Proof. unfold setMonth. destruct (Z.eqb_spec (mMonth d) m); cbn [negb]; subst; reflexivity. Qed.
Lemma vis_setDay d k : visible (setDay d k) = ((mYear d, mMonth d, k), (mHours d, mMinutes d, mSeconds d), mDateOnly d, mTZUTC d, mTZID d).
Proof. unfold setDay. destruct (Z.eqb_spec (mDay d) k); cbn [negb]; subst; reflexivity. Qed.
Lemma vis_setHours d k : visible (setHours d k) = (ymd d, (k, mMinutes d, mSeconds d), mDateOnly d, mTZUTC d, mTZID d).
Proof. unfold setHours. destruct (Z.eqb_spec (mHours d) k); cbn [negb]; subst; reflexivity. Qed.
Lemma vis_setMinutes d k : visible (setMinutes d k) = (ymd d, (mHours d, k, mSeconds d), mDateOnly d, mTZUTC d, mTZID d).
Proof. unfold setMinutes. destruct (Z.eqb_spec (mMinutes d) k); cbn [negb]; subst; reflexivity. Qed.
Lemma vis_setSeconds d k : visible (setSeconds d k) = (ymd d, (mHours d, mMinutes d, k), mDateOnly d, mTZUTC d, mTZID d).
Proof. unfold setSeconds. destruct (Z.eqb_spec (mSeconds d) k); cbn [negb]; subst; reflexivity. Qed.
Lemma vis_fields d y m k h mi s o u t : visible d = ((y, m, k), (h, mi, s), o, u, t) ->
  mYear d = y /\ mMonth d = m /\ mDay d = k /\ mHours d = h /\ mMinutes d = mi /\ mSeconds d = s /\ mDateOnly d = o /\ mTZUTC d = u /\ mTZID d = t.
Proof. unfold visible, ymd. intros [= ]. repeat split; assumption. Qed.
Ltac fields_of H := apply vis_fields in H; destruct H as (? & ? & ? & ? & ? & ? & ? & ? & ?).
Ltac rw_fields := repeat match goal with H : ?f ?x = _ |- context [?f ?x] => rewrite H end; reflexivity.
Lemma base_visible y m h mi :
  visible (setSeconds (setMinutes (setHours (setDay (setMonth (setYear newDefault y) m) 1) h) mi) 0) = ((y, m, 1), (h, mi, 0), false, false, TzNone).
Proof.
  set (a := setYear newDefault y). assert (A : visible a = ((y, 1, 1), (0, 0, 0), false, false, TzNone)) by (subst a; rewrite vis_setYear; reflexivity).
  clearbody a. set (b := setMonth a m). assert (B : visible b = ((y, m, 1), (0, 0, 0), false, false, TzNone)) by (subst b; rewrite vis_setMonth; fields_of A; rw_fields).
  clearbody b. set (c := setDay b 1). assert (C : visible c = ((y, m, 1), (0, 0, 0), false, false, TzNone)) by (subst c; rewrite vis_setDay; fields_of B; rw_fields).
  clearbody c. set (e := setHours c h). assert (E : visible e = ((y, m, 1), (h, 0, 0), false, false, TzNone)) by (subst e; rewrite vis_setHours; unfold ymd; fields_of C; rw_fields).
  clearbody e. set (f := setMinutes e mi). assert (F : visible f = ((y, m, 1), (h, mi, 0), false, false, TzNone)) by (subst f; rewrite vis_setMinutes; unfold ymd; fields_of E; rw_fields).
  clearbody f. rewrite vis_setSeconds. unfold ymd. fields_of F; rw_fields.
Qed.

Lemma last_exists y m w : 1752 < y -> 1 <= m <= 12 -> 0 <= w <= 6 -> exists d, valid_date greg_leap (y, m, d) /\
  nth_wd_back (y, m, month_len greg_leap y m) w 1 (y, m, d).
Proof.
  intros Hy Hm Hw. set (L := month_len greg_leap y m).
  assert (HL : 28 <= L) by (subst L; unfold month_len; repeat match goal with |- context [if ?b then _ else _] => destruct b end; lia).
  set (G := gdn (y, m, L)). set (k := (4 + (G - gdn (1970, 1, 1)) - w) mod 7).
  assert (Hk : 0 <= k < 7) by (subst k; lia).
  assert (V : valid_date greg_leap (y, m, L - k)) by (unfold valid_date; fold L; lia).
  exists (L - k). split; [exact V|]. apply nth_back_iff; [apply valid_last; exact Hm|exact V|].
  assert (E : gdn (y, m, L - k) = G - k) by (subst G; unfold gdn, dnd, dn; lia).
  fold L G. rewrite E. split; [lia|]. split; [lia|]. subst k. lia.
Qed.

Lemma same_time_base r d y m h mi : same_time r d -> visible d = ((y, m, 1), (h, mi, 0), false, false, TzNone) ->
  (mHours r, mMinutes r, mSeconds r) = (h, mi, 0) /\ mDateOnly r = false /\ mTZUTC r = false /\ mTZID r = TzNone.
Proof. unfold same_time. intros S B. fields_of B. injection S as -> -> -> -> -> ->. repeat split; congruence. Qed.

Lemma rule_day r y m o h mi s : 1901 <= y <= 2100 -> 1 <= m <= 12 -> rlIn r = mon_name m -> on_text o (rlOn r) -> on_ok y m o ->
  (forall w n, o <> AtMost w n) -> at_text h mi s (rlAt r) -> h < 24 -> mi < 60 ->
  exists z, datetimeForYear r y = Ok z /\ valid_dt (zDt z) /\ selects y m o (ymd (zDt z)) /\
    (mHours (zDt z), mMinutes (zDt z), mSeconds (zDt z)) = (h, mi, 0) /\
    mDateOnly (zDt z) = false /\ mTZUTC (zDt z) = false /\ mTZID (zDt z) = TzNone /\ zMode z = Some s.
Proof.
  intros Hy Hm Em To Ho Nm Ta Hh Hmi. unfold datetimeForYear. rewrite Em, mon_in by exact Hm. cbn [rbind].
  rewrite (at_time_spec h mi s (rlAt r) Ta Hh). cbn [rbind].
  pose proof (base_visible y m h mi) as Bv. set (d := setSeconds _ 0) in *.
  assert (Hp : 0 <= h /\ 0 <= mi) by (inversion Ta; lia).
  assert (V : valid_dt d).
  { pose proof Bv as B. fields_of B. split; [unfold ymd; replace (mYear d) with y; replace (mMonth d) with m; replace (mDay d) with 1; apply valid_first; exact Hm|].
    split; [unfold valid_time; lia|congruence]. }
  assert (Ey : mYear d = y /\ mMonth d = m) by (pose proof Bv as B; fields_of B; auto). destruct Ey as [Ey Emo].
  destruct o as [w|w n|w n|n]; cbn [on_text on_ok selects] in *.
  - rewrite To. destruct (last_in w Ho) as [-> ->]. cbn [rbind].
    destruct (last_exists y m w ltac:(lia) Hm Ho) as (k & Vk & Nk).
    destruct (setDayOfWeekInMonth_spec d (-1) w k V ltac:(lia) Ho) as (x & E & Yx & Sx & Vx); rewrite ?Ey, ?Emo; try exact Vk; try lia.
    { intros _. exact Nk. }
    rewrite E. cbn [rbind]. exists (mkZdt x (Some s)). cbn [zDt zMode]. split; [reflexivity|]. split; [exact Vx|].
    split; [rewrite Yx, Ey, Emo; exact Nk|]. destruct (same_time_base x d y m h mi Sx Bv) as (T1 & T2 & T3 & T4). auto 10.
  - destruct Ho as [Hw Hn]. destruct To as (p & To). rewrite To. rewrite wd_not_last, wd_split_ge by (auto; lia).
    rewrite pyint_fmt0 by lia. cbn [rbind]. rewrite wd_in by exact Hw. cbn [rbind].
    destruct (setNextDayOfWeek_spec d n w V ltac:(lia) Hw) as (x & E & Vx & Sx & Nx); [rewrite Ey, Emo; unfold valid_date; lia|].
    rewrite E. cbn [rbind]. exists (mkZdt x (Some s)). cbn [zDt zMode]. split; [reflexivity|]. split; [exact Vx|].
    rewrite Ey, Emo in Nx. split; [exact Nx|]. destruct (same_time_base x d y m h mi Sx Bv) as (T1 & T2 & T3 & T4). auto 10.
  - exfalso. eapply Nm. reflexivity.
  - destruct To as (p & To). rewrite To. rewrite digits_not_last by (apply fmt0_spec; lia).
    rewrite split_ge_no by (apply fmt0_cin; auto; lia). rewrite pyint_fmt0 by lia. cbn [rbind].
    pose proof (vis_setDay d n) as Sv. pose proof Bv as B. fields_of B. rewrite Ey, Emo in Sv.
    exists (mkZdt (setDay d n) (Some s)). cbn [zDt zMode]. split; [reflexivity|]. fields_of Sv.
    split. { split; [unfold ymd; replace (mYear (setDay d n)) with y; replace (mMonth (setDay d n)) with m; replace (mDay (setDay d n)) with n;
             unfold valid_date; rewrite month_len_greg by lia; lia|].
             split; [unfold valid_time; lia|congruence]. }
    split; [unfold ymd; rw_fields|]. split; [rw_fields|]. split; [congruence|]. split; [congruence|]. split; [congruence|reflexivity].
Qed.
Lemma at_most_raises r y m w n h mi s : 1 <= m <= 12 -> rlIn r = mon_name m -> on_text (AtMost w n) (rlOn r) -> 0 <= w <= 6 -> 0 <= n ->
  at_text h mi s (rlAt r) -> h < 24 -> datetimeForYear r y = Raise AssertionError.
Proof.
  intros Hm Em To Hw Hn Ta Hh. unfold datetimeForYear. rewrite Em, mon_in by exact Hm. cbn [rbind].
  rewrite (at_time_spec h mi s (rlAt r) Ta Hh). cbn [rbind]. destruct To as (p & ->). rewrite wd_not_last by exact Hw.
  destruct (wd_le w n p Hw Hn) as [-> ->]. reflexivity.
Qed.
