(** Proofs about the texts for display. *)
From Coq Require Import Lia ZifyBool ZifyNat.
From Verif Require Import PyBase PyProofs ParserCtx TextModel LineModel LineProofs DateTimeModel CalProofs DateTimeSpec DateTimeProofs DateTimeProofs2 RecurTextProofs VTimezoneModel VTimezoneProofs3 LocaleModel LocaleSpec.
Ltac Zify.zify_post_hook ::= Z.div_mod_to_equations.

Ltac flat H := cbn [lit list_ascii_of_string app] in H; repeat (rewrite <- app_assoc in H; cbn [app] in H).
Lemma cons_inv (c : ascii) x y : c :: x = c :: y -> x = y.
Proof. congruence. Qed.
Lemma cut_first c : forall x x' y y', cin c x = false -> cin c x' = false -> x ++ c :: y = x' ++ c :: y' -> x = x' /\ y = y'.
Proof.
  induction x as [|a x IH]; intros [|b x'] y y' H H' E; cbn [app] in E.
  - injection E as E. auto.
  - injection E as E _. subst b. cbn in H'. rewrite Ascii.eqb_refl in H'. discriminate H'.
  - injection E as E _. subst a. cbn in H. rewrite Ascii.eqb_refl in H. discriminate H.
  - injection E as <- E. cbn in H, H'. apply orb_false_iff in H, H'. destruct (IH x' y y') as [-> ->]; tauto.
Qed.
Lemma pystr_inj m n : pystr m = pystr n -> m = n.
Proof. intro E. pose proof (pyint_pystr m) as H. rewrite E, pyint_pystr in H. congruence. Qed.
Definition len (short : bool) : Z := if short then SHORT else LONG.
Lemma day_called short w : 0 <= w <= 6 -> exists s, getDay w (len short) = Ok s /\ called short week_names w s /\ cin "," s = false.
Proof.
  intro H. assert (w = 0 \/ w = 1 \/ w = 2 \/ w = 3 \/ w = 4 \/ w = 5 \/ w = 6) as K by lia.
  destruct short; destruct K as [-> | [-> | [-> | [-> | [-> | [-> | ->]]]]]]; eexists; (split; [vm_compute; reflexivity|]); (split; [eexists; split; [cbn; tauto|reflexivity]|reflexivity]).
Qed.
Lemma month_called short m : 1 <= m <= 12 -> exists s, getMonth m (len short) = Ok s /\ called short month_names m s /\ cin " " s = false.
Proof.
  intro H. assert (m = 1 \/ m = 2 \/ m = 3 \/ m = 4 \/ m = 5 \/ m = 6 \/ m = 7 \/ m = 8 \/ m = 9 \/ m = 10 \/ m = 11 \/ m = 12) as K by lia.
  destruct short; repeat (destruct K as [-> | K]; [eexists; (split; [vm_compute; reflexivity|]); (split; [eexists; split; [cbn; tauto|reflexivity]|reflexivity])|]);
  subst m; eexists; (split; [vm_compute; reflexivity|]); (split; [eexists; split; [cbn; tauto|reflexivity]|reflexivity]).
Qed.
Definition month_of (s : bytes) : option (Z * bytes) := find (fun p => beq (firstn 3 (snd p)) (firstn 3 s)) month_names.
Lemma month_named short m s : called short month_names m s -> option_map fst (month_of s) = Some m.
Proof.
  intros (l & H & ->). repeat (destruct H as [H|H]; [injection H as <- <-; destruct short; vm_compute; reflexivity|]). destruct H.
Qed.
Lemma month_inj short m n s : called short month_names m s -> called short month_names n s -> m = n.
Proof. intros A B. apply month_named in A, B. congruence. Qed.

Lemma named_ok short d : 1 <= mMonth d <= 12 -> exists w a b, getDayOfWeek d = Ok w /\ 0 <= w <= 6 /\
  called short week_names w a /\ called short month_names (mMonth d) b /\ cin "," a = false /\ cin " " b = false /\ named_date d (len short) = Ok (a ++ lit ", " ++ b ++ lit " " ++ pystr (mDay d)).
Proof.
  intro H. pose proof (getDayOfWeek_ok d H) as W. set (w := (4 + _) mod 7) in W. assert (Hw : 0 <= w <= 6) by (subst w; lia).
  destruct (day_called short w Hw) as (a & A & Ca & Na). destruct (month_called short (mMonth d) H) as (b & B & Cb & Nb).
  exists w, a, b. unfold named_date. rewrite W. cbn [rbind]. rewrite A. cbn [rbind]. rewrite B. auto 10.
Qed.
Lemma date_named short d : 1901 <= mYear d <= 2100 -> valid_date greg_leap (ymd d) -> exists s, named_date d (len short) = Ok s /\ day_text short (ymd d) s.
Proof.
  intros Y V. destruct (named_ok short d (proj1 V)) as (w & a & b & W & _ & A & B & _ & _ & E). eexists. split; [exact E|].
  exists w, a, b. split; [apply getDayOfWeek_spec; assumption|]. auto.
Qed.
Lemma date_said d f : 1901 <= mYear d <= 2100 -> valid_date greg_leap (ymd d) -> 0 <= f <= 5 -> exists s, getLocaleDate d f = Ok s /\ date_text (ymd d) f s.
Proof.
  intros Y V F. destruct (date_named false d Y V) as (l & L & Tl). destruct (date_named true d Y V) as (s & S & Ts). cbn [len] in L, S.
  assert (f = 0 \/ f = 1 \/ f = 2 \/ f = 3 \/ f = 4 \/ f = 5) as K by lia.
  destruct K as [-> | [-> | [-> | [-> | [-> | ->]]]]]; unfold getLocaleDate; cbn [Z.eqb Pos.eqb FULLDATE ABBREVDATE NUMERICDATE FULLDATENOYEAR ABBREVDATENOYEAR NUMERICDATENOYEAR];
    rewrite ?L, ?S; cbn [rbind]; (eexists; split; [reflexivity|]).
  - apply (dt_full (ymd d)). exact Tl.
  - apply (dt_abbrev (ymd d)). exact Ts.
  - apply (dt_numeric (ymd d)). reflexivity.
  - apply dt_full_no_year. exact Tl.
  - apply dt_abbrev_no_year. exact Ts.
  - apply (dt_numeric_no_year (ymd d)) with (y := mYear d). reflexivity.
Qed.
Lemma date_other d f : ~ 0 <= f <= 5 -> getLocaleDate d f = Ok [].
Proof.
  intro F. unfold getLocaleDate, FULLDATE, ABBREVDATE, NUMERICDATE, FULLDATENOYEAR, ABBREVDATENOYEAR, NUMERICDATENOYEAR.
  repeat (match goal with |- context [?a =? ?b] => destruct (Z.eqb_spec a b); [lia|] end). reflexivity.
Qed.

(** What stands before the rest r of a text, which begins with "," or " " or is empty. *)
Definition ends (r : bytes) : Prop := r = [] \/ exists c t, r = c :: t /\ (c = ","%char \/ c = " "%char).
Lemma number_end m n r r' : ends r -> ends r' -> pystr m ++ r = pystr n ++ r' -> m = n /\ r = r'.
Proof.
  assert (D : forall k c, cin c (pystr k) = true -> c <> ","%char /\ c <> " "%char).
  { intros k c H. split; intros ->; rewrite pystr_cin in H by (reflexivity || discriminate); discriminate. }
  assert (G : forall x y, (forall c, cin c x = true -> c <> ","%char /\ c <> " "%char) -> (forall c, cin c y = true -> c <> ","%char /\ c <> " "%char) -> ends r -> ends r' -> x ++ r = y ++ r' -> x = y /\ r = r').
  { clear D. intros x. induction x as [|a x IH]; intros [|b y] Hx Hy E E' X; cbn [app] in X.
    - auto.
    - destruct E as [-> | (c & t & -> & K)]; [discriminate X|]. injection X as -> _. exfalso. destruct (Hy b) as [A B]; [cbn; rewrite Ascii.eqb_refl; reflexivity|]. destruct K; contradiction.
    - destruct E' as [-> | (c & t & -> & K)]; [discriminate X|]. injection X as -> _. exfalso. destruct (Hx c) as [A B]; [cbn; rewrite Ascii.eqb_refl; reflexivity|]. destruct K; contradiction.
    - injection X as -> X. destruct (IH y) as [-> ->]; auto; intros c H; [apply Hx|apply Hy]; cbn; rewrite H; apply orb_true_r. }
  intros E E' X. destruct (G (pystr m) (pystr n) (D m) (D n) E E' X) as [A B]. split; [apply pystr_inj; exact A|exact B].
Qed.
(** Same text, same date, whatever comes after a space. *)
Lemma named_same short d e a b r r' : 1 <= mMonth d <= 12 -> 1 <= mMonth e <= 12 -> named_date d (len short) = Ok a -> named_date e (len short) = Ok b -> ends r -> ends r' ->
  a ++ r = b ++ r' -> mMonth d = mMonth e /\ mDay d = mDay e /\ r = r'.
Proof.
  intros Hd He A B R R' E. destruct (named_ok short d Hd) as (w & x & y & _ & _ & _ & Cy & Nx & Ny & A'). destruct (named_ok short e He) as (w' & x' & y' & _ & _ & _ & Cy' & Nx' & Ny' & B').
  rewrite A' in A. rewrite B' in B. injection A as <-. injection B as <-. flat E.
  destruct (cut_first _ _ _ _ _ Nx Nx' E) as [-> E2]. injection E2 as E2. flat E2.
  destruct (cut_first _ _ _ _ _ Ny Ny' E2) as [-> E3].
  destruct (number_end _ _ _ _ R R' E3) as [Ed ->]. split; [|auto]. eapply month_inj; eassumption.
Qed.
Definition with_year (f : Z) : bool := f <=? 2.
Lemma date_same d e f a b r r' : 1 <= mMonth d <= 12 -> 1 <= mMonth e <= 12 -> 0 <= f <= 5 -> getLocaleDate d f = Ok a -> getLocaleDate e f = Ok b -> ends r -> ends r' -> a ++ r = b ++ r' ->
  mMonth d = mMonth e /\ mDay d = mDay e /\ (f <= 2 -> mYear d = mYear e) /\ r = r'.
Proof.
  intros Hd He F A B R R' E.
  assert (S1 : forall n (t : Z), cin "/" (pystr n) = false) by (intros; apply pystr_cin; [reflexivity|discriminate]).
  assert (Y : forall short x y, named_date d (len short) = Ok x -> named_date e (len short) = Ok y -> (x ++ lit ", " ++ pystr (mYear d)) ++ r = (y ++ lit ", " ++ pystr (mYear e)) ++ r' ->
    mMonth d = mMonth e /\ mDay d = mDay e /\ mYear d = mYear e /\ r = r').
  { intros short x y X1 X2 X3. rewrite <- !app_assoc in X3. destruct (named_same short d e x y _ _ Hd He X1 X2 ltac:(right; do 2 eexists; split; [reflexivity|left; reflexivity])
      ltac:(right; do 2 eexists; split; [reflexivity|left; reflexivity]) X3) as (M & D & X). flat X. injection X as X.
    destruct (number_end _ _ _ _ R R' X) as [Ey Er]. auto. }
  assert (f = 0 \/ f = 1 \/ f = 2 \/ f = 3 \/ f = 4 \/ f = 5) as K by lia.
  destruct K as [-> | [-> | [-> | [-> | [-> | ->]]]]]; unfold getLocaleDate in A, B; cbn [Z.eqb Pos.eqb FULLDATE ABBREVDATE NUMERICDATE FULLDATENOYEAR ABBREVDATENOYEAR NUMERICDATENOYEAR] in A, B.
  - destruct (named_date d LONG) as [x|] eqn:X1; [|discriminate A]. destruct (named_date e LONG) as [y|] eqn:X2; [|discriminate B]. cbn [rbind] in A, B. injection A as <-. injection B as <-.
    destruct (Y false x y X1 X2 E) as (H1 & H2 & H3 & H4). auto.
  - destruct (named_date d SHORT) as [x|] eqn:X1; [|discriminate A]. destruct (named_date e SHORT) as [y|] eqn:X2; [|discriminate B]. cbn [rbind] in A, B. injection A as <-. injection B as <-.
    destruct (Y true x y X1 X2 E) as (H1 & H2 & H3 & H4). auto.
  - injection A as <-. injection B as <-. flat E.
    destruct (cut_first _ _ _ _ _ (S1 _ 0) (S1 _ 0) E) as [M E2]. rewrite <- ?app_assoc in E2. cbn [app] in E2. destruct (cut_first _ _ _ _ _ (S1 _ 0) (S1 _ 0) E2) as [D E3].
    destruct (number_end _ _ _ _ R R' E3) as [Ey Er]. apply pystr_inj in M, D. auto.
  - destruct (named_same false d e a b r r' Hd He A B R R' E) as (H1 & H2 & H3). split; [exact H1|]. split; [exact H2|]. split; [lia|exact H3].
  - destruct (named_same true d e a b r r' Hd He A B R R' E) as (H1 & H2 & H3). split; [exact H1|]. split; [exact H2|]. split; [lia|exact H3].
  - injection A as <-. injection B as <-. flat E.
    destruct (cut_first _ _ _ _ _ (S1 _ 0) (S1 _ 0) E) as [M E2]. destruct (number_end _ _ _ _ R R' E2) as [D Er]. apply pystr_inj in M. split; [exact M|]. split; [exact D|]. split; [lia|exact Er].
Qed.

(** ** Times *)
Lemma two_ok k : 0 <= k < 100 -> two k = digits2 k.
Proof. exact (two_digits k). Qed.
Lemma digits2_inj k l r r' : 0 <= k < 100 -> 0 <= l < 100 -> digits2 k ++ r = digits2 l ++ r' -> k = l /\ r = r'.
Proof.
  intros K L E. unfold digits2 in E. cbn [map app] in E. injection E as E1 E2 ->.
  assert (Q : forall a b, 0 <= a < 10 -> 0 <= b < 10 -> digit_char a = digit_char b -> a = b).
  { intros a b A B X. apply (f_equal nat_of_ascii) in X. unfold digit_char in X. rewrite !nat_ascii_embedding in X by lia. lia. }
  apply Q in E1; [|lia|lia]. apply Q in E2; [|lia|lia]. split; [lia|reflexivity].
Qed.
Section Zones.
Variable zone_text : tzid -> dt -> res bytes.
Variable default : timezone.
Notation get_time := (getTime zone_text default).
Lemma time_said d ws ap : time_of d -> exists x, get_time d ws ap false = Ok x /\ clock_text ws ap (mHours d) (mMinutes d) (mSeconds d) x.
Proof.
  intros (H & M & S). unfold getTime. eexists. split; [reflexivity|]. unfold clock_text, seconds_text. rewrite (two_ok (mMinutes d)) by lia. rewrite (two_ok (mSeconds d)) by lia.
  destruct ap.
  - exists (if mHours d mod 12 =? 0 then 12 else mHours d mod 12), (12 <=? mHours d). split; [split; destruct (Z.eqb_spec (mHours d mod 12) 0); destruct (Z.leb_spec 12 (mHours d)); lia|].
    assert ((if (if negb (12 <=? mHours d) then mHours d else mHours d - 12) =? 0 then 12 else if negb (12 <=? mHours d) then mHours d else mHours d - 12)
      = (if mHours d mod 12 =? 0 then 12 else mHours d mod 12)) as ->.
    { destruct (Z.leb_spec 12 (mHours d)); cbn [negb].
      - replace (mHours d mod 12) with (mHours d - 12) by lia. reflexivity.
      - replace (mHours d mod 12) with (mHours d) by lia. reflexivity. }
    destruct (12 <=? mHours d); reflexivity.
  - rewrite (two_ok (mHours d)) by lia. reflexivity.
Qed.
Lemma clock_same ws ap h mi s h' mi' s' x : valid_time h mi s -> valid_time h' mi' s' -> clock_text ws ap h mi s x -> clock_text ws ap h' mi' s' x -> h = h' /\ mi = mi' /\ (ws = true -> s = s').
Proof.
  intros (H & M & S) (H' & M' & S') C C'.
  assert (Q : forall r r', digits2 mi ++ seconds_text ws s ++ r = digits2 mi' ++ seconds_text ws s' ++ r' -> mi = mi' /\ (ws = true -> s = s') /\ r = r').
  { intros r r' E. apply digits2_inj in E; [|lia|lia]. destruct E as [-> E]. split; [reflexivity|]. destruct ws; cbn [seconds_text] in E.
    - flat E. apply cons_inv in E. apply digits2_inj in E; [|lia|lia]. destruct E; auto.
    - cbn [app] in E. split; [discriminate|exact E]. }
  destruct ap; cbn [clock_text] in C, C'.
  - destruct C as (k & pm & [K1 K2] & X). destruct C' as (k' & pm' & [K1' K2'] & X'). rewrite X in X'. flat X'.
    assert (N : forall n, cin ":" (pystr n) = false) by (intro; apply pystr_cin; [reflexivity|discriminate]).
    destruct (cut_first _ _ _ _ _ (N k) (N k') X') as [Ek E]. apply pystr_inj in Ek. subst k'.
    destruct (Q _ _ E) as (-> & Es & E'). split; [|auto]. destruct pm, pm'; try discriminate E'; lia.
  - rewrite C in C'. flat C'. apply digits2_inj in C'; [|lia|lia]. destruct C' as [-> E]. apply cons_inv in E. split; [reflexivity|].
    destruct (Q [] []) as (-> & Es & _); [rewrite !app_nil_r; exact E|]. auto.
Qed.
Lemma time_same d e ws ap x : time_of d -> time_of e -> get_time d ws ap false = Ok x -> get_time e ws ap false = Ok x ->
  mHours d = mHours e /\ mMinutes d = mMinutes e /\ (ws = true -> mSeconds d = mSeconds e).
Proof.
  intros D E A B. destruct (time_said d ws ap D) as (y & Y & C). destruct (time_said e ws ap E) as (z & Z & C'). rewrite Y in A. rewrite Z in B. injection A as ->. injection B as ->.
  eapply clock_same; eassumption.
Qed.
(** ** Date and time *)
Lemma both_same d e f ws ap x : 1 <= mMonth d <= 12 -> 1 <= mMonth e <= 12 -> time_of d -> time_of e -> 0 <= f <= 5 ->
  getLocaleDateTime zone_text default d f ws ap false = Ok x -> getLocaleDateTime zone_text default e f ws ap false = Ok x ->
  mMonth d = mMonth e /\ mDay d = mDay e /\ (f <= 2 -> mYear d = mYear e) /\ mHours d = mHours e /\ mMinutes d = mMinutes e /\ (ws = true -> mSeconds d = mSeconds e).
Proof.
  intros Hd He Td Te F A B. unfold getLocaleDateTime in A, B. destruct (time_said d ws ap Td) as (y & Y & _). destruct (time_said e ws ap Te) as (z & Z & _).
  destruct (getLocaleDate d f) as [a|] eqn:Da; [|discriminate A]. destruct (getLocaleDate e f) as [b|] eqn:Db; [|discriminate B]. rewrite Y in A. rewrite Z in B. cbn [rbind] in A, B.
  injection A as A. injection B as B. rewrite <- B in A.
  destruct (date_same d e f a b _ _ Hd He F Da Db ltac:(right; do 2 eexists; split; [reflexivity|right; reflexivity]) ltac:(right; do 2 eexists; split; [reflexivity|right; reflexivity]) A)
    as (H1 & H2 & H3 & H4). flat H4. injection H4 as ->. destruct (time_same d e ws ap z Td Te Y Z) as (H5 & H6 & H7). auto 10.
Qed.
Lemma both_parts d f ws ap tz a b : getLocaleDate d f = Ok a -> get_time d ws ap tz = Ok b -> getLocaleDateTime zone_text default d f ws ap tz = Ok (a ++ lit " " ++ b).
Proof. intros A B. unfold getLocaleDateTime. rewrite A. cbn [rbind]. rewrite B. reflexivity. Qed.
(** ** Order *)
Lemma digits2_order k l r r' : 0 <= k < 100 -> 0 <= l < 100 -> ble (digits2 k ++ r) (digits2 l ++ r') = if k <? l then true else if l <? k then false else ble r r'.
Proof.
  intros K L. unfold digits2. cbn [map app ble]. unfold digit_char. rewrite !nat_ascii_embedding by lia.
  destruct (Z.ltb_spec k l); destruct (Z.ltb_spec l k); try lia;
  repeat match goal with |- context [(?a <? ?b)%nat] => destruct (Nat.ltb_spec a b) end; try reflexivity; try lia.
Qed.
Lemma ble_same c r r' : ble (c :: r) (c :: r') = ble r r'.
Proof. cbn [ble]. cbv zeta. rewrite Nat.ltb_irrefl. reflexivity. Qed.
Lemma clock_order d e x y : time_of d -> time_of e -> get_time d true false false = Ok x -> get_time e true false false = Ok y ->
  (ble x y = true <-> mHours d * 3600 + mMinutes d * 60 + mSeconds d <= mHours e * 3600 + mMinutes e * 60 + mSeconds e).
Proof.
  intros D E X Y. destruct (time_said d true false D) as (x' & X' & C). destruct (time_said e true false E) as (y' & Y' & C'). rewrite X' in X. rewrite Y' in Y. injection X as ->. injection Y as ->.
  destruct D as (H & M & S). destruct E as (H' & M' & S'). cbn [clock_text seconds_text] in C, C'. rewrite C, C'. cbn [lit list_ascii_of_string app].
  rewrite digits2_order by lia. rewrite ble_same, digits2_order by lia. rewrite ble_same. pose proof (digits2_order (mSeconds d) (mSeconds e) [] [] ltac:(lia) ltac:(lia)) as Q. rewrite !app_nil_r in Q. rewrite Q. cbn [ble].
  repeat match goal with |- context [?a <? ?b] => destruct (Z.ltb_spec a b) end; split; intro; try reflexivity; try discriminate; lia.
Qed.
(** ** Zones *)
Lemma offset_said d n : mTZUTC d = false -> mTZID d = TzInt n -> Z.abs n < 360000 -> exists x, timeZoneDescriptor zone_text default d = Ok x /\ offset_text n x.
Proof.
  intros U T N. unfold timeZoneDescriptor, tz_descriptor. cbn [tzUTC tzID]. rewrite U, T. eexists. split; [reflexivity|].
  exists (Z.abs n / 3600), (Z.abs n / 60 mod 60), (Z.abs n mod 60). split; [lia|]. split; [lia|]. split; [lia|]. split; [lia|].
  assert (Q : forall k, 0 <= k < 100 -> fmt0 2 k = digits2 k).
  { intros k K. assert (Q : forall i, (i < 100)%nat -> fmt0 2 (Z.of_nat i) = digits2 (Z.of_nat i)) by (intros i Hi; do 100 (destruct i as [|i]; [vm_compute; reflexivity|]); lia).
    specialize (Q (Z.to_nat k) ltac:(lia)). rewrite Z2Nat.id in Q by lia. exact Q. }
  rewrite (Q (Z.abs n / 3600)) by lia. rewrite (Q (Z.abs n / 60 mod 60)) by lia. reflexivity.
Qed.
Lemma offset_same m n x : Z.abs m < 360000 -> Z.abs n < 360000 -> m mod 60 = 0 -> n mod 60 = 0 -> offset_text m x -> offset_text n x -> m = n.
Proof.
  intros M N M0 N0 (h & mi & s & H1 & H2 & H3 & H4 & ->) (h' & mi' & s' & H1' & H2' & H3' & H4' & E).
  assert (K : (m <? 0) = (n <? 0)) by (destruct (m <? 0), (n <? 0); auto; cbn [lit list_ascii_of_string app] in E; discriminate E).
  rewrite K in E. apply app_inv_head in E. apply digits2_inj in E; [|lia|lia]. destruct E as [Eh E].
  assert (E' : digits2 mi ++ [] = digits2 mi' ++ []) by (rewrite !app_nil_r; exact E). apply digits2_inj in E'; [|lia|lia]. lia.
Qed.
Lemma time_zone d ws ap c z : get_time d ws ap false = Ok c -> timeZoneDescriptor zone_text default d = Ok z ->
  get_time d ws ap true = Ok (match z with [] => c | _ => c ++ lit " " ++ z end).
Proof.
  intros C Z. unfold getTime in C |- *. cbv zeta in *. rewrite Z. cbn [rbind]. assert (Q : forall a b : bytes, Ok a = Ok b -> a = b) by congruence. apply Q in C. rewrite C. destruct z as [|z0 z]; [reflexivity|].
  destruct (Z.ltb_spec 0 (Z.of_nat (List.length (z0 :: z)))) as [|X]; [reflexivity|cbn [List.length] in X; lia].
Qed.
End Zones.
