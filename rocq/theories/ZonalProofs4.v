(** Proofs about the UNTIL column. *)
From Coq Require Import Lia ZifyBool ZifyNat.
From Verif Require Import ZonalModel ZonalSpec CalModel CalProofs PyProofs DateTimeProofs DateTimeProofs2 RecurTextProofs ZonalProofs ZonalProofs2 ZonalProofs3.
Ltac Zify.zify_post_hook ::= Z.div_mod_to_equations.

Lemma hash_digit c r : is_digit c = true -> hash (c :: r) = false.
Proof.
  intro D. unfold hash. change (lit "#") with ["#"%char]. cbn [startswith]. destruct (Ascii.eqb_spec "#" c); [subst; discriminate|reflexivity].
Qed.
Lemma until_time_spec h mi s mode t : time_text (h, mi, s) mode t -> until_time t = Ok (h, mi, s, mode) /\ hash t = false /\ cin SPC t = false.
Proof.
  intro T. remember (h, mi, s) as x eqn:Ex. destruct T as [p a b Ha Hb|p a b x Ha Hb N Nx Sx|p a b q c Ha Hb Hc]; injection Ex as E1 E2 E3; subst a b; try subst c; try subst s; unfold until_time;
  destruct (fmt0_2 mi Hb) as (u & v & E & Du & Dv & R);
  assert (P : pyint [u; v] = Ok mi) by (rewrite <- E; apply pyint_fmt0; lia);
  (assert (Hh : forall r, hash (fmt0 p h ++ r) = false) by
    (intro r; destruct (fmt0_head p h Ha) as (k & l & -> & Dk & _); apply hash_digit; exact Dk));
  (split; [|split; [apply Hh|]]).
  - change (fmt0 p h ++ lit ":" ++ fmt0 2 mi) with (fmt0 p h ++ ":"%char :: fmt0 2 mi).
    rewrite split_char_app by (apply fmt0_cin; auto). rewrite split_char_no by (apply fmt0_cin; auto; lia).
    rewrite pyint_fmt0 by auto. cbn [rbind]. rewrite E. change (slice [u; v] 0 2) with [u; v]. rewrite P. reflexivity.
  - rewrite !cin_app, !fmt0_cin by (auto; lia). reflexivity.
  - change (fmt0 p h ++ lit ":" ++ fmt0 2 mi ++ x) with (fmt0 p h ++ ":"%char :: (fmt0 2 mi ++ x)).
    rewrite split_char_app by (apply fmt0_cin; auto). rewrite split_char_no by (rewrite cin_app, fmt0_cin by (auto; lia); apply not_in_cin; exact Nx).
    rewrite pyint_fmt0 by auto. cbn [rbind]. rewrite E. destruct x as [|c x]; [congruence|].
    assert (L : (2 <? Z.of_nat (List.length ([u; v] ++ c :: x))) = true) by (cbn [app List.length]; lia).
    change (slice ([u; v] ++ c :: x) 0 2) with [u; v]. rewrite P. cbn [rbind]. rewrite L. reflexivity.
  - rewrite !cin_app, !fmt0_cin by (auto; lia). apply not_in_cin; exact Sx.
  - change (fmt0 p h ++ lit ":" ++ fmt0 2 mi ++ lit ":" ++ fmt0 q s) with (fmt0 p h ++ ":"%char :: (fmt0 2 mi ++ ":"%char :: fmt0 q s)).
    rewrite split_char_app by (apply fmt0_cin; auto). rewrite split_char_app by (apply fmt0_cin; auto; lia).
    rewrite split_char_no by (apply fmt0_cin; auto).
    rewrite pyint_fmt0 by auto. cbn [rbind]. rewrite E. change (slice [u; v] 0 2) with [u; v]. rewrite P. cbn [rbind]. rewrite pyint_fmt0 by auto. reflexivity.
  - rewrite !cin_app, !fmt0_cin by (auto; lia). reflexivity.
Qed.

Lemma until_day_spec y m o toks d : 1 <= m <= 12 -> on_text o d -> on_ok y m o -> until_day_ok y o toks -> nth 2 toks [] = d ->
  (exists k, until_day y m d = Ok k /\ selects y m o (y, m, k)) /\ hash d = false /\ cin SPC d = false.
Proof.
  intros Hm T Ho U Ed. destruct o as [w|w n|w n|n]; cbn [on_text on_ok until_day_ok selects] in *; [| |contradiction|].
  - destruct U as [Hy Hw]. rewrite T in *. clear T Ed d.
    assert (V : valid_dt (newDate y m 1 false TzNone)).
    { split; [apply valid_first; exact Hm|]. split; [unfold valid_time; cbn; lia|reflexivity]. }
    destruct (last_exists y m w ltac:(lia) Hm Ho) as (k & Vk & Nk).
    destruct (setDayOfWeekInMonth_spec (newDate y m 1 false TzNone) (-1) w k V Hy Ho) as (x & E & Yx & _ & _);
      cbn [newDate mYear mMonth]; try exact Vk; try lia; [intros _; exact Nk|].
    split; [|destruct Hw as [-> | ->]; split; reflexivity]. exists k. split; [|exact Nk].
    assert (Dx : mDay x = k) by (unfold ymd in Yx; congruence).
    unfold until_day. destruct Hw as [-> | ->];
    [change (beq (lit "last" ++ wd_name 0) (lit "lastSun")) with true
    |change (beq (lit "last" ++ wd_name 6) (lit "lastSun")) with false; change (beq (lit "last" ++ wd_name 6) (lit "lastSat")) with true];
    cbv iota; rewrite E; cbn [rbind]; congruence.
  - destruct U as (Hy & -> & Hn & U). rewrite U in Ed. subst d. clear T.
    assert (V : valid_dt (newDate y m 1 false TzNone)).
    { split; [apply valid_first; exact Hm|]. split; [unfold valid_time; cbn; lia|reflexivity]. }
    destruct (setNextDayOfWeek_spec (newDate y m 1 false TzNone) n 0 V Hy ltac:(lia)) as (x & E & Vx & _ & Nx); cbn [newDate mYear mMonth] in *.
    { pose proof (month_len_bounds greg_leap y m). unfold valid_date. lia. }
    split; [|destruct Hn as [-> | ->]; split; reflexivity].
    assert (X : ymd x = (y, m, mDay x)).
    { pose proof Nx as N. apply nth_from_gdn in N as (Vd & _ & R & _).
      2:{ pose proof (month_len_bounds greg_leap y m). unfold valid_date. lia. }
      pose proof (month_len_bounds greg_leap y m) as B.
      set (k := gdn (ymd x) - gdn (y, m, n) + n).
      assert (Vk : valid_date greg_leap (y, m, k)) by (unfold valid_date; subst k; lia).
      assert (Ek : ymd x = (y, m, k)).
      { apply (dn_inj greg_leap Lg Lg_step); [exact Vd|exact Vk|]. change (gdn (ymd x) = gdn (y, m, k)). rewrite (gdn_first y m k). pose proof (gdn_first y m n). subst k. lia. }
      unfold ymd in *. congruence. }
    exists (mDay x). split; [|rewrite <- X; exact Nx].
    unfold until_day. destruct Hn as [-> | ->];
    [change (beq (wd_name 0 ++ lit ">=" ++ pystr 1) (lit "lastSun")) with false; change (beq (wd_name 0 ++ lit ">=" ++ pystr 1) (lit "lastSat")) with false;
     change (beq (wd_name 0 ++ lit ">=" ++ pystr 1) (lit "Sun>=1")) with true
    |change (beq (wd_name 0 ++ lit ">=" ++ pystr 8) (lit "lastSun")) with false; change (beq (wd_name 0 ++ lit ">=" ++ pystr 8) (lit "lastSat")) with false;
     change (beq (wd_name 0 ++ lit ">=" ++ pystr 8) (lit "Sun>=1")) with false; change (beq (wd_name 0 ++ lit ">=" ++ pystr 8) (lit "Sun>=8")) with true];
    cbv iota; rewrite E; reflexivity.
  - destruct T as (p & T). rewrite T in *. clear T Ed d. destruct (fmt0_head p n ltac:(lia)) as (c & r & E & Dc & _).
    split; [|split; [rewrite E; apply hash_digit; exact Dc|apply fmt0_cin; auto; lia]].
    exists n. split; [|reflexivity]. unfold until_day.
    assert (B : forall s, match s with k :: _ => is_digit k = false | [] => True end -> beq (fmt0 p n) s = false).
    { intros s Hs. apply Bool.not_true_is_false. intro B. apply beq_eq in B. rewrite B in E. subst s. congruence. }
    rewrite !B by reflexivity. apply pyint_fmt0. lia.
Qed.
Lemma mon_plain m : 1 <= m <= 12 -> hash (mon_name m) = false /\ cin SPC (mon_name m) = false.
Proof.
  intro H. assert (E : m = 1 \/ m = 2 \/ m = 3 \/ m = 4 \/ m = 5 \/ m = 6 \/ m = 7 \/ m = 8 \/ m = 9 \/ m = 10 \/ m = 11 \/ m = 12) by lia.
  repeat (destruct E as [->|E]; [split; reflexivity|]). subst m. split; reflexivity.
Qed.
Lemma comment_hash l : comment l -> match l with [] => True | t :: _ => hash t = true end.
Proof. destruct l as [|t l]; [auto|]. intros (r & ->). destruct r; reflexivity. Qed.

Lemma until_spec z y m o h mi s mode toks : until_text y m o (h, mi, s) mode toks -> zUntil z = Some (join_char SPC toks) ->
  Forall (fun t => ~ In SPC t) toks -> 0 <= y -> 1 <= m <= 12 -> on_ok y m o -> until_day_ok y o toks ->
  exists u, getUntilDate z = Ok u /\ selects y m o (ymd (zDt u)) /\ (mHours (zDt u), mMinutes (zDt u), mSeconds (zDt u)) = (h, mi, s) /\
    mDateOnly (zDt u) = false /\ mTZUTC (zDt u) = false /\ mTZID (zDt u) = TzNone /\ zMode u = mode.
Proof.
  intros T Eu F Hy Hm Ho Hd. unfold getUntilDate. rewrite Eu.
  assert (HS : exists p r, toks = fmt0 p y :: r) by (destruct T; eauto).
  destruct HS as (p0 & r0 & E0). destruct (fmt0_head p0 y Hy) as (c & r & E & Dc & _).
  assert (J : nonempty (join_char SPC toks) && negb (hash (join_char SPC toks)) = true).
  { assert (X : exists q, join_char SPC toks = c :: q) by (rewrite E0, E; destruct r0; eexists; reflexivity).
    destruct X as (q & ->). cbn [nonempty andb]. rewrite hash_digit by exact Dc. reflexivity. }
  rewrite J. rewrite split_join; [|rewrite E0; discriminate|].
  2:{ eapply Forall_impl; [|exact F]. intros a Ha. apply not_in_cin; exact Ha. }
  clear J Eu. cbv zeta. assert (X : hd [] toks = fmt0 p0 y) by (rewrite E0; reflexivity). rewrite X. clear X. rewrite pyint_fmt0 by exact Hy. cbn [rbind]. clear E0 E Dc c r p0 r0.
  destruct (mon_plain m Hm) as [Hh _].
  remember (h, mi, s) as hms eqn:Ehms.
  destruct T as [p y rest C|p y m rest C|p y m o d rest To C|p y m o d hms mode t rest To Tt]; cbn [tl]; try (injection Ehms as <- <- <-).
  - apply comment_hash in C. destruct rest as [|k rest]; [|rewrite C]; eexists; (split; [reflexivity|]); cbn; auto 10.
  - rewrite Hh, mon_in by exact Hm. cbn [rbind]. apply comment_hash in C.
    destruct rest as [|k rest]; [|rewrite C]; eexists; (split; [reflexivity|]); cbn; auto 10.
  - rewrite Hh, mon_in by exact Hm. cbn [rbind]. apply comment_hash in C.
    destruct (until_day_spec y m o _ d Hm To Ho Hd eq_refl) as ((k & Ek & Sk) & Hk & _). rewrite Hk, Ek. cbn [rbind].
    destruct rest as [|x rest]; [|rewrite C]; eexists; (split; [reflexivity|]); cbn; auto 10.
  - rewrite Hh, mon_in by exact Hm. cbn [rbind].
    destruct (until_day_spec y m o _ d Hm To Ho Hd eq_refl) as ((k & Ek & Sk) & Hk & _). rewrite Hk, Ek. cbn [rbind].
    subst hms. destruct (until_time_spec h mi s mode t Tt) as (Et & Ht & _). rewrite Ht, Et. cbn [rbind].
    eexists; (split; [reflexivity|]); cbn; auto 10.
Qed.
Lemma until_none z : zUntil z = None \/ (exists r, zUntil z = Some ("#"%char :: r)) ->
  getUntilDate z = Ok (mkZdt (newDateTime 9999 12 1 0 0 0 false TzNone) None).
Proof. unfold getUntilDate. intros [-> | (r & ->)]; [reflexivity|]. destruct r; reflexivity. Qed.
