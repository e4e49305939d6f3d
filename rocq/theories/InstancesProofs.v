(** Proofs about the tool that prints instances. *)
From Coq Require Import Lia ZifyBool.
From Verif Require Import PyBase ParserCtx CalSpec CalProofs DateTimeModel DateTimeSpec DateTimeProofs DateTimeProofs2 VTimezoneProofs PeriodModel PeriodSpec RecurModel RecurExpand RecurExpandSpec RecurByPartsSpec InstancesModel InstancesSpec.
From Verif Require RecurMiscProofs RecurByPartsProofs3.

Lemma offset_century d : valid_dt d -> valid_dt (offsetYear d 100) /\ century d (offsetYear d 100).
Proof.
  intro V. pose proof (valid_month d V) as Hm. destruct (offsetYear_year d 100 V) as (A & Y & S). split; [exact A|].
  destruct (normalise_day' d (mYear d + 100) (mMonth d) (mDay d) Hm V) as (_ & B & _). fold (offsetYear d 100) in B. unfold offsetYear in *.
  set (e := normalise (with_ymd d (mYear d + 100) (mMonth d) (mDay d))) in *. unfold same_time in S. injection S as Sh Sm Ss SD SU ST.
  assert (Q : forall y m k, valid_date hist_leap (y, m, k) -> hdn y m k = hdn (mYear e) (mMonth e) (mDay e) -> (mMonth e, mDay e) = (m, k)).
  { intros y m k Vd E. destruct (fields_unique e (with_ymd d y m k)) as [F _].
    - exact A.
    - destruct V as (_ & V1 & V2). split; [exact Vd|]. split; [exact V1|exact V2].
    - symmetry. exact E.
    - unfold secs_of_day. cbn [with_ymd mHours mMinutes mSeconds]. congruence.
    - unfold ymd in F. cbn [with_ymd mYear mMonth mDay] in F. injection F as _ -> ->. reflexivity. }
  split; [split; [exact SD|split; assumption]|]. split; [congruence|]. split; [exact Y|]. split.
  - intro Vd. apply (Q (mYear d + 100)); [exact Vd|auto].
  - intro Nv. destruct V as ((_ & Hd) & _). cbn [ymd] in Hd. unfold valid_date in Nv.
    assert (M : mMonth d = 2 /\ mDay d = 29 /\ hist_leap (mYear d + 100) = false).
    { unfold month_len in *. destruct (Z.eqb_spec (mMonth d) 2) as [E|E].
      - destruct (hist_leap (mYear d)), (hist_leap (mYear d + 100)); try (exfalso; apply Nv; split; lia). split; [exact E|]. split; [|reflexivity].
        destruct (Z.eq_dec (mDay d) 29); [assumption|]. exfalso. apply Nv. lia.
      - exfalso. apply Nv. split; [exact Hm|]. exact Hd. }
    destruct M as (M2 & M29 & L). rewrite M2, M29 in *. split; [reflexivity|]. apply (Q (mYear d + 100)).
    + split; [lia|]. unfold month_len. cbn. lia.
    + rewrite B. unfold hdn, dn. change (upto hist_leap (mYear d + 100) 2) with 31.
      replace (upto hist_leap (mYear d + 100) 3) with 59; [lia|]. unfold upto. cbn. rewrite L. reflexivity.
Qed.
Lemma instant_visible sc d e a : (sc = Dates \/ exists u t, sc = InZone u t) -> visible d = visible e -> instant sc d a -> instant sc e a.
Proof.
  intros K E. assert (Vd : valid_dt d -> valid_dt e) by (unfold valid_dt, visible, secs_of_day in *; injection E as E1 E2 E3 E4 E5 E6 E7 E8 E9; unfold ymd; congruence).
  assert (T : ymd e = ymd d /\ secs_of_day e = secs_of_day d /\ mDateOnly e = mDateOnly d /\ mTZUTC e = mTZUTC d /\ mTZID e = mTZID d)
    by (unfold visible, ymd, secs_of_day in *; injection E as E1 E2 E3 E4 E5 E6 E7 E8 E9; repeat split; congruence).
  destruct T as (T1 & T2 & T3 & T4 & T5). destruct K as [-> | (u & t & ->)]; unfold instant; rewrite T1, ?T2, T3, ?T4, ?T5; tauto.
Qed.
Lemma kind_scale d : kind d = Dates \/ exists u t, kind d = InZone u t.
Proof. unfold kind. destruct (mDateOnly d); eauto. Qed.
Lemma read_zone ctx s d : dt_parseText ctx false s = Ok d -> mTZID d = TzNone.
Proof. intro H. apply DateTimeTextProofs.accepted in H. destruct H as (y & m & dd & tm & _ & _ & _ & _ & _ & ->). destruct tm as [[[[h mi] x] z]|]; reflexivity. Qed.
Lemma instant_of d : (exists k, days_between hist_leap (1970, 1, 1) (ymd d) k) -> valid_dt d -> mTZID d = TzNone -> exists a, instant (kind d) d a.
Proof.
  intros (k & K) V T. unfold kind. destruct (mDateOnly d) eqn:D.
  - exists k. split; [exact V|]. split; [exact D|exact K].
  - eexists. split; [exact V|]. split; [exact D|]. split; [reflexivity|]. split; [exact T|]. exists k. split; [exact K|reflexivity].
Qed.
Lemma days_exist d : valid_dt d -> exists k, days_between hist_leap (1970, 1, 1) (ymd d) k.
Proof.
  intro V. exists (dnd hist_leap Lh (ymd d) - dnd hist_leap Lh (1970, 1, 1)). apply hb; [split; [lia|unfold month_len; cbn; lia]|apply V|lia].
Qed.
Lemma text_visible d e : visible d = visible e -> getText d = getText e.
Proof. unfold visible, ymd. intro H. injection H as H1 H2 H3 H4 H5 H6 H7 H8 H9. unfold getText. rewrite H1, H2, H3, H4, H5, H6, H7, H8, H9. reflexivity. Qed.
Lemma kind_same d e : century d e -> kind e = kind d.
Proof. intros ((A & B & C) & _). unfold kind. rewrite A, B. reflexivity. Qed.
(** The window of the call. *)
Lemma window ctx s d a : dt_parseText ctx false s = Ok d -> instant (kind d) d a ->
  exists e b, century d e /\ instant (kind d) e b /\ instant (kind d) (normalise d) a /\ offsetYear d 100 = e /\ visible (normalise d) = visible d.
Proof.
  intros P I. assert (V : valid_dt d) by apply I. destruct (offset_century d V) as [Ve C]. pose proof C as ((SD & SU & ST) & _).
  destruct (instant_of (offsetYear d 100)) as [b B]; [apply days_exist; exact Ve|exact Ve|rewrite ST; exact (read_zone _ _ _ P)|]. rewrite (kind_same _ _ C) in B.
  exists (offsetYear d 100), b. split; [exact C|]. split; [exact B|]. pose proof (normalise_valid d V) as N. split; [|split; [reflexivity|exact N]].
  apply (instant_visible (kind d) d); [apply kind_scale|symmetry; exact N|exact I].
Qed.
Lemma commas l : join_with (lit ", ") l = with_commas l.
Proof.
  destruct l as [|w r]; [reflexivity|]. revert w. induction r as [|v r IH]; intro w; [cbn; symmetry; apply app_nil_r|].
  change (join_with (lit ", ") (w :: v :: r)) with (w ++ lit ", " ++ join_with (lit ", ") (v :: r)). rewrite IH. cbn [with_commas flat_map]. rewrite <- app_assoc. reflexivity.
Qed.
Lemma simple_tool ctx tzo s rrule d r lim a : dt_parseText ctx false s = Ok d -> rule_parse ctx rrule = Ok r -> hasBy r = false -> instant (kind d) d a -> advances (kind d) r d ->
  until_at (kind d) d 0 r lim ->
  exists e b, century d e /\ instant (kind d) e b /\ exists N, forall fuel, (N <= fuel)%nat -> exists items,
    instances_tool ctx tzo fuel s rrule = Some (printed d rrule items, Ok tt) /\ enumerates (kind d) items (fun x => instances (kind d) r lim d x /\ a <= x < b).
Proof.
  intros P R By I A U. destruct (window ctx s d a P I) as (e & b & C & B & In & E & N). exists e, b. split; [exact C|]. split; [exact B|].
  destruct (RecurMiscProofs.simple_fresh tzo (kind d) 0 r d (newPeriodEnd (normalise d) e) lim a b) as (M & X).
  - split; [unfold kind; destruct (mDateOnly d); discriminate|]. split; [exact By|]. split; [exact A|]. split; [eauto|]. split; [exists e; split; [reflexivity|exact B]|]. split; [exact In|exact U].
  - exists M. intros fuel L. destruct (X fuel L) as (c & items & limited & X1 & X2 & _). exists items. split; [|exact X2].
    unfold instances_tool. rewrite R, P. cbv zeta. rewrite E, X1. unfold printed. rewrite (text_visible _ _ N), commas. reflexivity.
Qed.
Lemma by_tool ctx tzo s rrule d r lim a : dt_parseText ctx false s = Ok d -> rule_parse ctx rrule = Ok r -> hasBy r = true -> instant (kind d) d a -> by_ok (kind d) r ->
  until_at (kind d) d 0 r lim -> clock_ordered tzo (kind d) -> 1902 <= mYear d -> (exists k x, 0 <= k /\ interval_at (kind d) r d a k x /\ mYear d + 100 < mYear x <= 2099) ->
  exists e b, century d e /\ instant (kind d) e b /\ exists N, forall fuel, (N <= fuel)%nat -> exists items,
    instances_tool ctx tzo fuel s rrule = Some (printed d rrule items, Ok tt) /\ lists_in_order (kind d) items (fun x => by_instances (kind d) r lim d a x /\ a <= x < b).
Proof.
  intros P R By I A U O Y K. destruct (window ctx s d a P I) as (e & b & C & B & In & E & N). exists e, b. split; [exact C|]. split; [exact B|].
  destruct (RecurByPartsProofs3.by_parts_le tzo (kind d) 0 r d (newPeriodEnd (normalise d) e) lim a a b) as (M & X).
  - split; [unfold kind; destruct (mDateOnly d); discriminate|]. split; [exact By|]. split; [exact A|]. split; [exact I|]. split; [exact Y|]. split; [|split; [exact In|exact U]].
    exists e. split; [reflexivity|]. split; [exact B|]. destruct K as (k & x & K1 & K2 & K3). exists k, x. split; [exact K1|]. split; [exact K2|]. destruct C as (_ & _ & Ce & _). rewrite Ce. exact K3.
  - exact O.
  - exists M. intros fuel L. destruct (X fuel L) as (c & items & limited & X1 & X2 & _). exists items. split; [|exact X2].
    unfold instances_tool. rewrite R, P. cbv zeta. rewrite E, X1. unfold printed. rewrite (text_visible _ _ N), commas. reflexivity.
Qed.
Lemma refused ctx tzo fuel s rrule : (forall r, rule_parse ctx rrule <> Ok r) \/ (forall d, dt_parseText ctx false s <> Ok d) -> instances_tool ctx tzo fuel s rrule = Some ([], Raise ValueError).
Proof.
  intro H. unfold instances_tool. destruct (RecurTextProofs2.parse_total ctx rrule) as [[r R]|R]; rewrite R; [|reflexivity].
  destruct (dt_parseText ctx false s) as [d|e] eqn:D.
  - exfalso. destruct H as [H|H]; [exact (H r R)|exact (H d eq_refl)].
  - unfold dt_parseText in D. destruct (dt_parse ctx false s newDefault) as [d [u|x]] eqn:X; [discriminate D|]. injection D as ->.
    assert (Y : snd (dt_parse ctx false s newDefault) = Raise e) by (rewrite X; reflexivity). apply DateTimeTextProofs.dt_parse_only_value in Y. subst. reflexivity.
Qed.
(** What is printed is all or nothing. *)
Lemma whole ctx tzo fuel s rrule l u : instances_tool ctx tzo fuel s rrule = Some (l, u) ->
  (exists e, l = [] /\ u = Raise e) \/ exists d r items, u = Ok tt /\ dt_parseText ctx false s = Ok d /\ rule_parse ctx rrule = Ok r /\ l = printed (normalise d) rrule items.
Proof.
  unfold instances_tool. destruct (rule_parse ctx rrule) as [r|e]; [|intro H; injection H as <- <-; left; eauto].
  destruct (dt_parseText ctx false s) as [d|e]; [|intro H; injection H as <- <-; left; eauto]. cbv zeta.
  destruct (expand tzo fuel r cache_init d (newPeriodEnd (normalise d) (offsetYear d 100)) 0 None) as [[c [items [b|e]]]|]; intro H; [|injection H as <- <-; left; eauto|discriminate H].
  injection H as <- <-. right. exists d, r, items. rewrite commas. repeat split.
Qed.
(** An hourly rule from a date on. *)
Definition century20 : period := newPeriodEnd (normalise RecurMiscProofs.day1) (offsetYear RecurMiscProofs.day1 100).
Lemma hourly_tool tzo fuel : instances_tool default_ctx tzo fuel (lit "20200101") (lit "FREQ=HOURLY") = None.
Proof.
  unfold instances_tool. assert (R : rule_parse default_ctx (lit "FREQ=HOURLY") = Ok RecurMiscProofs.hourly) by (vm_compute; reflexivity). rewrite R.
  assert (D : dt_parseText default_ctx false (lit "20200101") = Ok RecurMiscProofs.day1) by (vm_compute; reflexivity). rewrite D. cbv zeta. fold century20.
  rewrite RecurMiscProofs.expand_new. assert (X : forall ctr items, simple_loop tzo fuel RecurMiscProofs.hourly century20 None None (normalise RecurMiscProofs.day1) ctr items = None).
  { induction fuel as [|n IH]; intros ctr items; [reflexivity|]. cbn [simple_loop].
    assert (A : isDateAfterPeriod tzo century20 (normalise RecurMiscProofs.day1) = Ok false) by reflexivity. rewrite A. cbn [too_many].
    assert (Sk : skip_invalid n (rFreq RecurMiscProofs.hourly) (rInterval RecurMiscProofs.hourly) (recur (normalise RecurMiscProofs.day1) (rFreq RecurMiscProofs.hourly) (rInterval RecurMiscProofs.hourly) true) = Some (Ok (normalise RecurMiscProofs.day1))) by (destruct n; reflexivity).
    rewrite Sk. apply IH. }
  assert (Y : compute tzo fuel RecurMiscProofs.hourly (normalise RecurMiscProofs.day1) century20 0 None = simple_loop tzo fuel RecurMiscProofs.hourly century20 None None (normalise RecurMiscProofs.day1) 0 []) by reflexivity.
  rewrite Y, X. reflexivity.
Qed.
