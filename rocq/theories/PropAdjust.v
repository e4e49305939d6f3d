(** Properties of moving a date-time to another time zone: C62. *)
From Coq Require Import Lia Sorting.Permutation.
From Verif Require CalTzProofs.
From Verif Require Import PyBase CalSpec DateTimeModel DateTimeSpec DateTimeSpec2 PeriodModel PeriodSpec RecurSetModel RecurUnionSpec VTimezoneModel VTimezoneSpec
  RecurCacheProofs AdjustSpec AdjustProofs PropRecur2 PropRecur4 PropRecur5 PropTimezone.

(** adjustToUTC of a time in a zone: the time in UTC, which is the same posix time. *)
Theorem C62_to_utc : forall tzo t d x, tz_true t = true -> instant (InZone false t) d x -> honest tzo d ->
  instant (InZone true TzNone) (adjustToUTC tzo d) (x - zone_offset tzo (false, t) d).
Proof. exact to_utc. Qed.
Print Assumptions C62_to_utc.
Theorem C62_utc_posix : forall tzo t d x, tz_true t = true -> instant (InZone false t) d x -> honest tzo d ->
  1901 <= mYear d <= 2100 -> 1901 <= mYear (adjustToUTC tzo d) <= 2100 ->
  snd (getPosixTime tzo (adjustToUTC tzo d)) = snd (getPosixTime tzo d).
Proof. exact to_utc_posix. Qed.
Print Assumptions C62_utc_posix.

(** adjustTimezone to another zone: the time in UTC is moved by what the new zone is ahead then. *)
Theorem C62_to_zone : forall tzo u0 t0 d x u t, instant (InZone u0 t0) d x -> honest tzo d -> (u0, t0) <> (u, t) ->
  exists m, instant (InZone true TzNone) m (x - ahead tzo u0 t0 d) /\
    instant (InZone u t) (adjustTimezone tzo d u t) (x - ahead tzo u0 t0 d + utc_offset tzo (u, t) m).
Proof. exact to_zone. Qed.
Print Assumptions C62_to_zone.

(** Nothing changes if it is in that zone already. *)
Theorem C62_same : forall tzo d, adjustTimezone tzo d (mTZUTC d) (mTZID d) = d.
Proof. intros tzo d. unfold adjustTimezone. rewrite Bool.eqb_reflx. assert (E : tz_eqb (mTZID d) (mTZID d) = true) by (apply CalTzProofs.tz_eqb_eq; reflexivity). rewrite E. reflexivity. Qed.
Print Assumptions C62_same.

(** It is the same posix time, and moving back gives the time in UTC, if the zone has the same offset whether asked about
    the local or about the UTC time. *)
Theorem C62_keeps : forall tzo u0 t0 d x u t, instant (InZone u0 t0) d x -> honest tzo d -> (u0, t0) <> (u, t) ->
  negb u0 && negb (tz_true t0) = false -> negb u && negb (tz_true t) = false ->
  1901 <= mYear d <= 2100 -> 1901 <= mYear (adjustTimezone tzo d u t) <= 2100 ->
  (forall m, instant (InZone true TzNone) m (x - ahead tzo u0 t0 d) -> zone_offset tzo (u, t) (adjustTimezone tzo d u t) = utc_offset tzo (u, t) m) ->
  snd (getPosixTime tzo (adjustTimezone tzo d u t)) = snd (getPosixTime tzo d) /\
  (u0 = true -> visible (adjustTimezone tzo (adjustTimezone tzo d u t) u0 t0) = visible d).
Proof. exact keeps. Qed.
Print Assumptions C62_keeps.

(** In a zone where each change starts from the offset that the one before leads to: the local time v that belongs to the
    UTC time u, from the change on and, if the clock is set back, from the end of the repeated time on, has the same
    offset. *)
Theorem C62_agree : forall es u o x f v, chained es -> utc_ordered es -> unambiguous es true ->
  onset es x f o -> x - f <= u -> (forall y g p, onset es y g p -> y - g <= u -> y - g <= x - f) -> f - o <= u - (x - f) ->
  in_force es false (u + o) v -> v = o.
Proof. exact agree. Qed.
Print Assumptions C62_agree.

(** So a time that is moved to a zone of this kind stays the same instant, once the repeated time is over. *)
Theorem C62_instant : forall tzo u0 t0 d x n es, instant (InZone u0 t0) d x -> honest tzo d -> (u0, t0) <> (false, TzName n) -> n <> [] ->
  negb u0 && negb (tz_true t0) = false ->
  1901 <= mYear d <= 2100 -> 1901 <= mYear (adjustTimezone tzo d false (TzName n)) <= 2100 ->
  chained es -> utc_ordered es -> unambiguous es true -> settled es (x - ahead tzo u0 t0 d) ->
  (forall m, instant (InZone true TzNone) m (x - ahead tzo u0 t0 d) -> answers tzo (TzName n) es true m) ->
  answers tzo (TzName n) es false (adjustTimezone tzo d false (TzName n)) ->
  snd (getPosixTime tzo (adjustTimezone tzo d false (TzName n))) = snd (getPosixTime tzo d) /\
  (u0 = true -> visible (adjustTimezone tzo (adjustTimezone tzo d false (TzName n)) u0 t0) = visible d).
Proof. exact zone_keeps. Qed.
Print Assumptions C62_instant.

(** ** Examples: New York in 1970, asked through the model of the code *)
Definition one_year : list elem :=
  [once (local_at 1970 10 25 2) (-14400) (-18000) (lit "EST"); once (local_at 1970 4 26 2) (-18000) (-14400) (lit "EDT")].
Definition lookup_in (es : list elem) : tzid -> Z -> Z -> Z -> Z -> Z -> Z -> bool -> bool -> Z :=
  fun _ y m d h mi s _ rel =>
    match getTimezoneOffsetSeconds no_zones same same 9 (vtz_init es) (newDateTime y m d h mi s false TzNone) rel with Some (_, Ok v) => v | _ => 0 end.
Definition ny := lookup_in one_year.
Definition in_ny (m d h mi : Z) : dt := newDateTime 1970 m d h mi 0 false (TzName (lit "New York")).
Lemma ny_is m d h mi k : valid_dt (in_ny m d h mi) -> days_between hist_leap (1970, 1, 1) (1970, m, d) k ->
  instant (InZone false (TzName (lit "New York"))) (in_ny m d h mi) (86400 * k + 3600 * h + 60 * mi).
Proof.
  intros V D. split; [exact V|]. split; [reflexivity|]. split; [reflexivity|]. split; [reflexivity|]. exists k. split; [exact D|].
  unfold secs_of_day. cbn [in_ny newDateTime mHours mMinutes mSeconds]. lia.
Qed.
Lemma new_honest tzo y m d h mi s u t : honest tzo (newDateTime y m d h mi s u t).
Proof. split; discriminate. Qed.
Ltac ny_at := apply ny_is; [repeat split; vm_compute; congruence|left; split; [lia|vm_compute; reflexivity]].
Example C62_to_utc_ex : instant (InZone false (TzName (lit "New York"))) (in_ny 7 1 9 30) (86400 * 181 + 3600 * 9 + 60 * 30) /\ honest ny (in_ny 7 1 9 30) /\
  visible (adjustToUTC ny (in_ny 7 1 9 30)) = visible (newDateTime 1970 7 1 13 30 0 true TzNone).
Proof. split; [ny_at|]. split; [apply new_honest|]. vm_compute. reflexivity. Qed.
(** Its posix time was asked for before, and is kept. *)
Example C62_utc_posix_ex : let d := fst (getPosixTime ny (in_ny 7 1 9 30)) in mPosixTimeCached d = true /\ honest ny d /\
  instant (InZone false (TzName (lit "New York"))) d (86400 * 181 + 3600 * 9 + 60 * 30) /\
  snd (getPosixTime ny (adjustToUTC ny d)) = Ok 15687000.
Proof.
  split; [vm_compute; reflexivity|]. split; [split; vm_compute; congruence|]. split; [|vm_compute; reflexivity].
  split; [repeat split; vm_compute; congruence|].
  split; [reflexivity|]. split; [reflexivity|]. split; [reflexivity|]. exists 181. split; [left; split; [lia|vm_compute; reflexivity]|vm_compute; reflexivity].
Qed.
Example C62_same_ex : adjustTimezone ny (in_ny 7 1 9 30) false (TzName (lit "New York")) = in_ny 7 1 9 30.
Proof. exact (C62_same ny (in_ny 7 1 9 30)). Qed.
Example C62_to_zone_ex : instant (InZone true TzNone) (utc 1970 7 1 13) (86400 * 181 + 3600 * 13) /\
  visible (adjustTimezone ny (utc 1970 7 1 13) false (TzName (lit "New York"))) = visible (in_ny 7 1 9 0).
Proof.
  split; [|vm_compute; reflexivity]. apply utc_at; [repeat split; vm_compute; congruence|left; split; [lia|vm_compute; reflexivity]].
Qed.
Lemma utc_only m x : instant (InZone true TzNone) m x -> forall y mo d h, instant (InZone true TzNone) (utc y mo d h) x ->
  utc_offset ny (false, TzName (lit "New York")) m = utc_offset ny (false, TzName (lit "New York")) (utc y mo d h).
Proof.
  intros I y mo d h J. assert (NO : InZone true TzNone <> Offsets) by discriminate. destruct (instant_same _ _ _ _ NO I J) as [A B]. unfold ymd in A. injection A as A1 A2 A3. injection B as B1 B2 B3.
  unfold utc_offset. cbn [fst snd]. destruct I as [_ (-> & _)], J as [_ (-> & _)]. rewrite A1, A2, A3, B1, B2, B3. reflexivity.
Qed.
Example C62_keeps_ex : let d := utc 1970 7 1 13 in let t := TzName (lit "New York") in
  (forall m, instant (InZone true TzNone) m (86400 * 181 + 3600 * 13 - ahead ny true TzNone d) ->
     zone_offset ny (false, t) (adjustTimezone ny d false t) = utc_offset ny (false, t) m) /\
  snd (getPosixTime ny (adjustTimezone ny d false t)) = snd (getPosixTime ny d) /\
  visible (adjustTimezone ny (adjustTimezone ny d false t) true TzNone) = visible d.
Proof.
  intros d t. split; [|vm_compute; auto]. intros m I. unfold t. rewrite (utc_only m _ I 1970 7 1 13); [vm_compute; reflexivity|].
  unfold ahead. cbn [negb andb]. rewrite Z.sub_0_r. apply C62_to_zone_ex.
Qed.
Lemma ny_onsets x f o : onset one_year x f o <-> (x, f, o) = (86400 * 297 + 3600 * 2, -14400, -18000) \/ (x, f, o) = (86400 * 115 + 3600 * 2, -18000, -14400).
Proof.
  assert (I1 : instant local_time (local_at 1970 10 25 2) (86400 * 297 + 3600 * 2)) by date_is.
  assert (I2 : instant local_time (local_at 1970 4 26 2) (86400 * 115 + 3600 * 2)) by date_is.
  split.
  - intros (e & [<-|[<-|[]]] & H); [apply (once_onset _ _ _ _ _ _ _ _ I1) in H|apply (once_onset _ _ _ _ _ _ _ _ I2) in H]; destruct H as (-> & -> & ->); auto.
  - intros [H|H]; injection H as -> -> ->; [exists (once (local_at 1970 10 25 2) (-14400) (-18000) (lit "EST"))|exists (once (local_at 1970 4 26 2) (-18000) (-14400) (lit "EDT"))];
      (split; [cbn; auto|]); eapply once_onset; eauto.
Qed.
Example C62_agree_ex : chained one_year /\ utc_ordered one_year /\ unambiguous one_year true /\
  let u := 86400 * 297 + 3600 * 7 in (* 7 o'clock UTC on 25 October: 2 o'clock in winter time *)
  let x := 86400 * 297 + 3600 * 2 in
  onset one_year x (-14400) (-18000) /\ x - -14400 <= u /\ (forall y g p, onset one_year y g p -> y - g <= u -> y - g <= x - -14400) /\
  -14400 - -18000 <= u - (x - -14400) /\ in_force one_year false (u + -18000) (-18000).
Proof.
  split; [|split; [|split]].
  - intros x f o y g o' O O' L _. apply ny_onsets in O as [O|O], O' as [O'|O']; injection O as -> -> ->; injection O' as -> -> ->; lia.
  - intros x f o y g o' O O' L. apply ny_onsets in O as [O|O], O' as [O'|O']; injection O as -> -> ->; injection O' as -> -> ->; lia.
  - intros x f o y g o' O O' L. unfold change_at in L. apply ny_onsets in O as [O|O], O' as [O'|O']; injection O as -> -> ->; injection O' as -> -> ->; lia.
  - intros u x. split; [apply ny_onsets; auto|]. split; [unfold x, u; lia|]. split; [|split; [unfold x, u; lia|]].
    + intros y g p O. unfold x, u. apply ny_onsets in O as [O|O]; injection O as -> -> ->; lia.
    + right. exists x, (-14400). split; [apply ny_onsets; auto|]. unfold change_at, x, u. split; [lia|]. intros y g p O. apply ny_onsets in O as [O|O]; injection O as -> -> ->; lia.
Qed.

(** The first second after the repeated hour. *)
Example C62_instant_ex : let d := utc 1970 10 25 7 in let x := 86400 * 297 + 3600 * 7 in let n := lit "New York" in
  instant (InZone true TzNone) d x /\ chained one_year /\ utc_ordered one_year /\ unambiguous one_year true /\ settled one_year (x - ahead ny true TzNone d) /\
  (forall m, instant (InZone true TzNone) m (x - ahead ny true TzNone d) -> answers ny (TzName n) one_year true m) /\
  answers ny (TzName n) one_year false (adjustTimezone ny d false (TzName n)) /\
  visible (adjustTimezone ny d false (TzName n)) = visible (in_ny 10 25 2 0) /\ snd (getPosixTime ny (adjustTimezone ny d false (TzName n))) = Ok x.
Proof.
  intros d x n. destruct C62_agree_ex as (Ch & Or & Un & On & Le & La & Re & Fo).
  assert (I : instant (InZone true TzNone) d x) by (apply utc_at; [repeat split; vm_compute; congruence|left; split; [lia|vm_compute; reflexivity]]).
  assert (NO : InZone true TzNone <> Offsets) by discriminate.
  split; [exact I|]. do 3 (split; [assumption|]). split; [exists (86400 * 297 + 3600 * 2), (-14400), (-18000); auto|].
  split; [|split; [|split; vm_compute; reflexivity]].
  - intros m Im t Ht. replace (x - ahead ny true TzNone d) with x in Im by (unfold ahead; cbn; lia).
    destruct (instant_same _ _ _ _ NO Im I) as [A B]. unfold ymd in A. injection A as A1 A2 A3. injection B as B1 B2 B3. pose proof Im as [_ (D & _)].
    rewrite A1, A2, A3, B1, B2, B3, D. assert (t = x).
    { destruct Ht as (k & K & ->). destruct Im as [V (_ & _ & _ & k' & K' & E)]. apply (PeriodProofs.db_hdn no_zones) in K, K'; try assumption. unfold secs_of_day in E. lia. }
    subst t. match goal with |- in_force _ _ _ ?v => replace v with (-18000) by (vm_compute; reflexivity) end.
    right. exists (86400 * 297 + 3600 * 2), (-14400). split; [exact On|]. split; [exact Le|]. exact La.
  - assert (E : adjustTimezone ny d false (TzName n) = in_ny 10 25 2 0) by (vm_compute; reflexivity). rewrite E.
    assert (J : instant (InZone false (TzName (lit "New York"))) (in_ny 10 25 2 0) (86400 * 297 + 3600 * 2 + 60 * 0)) by ny_at.
    intros t (k & K & ->). destruct J as [V (_ & _ & _ & k' & K' & X)]. apply (PeriodProofs.db_hdn no_zones) in K, K'; try assumption.
    unfold secs_of_day in X. replace (86400 * k + _ + _ + _) with (86400 * 297 + 3600 * 2) by lia.
    match goal with |- in_force _ _ _ ?v => replace v with (-18000) by (vm_compute; reflexivity) end. exact Fo.
Qed.

(** ** What does not hold *)

(** In the hour that is repeated when the clock is set back, the time in the zone is an hour early. *)
Theorem C62_repeated_refuted : exists d p, d = newDateTime 1970 10 25 6 30 0 true TzNone /\ snd (getPosixTime ny d) = Ok p /\
  let d' := adjustTimezone ny d false (TzName (lit "New York")) in
  visible d' = visible (in_ny 10 25 1 30) /\ snd (getPosixTime ny d') = Ok (p - 3600) /\
  visible (adjustTimezone ny d' true TzNone) = visible (newDateTime 1970 10 25 5 30 0 true TzNone).
Proof. eexists. eexists. split; [reflexivity|]. split; [vm_compute; reflexivity|]. vm_compute. repeat split. Qed.
Print Assumptions C62_repeated_refuted.

(** A date that is moved to a zone behind UTC becomes the day before. *)
Theorem C62_date_refuted : exists d, mDateOnly d = true /\ visible d = visible (newDate 1970 7 1 false TzNone) /\
  visible (adjustTimezone ny d false (TzName (lit "New York"))) = visible (newDate 1970 6 30 false (TzName (lit "New York"))).
Proof. exists (newDate 1970 7 1 false TzNone). split; [reflexivity|]. split; [reflexivity|]. vm_compute. reflexivity. Qed.
Print Assumptions C62_date_refuted.

(** A floating time is taken for UTC, not for a time on the clock of the zone. *)
Theorem C62_floating_refuted : exists d, floating d = true /\ visible d = visible (newDateTime 1970 7 1 9 0 0 false TzNone) /\
  visible (adjustTimezone ny d false (TzName (lit "New York"))) = visible (in_ny 7 1 5 0) /\
  adjustToUTC ny d = d.
Proof. exists (newDateTime 1970 7 1 9 0 0 false TzNone). split; [reflexivity|]. split; [reflexivity|]. vm_compute. repeat split. Qed.
Print Assumptions C62_floating_refuted.
