(** Proofs about sorting by posix time, BYSETPOS and the shape of the set generators. *)
From Coq Require Import Lia ZifyBool ZifyNat Sorting.Permutation Sorting.Sorted.
From Verif Require Import PyBase PyProofs CalModel CalSpec DateTimeModel DateTimeSpec CalProofs DateTimeProofs DateTimeProofs2
  DateTimeProofs3 RecurModel RecurSpec RecurTextProofs RecurTextProofs2 RecurExpand RecurSetSpec RecurSetProofs PropDateProofs.
Ltac Zify.zify_post_hook ::= Z.div_mod_to_equations.

Section WithTz.
Variable tzo : tzid -> Z -> Z -> Z -> Z -> Z -> Z -> bool -> bool -> Z.

(** ** posix_key *)
Lemma posix_key_spec d p d1 : posix_key tzo d = Ok (p, d1) ->
  visible d1 = visible d /\ snd (getPosixTime tzo d) = Ok p /\ snd (getPosixTime tzo d1) = Ok p /\ posix_key tzo d1 = Ok (p, d1).
Proof.
  unfold posix_key, getPosixTime.
  destruct (negb (mPosixTimeCached d) || floating d) eqn:B.
  - destruct (daysSince1970 d) as [n|] eqn:N; [|discriminate].
    unfold timeZoneSecondsOffset. destruct (mTZUTC d) eqn:U.
    + cbn [rbind]. intro H. injection H as <- <-. split; [reflexivity|]. split; [reflexivity|].
      assert (F : floating (with_posix d true ((mHours d * 60 + mMinutes d) * 60 + mSeconds d + n * 24 * 60 * 60 - 0)) = false).
      { unfold floating. cbn. rewrite U. reflexivity. }
      rewrite F. cbn [with_posix mPosixTimeCached negb orb snd rbind mPosixTime]. split; reflexivity.
    + destruct (mTZOffset d) as [o|] eqn:O; cbn [rbind]; intro H; injection H as <- <-;
      (split; [destruct d; reflexivity|]); (split; [reflexivity|]);
      cbn [with_posix with_tzoff mPosixTimeCached negb orb];
      match goal with |- context [floating ?x] => destruct (floating x) eqn:F end;
      try (split; reflexivity);
      match goal with |- context [daysSince1970 ?x] => change (daysSince1970 x) with (daysSince1970 d) end;
      rewrite N; destruct d; cbn in *; subst; split; reflexivity.
  - cbn [rbind]. intro H. injection H as <- <-. rewrite B. auto.
Qed.

Lemma posix_key_ok d : 1 <= mMonth d <= 12 -> exists k, posix_key tzo d = Ok k.
Proof.
  intro Hm. unfold posix_key, getPosixTime. destruct (negb (mPosixTimeCached d) || floating d).
  - destruct (getDayOfWeek d) as [w|] eqn:E; [|rewrite getDayOfWeek_ok in E by exact Hm; discriminate].
    unfold getDayOfWeek in E. destruct (daysSince1970 d) as [n|]; [|discriminate].
    destruct (timeZoneSecondsOffset tzo d false) as [d1 o]. cbn [rbind]. eauto.
  - cbn [rbind]. eauto.
Qed.

(** ** Sorting *)
Definition klt (a b : Z * dt) : bool := fst a <? fst b.
Definition kle (a b : Z * dt) : Prop := fst a <= fst b.

Lemma k_insert x l : StronglySorted kle l -> StronglySorted kle (insert klt x l).
Proof.
  induction l as [|y l IH]; cbn [insert]; intro S; [repeat constructor|].
  inversion S as [|? ? S' F]; subst. unfold klt at 1. destruct (Z.ltb_spec (fst y) (fst x)) as [L|L].
  - constructor; [auto|]. apply Forall_forall. intros z Hz.
    apply (Permutation_in _ (Permutation_sym (insert_perm _ klt x l))) in Hz. destruct Hz as [<-|Hz].
    + unfold kle. lia.
    + rewrite Forall_forall in F. auto.
  - constructor; [exact S|]. constructor; [exact L|]. apply Forall_forall. intros z Hz. rewrite Forall_forall in F.
    specialize (F z Hz). unfold kle in *. lia.
Qed.
Lemma k_sorted l : StronglySorted kle (isort klt l).
Proof. induction l; cbn; [constructor|]. apply k_insert. assumption. Qed.
Lemma k_id l : StronglySorted kle l -> isort klt l = l.
Proof.
  induction l as [|x l IH]; intro S; [reflexivity|]. inversion S as [|? ? S' F]; subst. cbn [isort]. rewrite IH by exact S'.
  destruct l as [|y l]; [reflexivity|]. cbn [insert]. unfold klt. inversion F as [|? ? L _]; subst. unfold kle in L.
  destruct (Z.ltb_spec (fst y) (fst x)); [lia|reflexivity].
Qed.

(** A value with its posix time cached. *)
Definition keyed (k : Z * dt) : Prop := posix_key tzo (snd k) = Ok k.

Notation sorted_at := (in_order tzo).

Lemma keys_spec ds ks : mapr (posix_key tzo) ds = Ok ks -> map visible (map snd ks) = map visible ds /\ Forall keyed ks.
Proof.
  revert ks; induction ds as [|d t IH]; cbn [mapr]; intros ks H; [injection H as <-; split; [reflexivity|constructor]|].
  destruct (posix_key tzo d) as [[p d1]|] eqn:K; [|discriminate]. cbn [rbind] in H.
  destruct (mapr (posix_key tzo) t) as [r|]; [|discriminate]. cbn [rbind] in H. injection H as <-.
  destruct (IH r eq_refl) as [A B]. apply posix_key_spec in K as (V & _ & _ & K). cbn [map snd]. rewrite V, A.
  split; [reflexivity|]. constructor; [exact K|exact B].
Qed.
Lemma keyed_map ks : Forall keyed ks -> mapr (posix_key tzo) (map snd ks) = Ok ks.
Proof. induction 1 as [|k t K _ IH]; [reflexivity|]. cbn [map mapr]. rewrite K. cbn [rbind]. rewrite IH. reflexivity. Qed.

Lemma keyed_posix k : keyed k -> snd (getPosixTime tzo (snd k)) = Ok (fst k).
Proof. destruct k as [p d]. intro K. apply posix_key_spec in K as (_ & _ & K & _). exact K. Qed.

Lemma sort_keys ds o : sort_posix tzo ds = Ok o ->
  exists ks, o = map snd ks /\ Forall keyed ks /\ StronglySorted kle ks /\ Permutation (map visible ds) (map visible o).
Proof.
  unfold sort_posix. destruct (mapr (posix_key tzo) ds) as [ks|] eqn:E; [|discriminate]. cbn [rbind]. intro H. injection H as <-.
  apply keys_spec in E as [V K]. exists (isort klt ks). split; [reflexivity|].
  pose proof (isort_perm _ klt ks) as P. split; [|split].
  - eapply Permutation_Forall; [exact P|exact K].
  - apply k_sorted.
  - rewrite <- V. apply Permutation_map, Permutation_map, P.
Qed.
Lemma keys_sorted ks : Forall keyed ks -> StronglySorted kle ks -> sorted_at (map snd ks).
Proof.
  intros K S. revert K. induction S as [|k t S IH F]; intro K; [constructor|]. inversion K as [|? ? K1 K2]; subst.
  cbn [map]. constructor; [apply IH; exact K2|]. rewrite Forall_forall in F, K2. apply Forall_forall. intros d Hd. apply in_map_iff in Hd as (k' & <- & Hk').
  exists (fst k), (fst k'). rewrite !keyed_posix by auto. split; [reflexivity|]. split; [reflexivity|]. apply (F k' Hk').
Qed.
Lemma sort_ok ds : (forall d, In d ds -> 1 <= mMonth d <= 12) -> exists o, sort_posix tzo ds = Ok o.
Proof.
  intro H. unfold sort_posix. assert (exists ks, mapr (posix_key tzo) ds = Ok ks) as [ks ->]; [|eexists; reflexivity].
  induction ds as [|d t IH]; [eexists; reflexivity|]. cbn [mapr].
  destruct (posix_key_ok d) as [k ->]; [apply H; left; reflexivity|]. destruct IH as [ks ->]; [intros; apply H; right; assumption|].
  eexists; reflexivity.
Qed.
Lemma sort_desc ds o (S : dt -> Prop) : (forall x y, visible x = visible y -> S y -> S x) -> sort_posix tzo ds = Ok o -> describes ds S -> describes o S.
Proof.
  intros I H [A B]. apply sort_keys in H as (_ & _ & _ & _ & P). split.
  - intros e He. apply (in_map visible) in He. apply (Permutation_in _ (Permutation_sym P)) in He.
    apply in_map_iff in He as (x & V & Hx). apply (I e x); [symmetry; exact V|apply A, Hx].
  - intros e He. destruct (B e He) as (x & Hx & V). apply (in_map visible) in Hx. apply (Permutation_in _ P) in Hx.
    apply in_map_iff in Hx as (y & Vy & Hy). exists y. split; [exact Hy|congruence].
Qed.

(** ** BYSETPOS *)
Lemma set_pos_spec l i :
  (exists x, set_pos l i = [x] /\ at_position l i x) \/ (set_pos l i = [] /\ forall x, ~ at_position l i x).
Proof.
  unfold set_pos, at_position. destruct (Z.ltb_spec 0 i).
  - destruct (Z.leb_spec i (Z.of_nat (List.length l))).
    + destruct (nth_error l (Z.to_nat (i - 1))) as [x|] eqn:E.
      * left. exists x. auto.
      * exfalso. apply nth_error_None in E. lia.
    + right. split; [reflexivity|]. intros x [[_ E]|[? _]]; [|lia].
      assert (nth_error l (Z.to_nat (i - 1)) <> None) as E' by congruence. apply nth_error_Some in E'. lia.
  - destruct (Z.ltb_spec i 0); [|right; split; [reflexivity|intros x [[? _]|[? _]]; lia]].
    destruct (Z.leb_spec (- i) (Z.of_nat (List.length l))).
    + assert (R : nth_error (rev l) (Z.to_nat (- i - 1)) = nth_error l (Z.to_nat (Z.of_nat (List.length l) + i))).
      { destruct l as [|x0 l0]; [cbn in *; lia|]. set (l := x0 :: l0) in *.
        rewrite (nth_error_nth' (rev l) x0) by (rewrite rev_length; lia).
        rewrite rev_nth by lia. rewrite (nth_error_nth' l x0) by lia. do 2 f_equal. lia. }
      rewrite R. destruct (nth_error l (Z.to_nat (Z.of_nat (List.length l) + i))) as [x|] eqn:E.
      * left. exists x. auto.
      * exfalso. apply nth_error_None in E. lia.
    + right. split; [reflexivity|]. intros x [[? _]|[_ E]]; [lia|].
      assert (nth_error (rev l) (Z.to_nat (- i - 1)) <> None) as E' by congruence. apply nth_error_Some in E'.
      rewrite rev_length in E'. lia.
Qed.

Lemma set_pos_incl l i x : In x (set_pos l i) -> In x l.
Proof.
  destruct (set_pos_spec l i) as [(y & -> & P)|[-> _]]; [|intros []]. intros [<-|[]].
  destruct P as [[_ P]|[_ P]]; apply nth_error_In in P; [exact P|]. apply in_rev. exact P.
Qed.
Lemma set_pos_nil l : flat_map (set_pos []) l = [].
Proof.
  induction l as [|i t IH]; [reflexivity|]. cbn [flat_map]. rewrite IH, app_nil_r.
  destruct (set_pos [] i) as [|x r] eqn:E; [reflexivity|]. destruct (set_pos_incl [] i x). rewrite E. left. reflexivity.
Qed.

Lemma setpos_spec l ds o : bySetPosLimit tzo l ds = Ok o ->
  exists full ps, sort_posix tzo ds = Ok full /\ picks full l ps /\ o = List.concat ps.
Proof.
  unfold bySetPosLimit. destruct (sort_posix tzo ds) as [full|]; [|discriminate]. cbn [rbind]. intro H. injection H as <-.
  exists full, (map (set_pos full) l). split; [reflexivity|]. split; [|apply flat_map_concat_map].
  induction l; [constructor|]. constructor; [apply set_pos_spec|assumption].
Qed.

Lemma keyed_sub ks o : (forall x, In x o -> In x (map snd ks)) -> Forall keyed ks -> exists ks', o = map snd ks' /\ Forall keyed ks'.
Proof.
  intros I K. induction o as [|x t IH]; [exists []; split; [reflexivity|constructor]|].
  destruct IH as (ks' & -> & K'); [intros; apply I; right; assumption|].
  destruct (proj1 (in_map_iff _ _ _) (I x (or_introl eq_refl))) as (k & <- & Hk).
  exists (k :: ks'). split; [reflexivity|]. constructor; [|exact K']. rewrite Forall_forall in K. auto.
Qed.

(** Sorting values whose posix time is cached only permutes them. *)
Lemma sort_keyed ks o : Forall keyed ks -> sort_posix tzo (map snd ks) = Ok o ->
  Permutation (map snd ks) o /\ sorted_at o.
Proof.
  intros K H. unfold sort_posix in H. rewrite keyed_map in H by exact K. cbn [rbind] in H. injection H as <-.
  pose proof (isort_perm _ klt ks) as P. split; [apply Permutation_map; exact P|].
  apply keys_sorted; [eapply Permutation_Forall; [exact P|exact K]|apply k_sorted].
Qed.
Lemma sort_sorted ds o : sort_posix tzo ds = Ok o -> sorted_at o.
Proof. intro H. apply sort_keys in H as (ks & -> & K & S & _). apply keys_sorted; assumption. Qed.

(** ** The shape of the generators: everything before BYSETPOS, then finish_set *)
Definition pre_yearly (r : rule) (s : dt) : res (list dt) :=
  do ds <- part (rByMonth r) byMonthExpand [s];
  do ds <- part (rByWeekNo r) byWeekNoExpand ds;
  do ds <- part (rByYearDay r) byYearDayExpand ds;
  do ds <- part (rByMonthDay r) byMonthDayExpand ds;
  do ds <- part (rByDay r)
    (if has (rByYearDay r) || has (rByMonthDay r) then byDayLimit
     else if has (rByWeekNo r) then byDayExpandWeekly (rWeekstart r)
     else if has (rByMonth r) then byDayExpandMonthly
     else byDayExpandYearly) ds;
  do ds <- part (rByHours r) byHourExpand ds;
  do ds <- part (rByMinutes r) byMinuteExpand ds;
  part (rBySeconds r) bySecondExpand ds.
Definition pre_monthly (r : rule) (s : dt) : res (list dt) :=
  do ds <- part (rByMonth r) byMonthLimit [s];
  do ds <- part (rByMonthDay r) byMonthDayExpand ds;
  do ds <- part (rByDay r) (if has (rByYearDay r) || has (rByMonthDay r) then byDayLimit else byDayExpandMonthly) ds;
  do ds <- part (rByHours r) byHourExpand ds;
  do ds <- part (rByMinutes r) byMinuteExpand ds;
  part (rBySeconds r) bySecondExpand ds.
Definition pre_weekly (r : rule) (s : dt) : res (list dt) :=
  do ds <- part (rByMonth r) byMonthLimit [s];
  do ds <- part (rByWeekNo r) byWeekNoLimit ds;
  do ds <- part (rByDay r) (byDayExpandWeekly (rWeekstart r)) ds;
  do ds <- part (rByHours r) byHourExpand ds;
  do ds <- part (rByMinutes r) byMinuteExpand ds;
  part (rBySeconds r) bySecondExpand ds.
Definition pre_fine (r : rule) (s : dt) : res (list dt) :=
  do ds <- part (rByMonth r) byMonthLimit [s];
  do ds <- part (rByWeekNo r) byWeekNoLimit ds;
  do ds <- part (rByMonthDay r) byMonthDayLimit ds;
  do ds <- part (rByDay r) byDayLimit ds;
  do ds <- part (rByHours r) (if hours_free (rFreq r) then byHourExpand else byHourLimit) ds;
  do ds <- part (rByMinutes r) (if minutes_free (rFreq r) then byMinuteExpand else byMinuteLimit) ds;
  part (rBySeconds r) (if seconds_free (rFreq r) then bySecondExpand else bySecondLimit) ds.
Definition pre_set (r : rule) (s : dt) : res (list dt) :=
  match rFreq r with
  | YEARLY => pre_yearly r s
  | MONTHLY => pre_monthly r s
  | WEEKLY => pre_weekly r s
  | _ => pre_fine r s
  end.

Lemma finish_nil r : finish_set tzo r [] = Ok [].
Proof. unfold finish_set. cbn [drop_invalid keepr rbind]. rewrite when_part. unfold part.
  destruct (has (rBySetPos r)); [|reflexivity]. unfold bySetPosLimit, sort_posix. cbn [mapr rbind isort map].
  rewrite set_pos_nil. reflexivity. Qed.
Lemma part_nil {A} (l : option (list A)) f : (forall l, f l [] = Ok []) -> part l f [] = Ok [].
Proof. intro H. unfold part. destruct (has l); auto. Qed.
Lemma bind_assoc {A B C} (a : res A) (f : A -> res B) (g : B -> res C) :
  (do y <- (do x <- a; f x); g y) = do x <- a; do y <- f x; g y.
Proof. destruct a; reflexivity. Qed.
Lemma bind_ext {A B} (a : res A) (f g : A -> res B) : (forall x, f x = g x) -> rbind a f = rbind a g.
Proof. intro H. destruct a; cbn; auto. Qed.

Lemma when_nil {A} (l : option (list A)) f k : (forall l, f l [] = Ok []) -> k [] = Ok [] -> when l f [] k = Ok [].
Proof. intros H K. unfold when. destruct (has l); [rewrite H|]; auto. Qed.
Lemma limit_nil {A} (l : option (list A)) f k : (forall l, f l [] = Ok []) -> k [] = Ok [] -> limit l f [] k = Ok [].
Proof. intros H K. unfold limit. destruct (has l); [rewrite H|]; auto. Qed.

Ltac nil_parts := repeat first
  [ apply finish_nil
  | apply when_nil; [intros; repeat match goal with |- context [if ?b then _ else _] => destruct b end; reflexivity|]
  | apply limit_nil; [intros; reflexivity|] ].
Ltac shape := repeat first
  [ rewrite when_part; rewrite ?bind_assoc; apply bind_ext; intro
  | rewrite limit_part; [rewrite ?bind_assoc; apply bind_ext; intro|] ].

Lemma shape_set r s : generate_set tzo r s = do ds <- (do ds <- pre_set r s; finish_set tzo r ds); sort_posix tzo ds.
Proof.
  unfold generate_set, pre_set.
  assert (E : forall a b : res (list dt), a = b -> (do ds <- a; sort_posix tzo ds) = do ds <- b; sort_posix tzo ds) by (intros ? ? ->; reflexivity).
  destruct (rFreq r) eqn:F; apply E; clear E;
  unfold generateSecondlySet, generateMinutelySet, generateHourlySet, generateDailySet, generateWeeklySet, generateMonthlySet,
    generateYearlySet, pre_yearly, pre_monthly, pre_weekly, pre_fine; rewrite ?F; cbn [hours_free minutes_free seconds_free];
  rewrite ?bind_assoc.
  all: shape; try reflexivity.
  all: nil_parts.
Qed.

(** The set with BYSETPOS, in terms of the set without. *)
Definition no_setpos (r : rule) : rule := set_bysetpos [] r.
Lemma pre_no_setpos r s : pre_set (no_setpos r) s = pre_set r s.
Proof. reflexivity. Qed.

Lemma setpos_set r s l out : rBySetPos r = Some l -> l <> [] -> generate_set tzo r s = Ok out ->
  exists full ps, generate_set tzo (no_setpos r) s = Ok full /\ sorted_at full /\
    picks full l ps /\ Permutation (List.concat ps) out /\ sorted_at out.
Proof.
  intros El Nl H. rewrite shape_set in H. rewrite shape_set, pre_no_setpos.
  destruct (pre_set r s) as [ds|]; [|discriminate]. cbn [rbind] in *.
  unfold finish_set in *. destruct (drop_invalid ds) as [ds'|]; [|discriminate]. cbn [rbind] in *.
  rewrite when_part in *. unfold part in *. change (has (rBySetPos (no_setpos r))) with false. cbn [rbind].
  rewrite El in H. destruct l as [|i l]; [congruence|]. cbn [has items] in H.
  destruct (bySetPosLimit tzo (i :: l) ds') as [o|] eqn:E; [|discriminate]. cbn [rbind] in H.
  apply setpos_spec in E as (full & ps & Ef & Pk & ->). exists full, ps. split; [exact Ef|].
  split; [eapply sort_sorted; exact Ef|]. split; [exact Pk|].
  apply sort_keys in Ef as (ks & -> & K & S & _).
  destruct (keyed_sub ks (List.concat ps)) as (ks' & E & K'); [|exact K|].
  - intros x Hx. apply in_concat in Hx as (p & Hp & Hx). clear - Pk Hp Hx.
    unfold picks in Pk; induction Pk as [|j q l' qs Q _ IH]; [destruct Hp|]. destruct Hp as [->|Hp]; [|auto].
    destruct Q as [(y & -> & Py)|[-> _]]; [|destruct Hx]. destruct Hx as [<-|[]].
    destruct Py as [[_ P]|[_ P]]; apply nth_error_In in P; [exact P|]. apply in_rev. exact P.
  - rewrite E in *. apply sort_keyed in H; [exact H|exact K'].
Qed.

(** Without BYSETPOS: drop the invalid dates and sort. *)
Lemma plain_set r s : ~ given (rBySetPos r) ->
  generate_set tzo r s = do ds <- pre_set r s; do ds <- drop_invalid ds; sort_posix tzo ds.
Proof.
  intro G. rewrite shape_set, bind_assoc. apply bind_ext. intro ds. unfold finish_set. rewrite bind_assoc. apply bind_ext. intro ds'.
  apply has_not_given in G. rewrite when_part. unfold part. rewrite G. reflexivity.
Qed.
End WithTz.
