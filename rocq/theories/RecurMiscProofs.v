(** Bounds, non-termination and other facts about expand. *)
From Coq Require Import Lia ZifyBool ZifyNat Sorting.Sorted.
From Verif Require Import PyBase CalSpec CalProofs DateTimeModel DateTimeSpec DateTimeSpec2 DateTimeProofs DateTimeProofs2 DateTimeProofs4.
From Verif Require Import PeriodModel PeriodSpec PeriodProofs RecurModel RecurExpand RecurExpandSpec RecurSimpleProofs RecurCacheSpec RecurCacheProofs
  RecurComplexSpec RecurComplexProofs.
Ltac Zify.zify_post_hook ::= Z.div_mod_to_equations.

(** ** expand on a new rule *)
Lemma expand_new tzo fuel r start range off max : expand tzo fuel r cache_init start range off max =
  match compute tzo fuel r (normalise start) range off max with
  | None => None
  | Some (recs, Raise e) => Some (mkCache false None None false recs, ([], Raise e))
  | Some (recs, Ok full) =>
    match snd (getEnd range) with
    | Raise e => Some (mkCache true (Some (normalise start)) None full recs, ([], Raise e))
    | Ok e => Some (mkCache true (Some (normalise start)) (Some e) full recs, in_range tzo range recs (negb full) [])
    end
  end.
Proof. reflexivity. Qed.

Lemma simple_fresh tzo sc off r start range lim w b :
  call_ok sc off r start range lim w b ->
  exists N, forall fuel, (N <= fuel)%nat -> exists c items limited,
    expand tzo fuel r cache_init start range off None = Some (c, (items, Ok limited)) /\
    enumerates sc items (fun x => instances sc r lim start x /\ w <= x < b) /\
    (limited = true <-> exists x, instances sc r lim start x /\ ~ (w <= x < b)).
Proof.
  intro K. destruct (expand_good tzo sc off r cache_init start range lim w b K) as (N & H); [intro; discriminate|].
  exists N. intros fuel Hf. destruct (H fuel Hf) as (c & items & limited & X & _ & E & L). eauto 10.
Qed.

Lemma simple_max tzo sc off r start range lim w b : call_ok sc off r start range lim w b ->
  exists N recs, enumerates sc recs (fun x => instances sc r lim start x /\ x < b) /\
  forall fuel m, (N <= fuel)%nat ->
    (room (Some m) (List.length recs) ->
     expand tzo fuel r cache_init start range off (Some m) = expand tzo fuel r cache_init start range off None) /\
    (1 <= m < Z.of_nat (List.length recs) -> exists c, expand tzo fuel r cache_init start range off (Some m) = Some (c, ([], Raise TooManyInstancesError))).
Proof.
  intros (NO & NB & Ad & (a & I) & (e & E & Ie) & Iw & U).
  destruct (norm_same sc start a NO I) as [In Fn]. set (st := normalise start) in *.
  assert (Un : until_at sc st off r lim) by (eapply until_norm; eauto).
  assert (An : advances sc r st) by (apply (advances_same sc r start st a); auto).
  destruct (simple_spec tzo sc r st range e off a b lim NO An In E Ie Un) as (recs & full & N & En & F1 & F2 & R & Rm).
  assert (Inst : forall x, instances sc r lim st x <-> instances sc r lim start x) by (intro x; split; apply instances_same with (a := a); auto).
  exists N, recs. split.
  - destruct En as (xs & X1 & X2 & X3). exists xs. split; [exact X1|]. split; [exact X2|]. intro x. rewrite X3, Inst. tauto.
  - intros fuel m Hf. split.
    + intro Rm'. rewrite !expand_new. unfold compute. rewrite NB. cbn [negb]. fold st. rewrite (R fuel (Some m) Hf Rm'), (R fuel None Hf Logic.I). reflexivity.
    + intro Hm. rewrite expand_new. unfold compute. rewrite NB. cbn [negb]. fold st. destruct (Rm fuel m Hf Hm) as (part & ->). eauto.
Qed.

(** ** Bounds, for all rules *)
Lemma in_range_sub tzo range : forall recs limited items items' res, in_range tzo range recs limited items = (items', res) ->
  exists sel, items' = items ++ sel /\ (List.length sel <= List.length recs)%nat /\
    Forall (fun d => In d recs /\ isDateWithinPeriod tzo range d = Ok true) sel.
Proof.
  induction recs as [|d recs IH]; intros limited items items' res H; cbn [in_range] in H.
  - injection H as <- _. exists []. rewrite app_nil_r. auto.
  - destruct (isDateWithinPeriod tzo range d) as [[|]|ex] eqn:W.
    + apply IH in H as (sel & -> & L & F). exists (d :: sel). rewrite <- app_assoc. split; [reflexivity|]. split; [cbn; lia|].
      constructor; [split; [left; reflexivity|exact W]|]. eapply Forall_impl; [|exact F]. intros x [A B]. split; [right; exact A|exact B].
    + apply IH in H as (sel & -> & L & F). exists sel. split; [reflexivity|]. split; [cbn; lia|].
      eapply Forall_impl; [|exact F]. intros x [A B]. split; [right; exact A|exact B].
    + injection H as <- _. exists []. rewrite app_nil_r. split; [reflexivity|]. split; [cbn; lia|constructor].
Qed.
Lemma expand_sub tzo fuel r start range off max c items res : expand tzo fuel r cache_init start range off max = Some (c, (items, res)) ->
  items = [] \/ exists recs full, compute tzo fuel r (normalise start) range off max = Some (recs, Ok full) /\
    (List.length items <= List.length recs)%nat /\ Forall (fun d => In d recs /\ isDateWithinPeriod tzo range d = Ok true) items.
Proof.
  rewrite expand_new. destruct (compute tzo fuel r (normalise start) range off max) as [[recs [full|ex]]|]; [| |discriminate].
  - destruct (snd (getEnd range)) as [e|ex]; intro H.
    + right. exists recs, full. split; [reflexivity|]. injection H as _ H. apply in_range_sub in H as (sel & -> & L & F). auto.
    + injection H as _ <- _. auto.
  - intro H. injection H as _ <- _. auto.
Qed.

Lemma drop_while_In {A} (p : A -> bool) l x : In x (drop_while p l) -> In x l.
Proof. induction l as [|y l IH]; cbn; [auto|]. destruct (p y); auto. Qed.
Lemma pick_In tzo r start prev l x : In x (pick tzo r start prev l) -> In x l /\ ge_start tzo start x = true.
Proof.
  unfold pick. destruct (rUseCount r); [destruct prev|]; intro H; try apply drop_while_In in H; apply filter_In in H; exact H.
Qed.
Lemma sets_nth tzo r : forall sets it x, sets_from tzo r it sets -> In x (List.concat sets) ->
  exists k set, generate_set tzo r (interval_start r it k) = Ok set /\ In x set.
Proof.
  induction sets as [|s sets IH]; intros it x S H; [destruct H|]. destruct S as [S1 S2]. cbn in H. apply in_app_or in H as [H|H].
  - exists O, s. auto.
  - destruct (IH _ _ S2 H) as (k & set & G & I). exists (S k), set. split; [|exact I]. rewrite <- G. f_equal. unfold interval_start.
    change (Nat.iter (S k) ?f it) with (f (Nat.iter k f it)). symmetry.
    apply (iter_in (fun d => recur d (rFreq r) (rInterval r) true)).
Qed.
Lemma float_until_used r start off until : float_until TzNone r start off = Ok until -> forall u, until = Some u <-> until_used r start off u.
Proof.
  unfold float_until, until_used. destruct (rUseUntil r).
  - destruct (rUntil r) as [u0|]; [|discriminate]. intros H u. injection H as <-. split.
    + intro E. split; [reflexivity|]. exists u0. split; [reflexivity|]. congruence.
    + intros (_ & u1 & E & ->). injection E as <-. reflexivity.
  - intros H u. injection H as <-. split; [discriminate|]. intros (E & _). discriminate.
Qed.

(** The exact result of complexExpand. *)
Lemma complex_exact tzo fuel r start range off max items full :
  complexExpand tzo fuel r start range off max = Some (items, Ok full) ->
  (rUseCount r = true /\ rCount r <= 1 /\ items = [] /\ full = true) \/
  exists sets seen rest,
    (forall k set, nth_error sets k = Some set -> generate_set tzo r (interval_start r start k) = Ok set) /\
    List.concat sets = seen ++ rest /\
    items = (let l := filter (fun it => no (dt_lt tzo it start)) seen in
             if rUseCount r then drop_while (fun it => yes (dt_eq tzo start it)) l else l) /\
    (forall it, In it seen -> dt_lt tzo it start = Ok false ->
       isDateAfterPeriod tzo range it = Ok false /\ forall u, until_used r start off u -> dt_gt tzo it u = Ok false) /\
    ((full = true /\ rUseCount r = true /\ rCount r = 1 + Z.of_nat (List.length items) /\ items <> []) \/
     (exists it rest' u, full = true /\ rest = it :: rest' /\ dt_lt tzo it start = Ok false /\ isDateAfterPeriod tzo range it = Ok false /\
        until_used r start off u /\ dt_gt tzo it u = Ok true) \/
     (exists it rest', full = false /\ rest = it :: rest' /\ dt_lt tzo it start = Ok false /\ isDateAfterPeriod tzo range it = Ok true) \/
     (full = false /\ rest = [] /\ sets <> [] /\ isDateAfterPeriod tzo range (interval_start r start (List.length sets - 1)) = Ok true)).
Proof.
  unfold complexExpand. destruct (float_until TzNone r start off) as [until|ex] eqn:Fu; [|discriminate].
  pose proof (float_until_used _ _ _ _ Fu) as Uu.
  assert (X : forall ctr, ctr_ok r ctr [] -> complex_loop tzo fuel r start range until max start ctr [] = Some (items, Ok full) ->
    exists sets seen rest,
    (forall k set, nth_error sets k = Some set -> generate_set tzo r (interval_start r start k) = Ok set) /\
    List.concat sets = seen ++ rest /\
    items = (let l := filter (fun it => no (dt_lt tzo it start)) seen in
             if rUseCount r then drop_while (fun it => yes (dt_eq tzo start it)) l else l) /\
    (forall it, In it seen -> dt_lt tzo it start = Ok false ->
       isDateAfterPeriod tzo range it = Ok false /\ forall u, until_used r start off u -> dt_gt tzo it u = Ok false) /\
    ((full = true /\ rUseCount r = true /\ rCount r = 1 + Z.of_nat (List.length items) /\ items <> []) \/
     (exists it rest' u, full = true /\ rest = it :: rest' /\ dt_lt tzo it start = Ok false /\ isDateAfterPeriod tzo range it = Ok false /\
        until_used r start off u /\ dt_gt tzo it u = Ok true) \/
     (exists it rest', full = false /\ rest = it :: rest' /\ dt_lt tzo it start = Ok false /\ isDateAfterPeriod tzo range it = Ok true) \/
     (full = false /\ rest = [] /\ sets <> [] /\ isDateAfterPeriod tzo range (interval_start r start (List.length sets - 1)) = Ok true))).
  { intros ctr C H. apply complex_loop_spec in H; [|exact C]. destruct H as (sets & seen & rest & Sf & Cc & It & F & R).
    exists sets, seen, rest. split; [|split; [exact Cc|split; [exact It|split]]].
    - clear - Sf. revert Sf. generalize start at 1 2. revert sets.
      induction sets as [|s sets IH]; intros it Sf k set H; [destruct k; discriminate|]. destruct Sf as [S1 S2]. destruct k as [|k].
      + injection H as <-. exact S1.
      + rewrite <- (IH _ S2 k set H). f_equal. unfold interval_start. change (Nat.iter (S k) ?f it) with (f (Nat.iter k f it)). symmetry.
        apply (iter_in (fun d => recur d (rFreq r) (rInterval r) true)).
    - intros it Hi L. rewrite Forall_forall in F. destruct (F it Hi) as [A B]; [unfold ge_start; rewrite L; reflexivity|].
      split; [exact A|]. intros u Hu. apply B. apply Uu. exact Hu.
    - destruct R as [R|R]; [|right; right; right; exact R]. unfold stopped in R. destruct R as [R|R]; [|left; tauto].
      destruct rest as [|it rest']; [destruct R|]. destruct R as [G R]. unfold ge_start in G.
      assert (L : dt_lt tzo it start = Ok false) by (destruct (dt_lt tzo it start) as [[|]|]; cbn in G; congruence).
      destruct full.
      + destruct R as (A & u & Eu & B). right; left. exists it, rest', u. apply Uu in Eu. auto 10.
      + right; right; left. exists it, rest'. auto. }
  destruct (rUseCount r) eqn:UC.
  - destruct (rCount r <=? 1) eqn:C1; intro H.
    + injection H as <- <-. left. repeat split; auto. lia.
    + right. apply (X 1); [|exact H]. unfold ctr_ok. rewrite UC. cbn. lia.
  - intro H. right. apply (X 0); [|exact H]. unfold ctr_ok. rewrite UC. reflexivity.
Qed.

Lemma complex_bounds tzo fuel r start range off max c items res :
  hasBy r = true -> expand tzo fuel r cache_init start range off max = Some (c, (items, res)) ->
  Forall (fun it => dt_lt tzo it (normalise start) = Ok false /\ isDateWithinPeriod tzo range it = Ok true /\
                    (forall u, until_used r (normalise start) off u -> dt_gt tzo it u = Ok false) /\
                    exists k set, generate_set tzo r (interval_start r (normalise start) k) = Ok set /\ In it set) items /\
  (rUseCount r = true -> Z.of_nat (List.length items) <= Z.max 0 (rCount r - 1)).
Proof.
  intros B H. apply expand_sub in H as [->|(recs & full & X & L & F)]; [split; [constructor|cbn; lia]|].
  unfold compute in X. rewrite B in X. cbn [negb] in X. pose proof X as X'. apply complex_exact in X.
  destruct X as [(U & C & -> & _)|(sets & seen & rest & Sn & Cc & It & Lim & R)].
  - destruct items; [|cbn in L; lia]. split; [constructor|cbn; lia].
  - split.
    + eapply Forall_impl; [|exact F]. intros it [Hi W].
      assert (G : In it seen /\ dt_lt tzo it (normalise start) = Ok false).
      { rewrite It in Hi. cbv zeta in Hi. assert (Hf : In it (filter (fun it => no (dt_lt tzo it (normalise start))) seen)) by (destruct (rUseCount r); [apply drop_while_In in Hi|]; exact Hi).
        apply filter_In in Hf as [A Q]. split; [exact A|]. destruct (dt_lt tzo it (normalise start)) as [[|]|]; cbn in Q; congruence. }
      destruct G as [Is Lt]. destruct (Lim it Is Lt) as [_ Un]. split; [exact Lt|]. split; [exact W|]. split; [exact Un|].
      assert (Ic : In it (List.concat sets)) by (rewrite Cc; apply in_or_app; left; exact Is).
      apply in_concat in Ic as (set & Hs & Hin). apply In_nth_error in Hs as (k & Hk). exists k, set. auto.
    + intro U. clear - U L X'.
      assert (CB : forall fuel until it ctr items res, complex_loop tzo fuel r (normalise start) range until max it ctr items = Some (recs, res) ->
         ctr_ok r ctr items -> Z.of_nat (List.length recs) <= rCount r - 1).
      { clear X' L. induction fuel0 as [|fuel0 IH]; intros unt it ctr its res H C; [discriminate|]. cbn [complex_loop] in H.
        assert (Cn : forall its', ctr_ok r (1 + Z.of_nat (List.length its')) its' -> Z.of_nat (List.length its') <= rCount r - 1).
        { intros its' C'. unfold ctr_ok in C'. rewrite U in C'. lia. }
        assert (Cc : Z.of_nat (List.length its) <= rCount r - 1). { unfold ctr_ok in C. rewrite U in C. lia. }
        destruct (generate_set tzo r it) as [set|]; [|injection H as <- _; exact Cc].
        assert (SL : forall set ctr its, ctr_ok r ctr its -> match set_loop tzo r (normalise start) range unt max set ctr its with
          | inl (its', _) => Z.of_nat (List.length its') <= rCount r - 1
          | inr (ctr', its') => ctr_ok r ctr' its' end).
        { clear - U. induction set as [|x set IH]; intros ctr its C; cbn [set_loop]; [exact C|].
          assert (Cc : Z.of_nat (List.length its) <= rCount r - 1). { unfold ctr_ok in C. rewrite U in C. lia. }
          assert (C1 : Z.of_nat (List.length (its ++ [x])) <= rCount r - 1). { rewrite len1. unfold ctr_ok in C. rewrite U in C. lia. }
          destruct (dt_lt tzo x (normalise start)) as [[|]|]; try (exact Cc); try (exact C1); try (apply IH; exact C). destruct (isDateAfterPeriod tzo range x) as [[|]|]; try (exact Cc); try (exact C1); try (apply IH; exact C).
          destruct (match unt with None => Ok false | Some u => dt_gt tzo x u end) as [[|]|]; try (exact Cc); try (exact C1); try (apply IH; exact C).
          destruct (if ctr =? 1 then dt_eq tzo (normalise start) x else Ok false) as [[|]|]; try (exact Cc); try (exact C1); try (apply IH; exact C).
          destruct (too_many max (its ++ [x])); try (exact Cc); try (exact C1); try (apply IH; exact C). rewrite U. cbv zeta. destruct (rCount r <=? ctr + 1) eqn:K; try (exact Cc); try (exact C1); try (apply IH; exact C).
          apply IH. unfold ctr_ok in *. rewrite U in *. rewrite len1. lia. }
        specialize (SL set ctr its C). destruct (set_loop tzo r (normalise start) range unt max set ctr its) as [[its' res']|[ctr' its']].
        - injection H as <- _. exact SL.
        - destruct (isDateAfterPeriod tzo range it) as [[|]|].
          + injection H as <- _. unfold ctr_ok in SL. rewrite U in SL. lia.
          + eapply IH; eauto.
          + injection H as <- _. unfold ctr_ok in SL. rewrite U in SL. lia. }
      unfold complexExpand in X'. destruct (float_until TzNone r (normalise start) off) as [until|]; [|discriminate]. rewrite U in X'.
      destruct (rCount r <=? 1) eqn:C1.
      * injection X' as <- _. cbn in L. lia.
      * apply CB in X'; [lia|]. unfold ctr_ok. rewrite U. cbn. lia.
Qed.

Lemma simple_count tzo fuel r start range off max c items res :
  hasBy r = false -> rUseCount r = true -> expand tzo fuel r cache_init start range off max = Some (c, (items, res)) ->
  Z.of_nat (List.length items) <= Z.max 1 (rCount r).
Proof.
  intros B U H. apply expand_sub in H as [->|(recs & full & X & L & _)]; [cbn; lia|].
  unfold compute in X. rewrite B in X. cbn [negb] in X. unfold simpleExpand in X. destruct (float_until (TzInt 0) r (normalise start) off) as [until|]; [|discriminate].
  assert (CB : forall fuel it ctr its res, simple_loop tzo fuel r range until max it ctr its = Some (recs, res) ->
    ctr = Z.of_nat (List.length its) -> ctr < Z.max 1 (rCount r) -> Z.of_nat (List.length recs) <= Z.max 1 (rCount r)).
  { clear X L. induction fuel0 as [|fuel0 IH]; intros it ctr its res0 H -> C; [discriminate|]. cbn [simple_loop] in H.
    assert (C1 : Z.of_nat (List.length (its ++ [it])) <= Z.max 1 (rCount r)) by (rewrite len1; lia).
    destruct (isDateAfterPeriod tzo range it) as [[|]|]; try (injection H as <- _; lia).
    destruct (too_many max (its ++ [it])); [injection H as <- _; exact C1|].
    destruct (skip_invalid fuel0 (rFreq r) (rInterval r) (recur it (rFreq r) (rInterval r) true)) as [[it'|ex]|]; [|injection H as <- _; exact C1|discriminate].
    rewrite U in H. cbv zeta in H. destruct (rCount r <=? Z.of_nat (Datatypes.length its) + 1) eqn:K; [injection H as <- _; exact C1|].
    eapply IH; [exact H|rewrite len1; reflexivity|lia]. }
  apply CB in X; cbn; lia.
Qed.

(** ** Endless loops *)
Definition hourly : rule := set_freq HOURLY rule_init.
Definition day1 : dt := newDate 2020 1 1 false TzNone.
Definition two_days : period := newPeriodEnd (newDate 2020 1 1 false TzNone) (newDate 2020 1 3 false TzNone).
Lemma hourly_stuck tzo fuel : expand tzo fuel hourly cache_init day1 two_days 0 None = None.
Proof.
  rewrite expand_new. assert (X : forall ctr items, simple_loop tzo fuel hourly two_days None None (normalise day1) ctr items = None).
  { induction fuel as [|n IH]; intros ctr items; [reflexivity|]. cbn [simple_loop].
    assert (A : isDateAfterPeriod tzo two_days (normalise day1) = Ok false) by reflexivity. rewrite A. cbn [too_many].
    assert (Sk : skip_invalid n (rFreq hourly) (rInterval hourly) (recur (normalise day1) (rFreq hourly) (rInterval hourly) true) = Some (Ok (normalise day1))) by (destruct n; reflexivity).
    rewrite Sk. apply IH. }
  assert (Y : compute tzo fuel hourly (normalise day1) two_days 0 None = simple_loop tzo fuel hourly two_days None None (normalise day1) 0 []) by reflexivity.
  rewrite Y, X. reflexivity.
Qed.

Definition leap400 : rule := set_interval 400 (set_freq YEARLY rule_init).
Definition leapday : dt := newDate 1700 2 29 false TzNone.
Definition century17 : period := newPeriodEnd (newDate 1700 1 1 false TzNone) (newDate 1701 1 1 false TzNone).
Lemma leapday_valid : valid_dt (normalise leapday).
Proof. repeat split; vm_compute; congruence. Qed.
Lemma leap_stuck tzo fuel : expand tzo fuel leap400 cache_init leapday century17 0 None = None.
Proof.
  rewrite expand_new.
  assert (Sk : forall n k d, months_later (normalise leapday) (4800 * (Z.of_nat k + 1)) d -> skip_invalid n YEARLY 400 d = None).
  { induction n as [|n IH]; intros k d Hd; cbn [skip_invalid];
      (assert (Iv : invalid d = Ok true); [rewrite (invalid_months _ _ _ leapday_valid Hd)|rewrite Iv; try reflexivity]).
    1,2: change (month_no (normalise leapday)) with 20401; change (mDay (normalise leapday)) with 29; unfold month_has, month_len, hist_leap, greg_leap;
      replace ((20401 + 4800 * (Z.of_nat k + 1)) / 12) with (2100 + 400 * Z.of_nat k) by lia; replace ((20401 + 4800 * (Z.of_nat k + 1)) mod 12 + 1) with 2 by lia;
      replace (2100 + 400 * Z.of_nat k <? 1753) with false by lia; replace ((2100 + 400 * Z.of_nat k) mod 400 =? 0) with false by lia;
      replace ((2100 + 400 * Z.of_nat k) mod 100 =? 0) with true by lia; reflexivity.
    apply (IH (S k)). pose proof (recur_months leap400 4800 _ _ d eq_refl Hd) as R.
    replace (4800 * (Z.of_nat (S k) + 1)) with (4800 * (Z.of_nat k + 1) + 4800) by lia. exact R. }
  assert (X : simpleExpand tzo fuel leap400 (normalise leapday) century17 0 None = None).
  { unfold simpleExpand. change (float_until (TzInt 0) leap400 (normalise leapday) 0) with (Ok (@None dt)). cbv iota.
    destruct fuel as [|n]; [reflexivity|]. cbn [simple_loop]. assert (A : isDateAfterPeriod tzo century17 (normalise leapday) = Ok false) by reflexivity. rewrite A.
    cbn [too_many]. change (rFreq leap400) with YEARLY. change (rInterval leap400) with 400. rewrite (Sk n O); [reflexivity|].
    exact (recur_months leap400 4800 _ _ _ eq_refl (months_refl (normalise leapday) ltac:(vm_compute; split; congruence))). }
  unfold compute. change (negb (hasBy leap400)) with true. cbv iota. rewrite X. reflexivity.
Qed.

(** ** Setters *)
Lemma leq {A} (eqb : A -> A -> bool) (He : forall a b, eqb a b = true -> a = b) : forall l l', list_eqb eqb l l' = true -> l = l'.
Proof.
  induction l as [|x l IH]; destruct l' as [|y l']; cbn; try discriminate; auto. intro H. apply andb_prop in H as [H K].
  f_equal; auto.
Qed.
Lemma oleq {A} (eqb : A -> A -> bool) (He : forall a b, eqb a b = true -> a = b) o l : opt_list_eqb eqb o l = true -> o = Some l.
Proof. destruct o as [l'|]; cbn; [|discriminate]. intro H. f_equal. eapply leq; eauto. Qed.
Lemma zeq a b : (a =? b) = true -> a = b. Proof. lia. Qed.
Lemma deq (a b : Z * Z) : day_eqb a b = true -> a = b.
Proof. destruct a, b. unfold day_eqb. cbn. intro H. f_equal; lia. Qed.
Lemma feq a b : freq_eqb a b = true -> a = b.
Proof. destruct a, b; cbn; congruence. Qed.
Lemma setter_works tzo s r c : (forall d, s <> SetUntil d) -> exists c',
  setAndClear tzo s (r, c) = Ok (setter_assign s r, c') /\ (c' = cache_clear c \/ (c' = c /\ setter_assign s r = r)).
Proof.
  intro NU. unfold setAndClear. cbn [fst snd]. destruct r as [f uc ct uu un iv bs bm bh bd bmd byd bw bmo bsp ws].
  destruct s; cbn [setter_differs setter_assign rbind rFreq rUseUntil rUseCount rCount rInterval rByMonth rByMonthDay rByYearDay rByDay rBySetPos];
    try (exfalso; eapply NU; reflexivity);
    match goal with |- context [if negb ?b then _ else _] => destruct b eqn:E; cbn [negb] end;
    try (eexists; split; [reflexivity|left; reflexivity]).
  all: first [apply feq in E | apply Bool.eqb_prop in E | apply zeq in E | apply (oleq _ zeq) in E | apply (oleq _ deq) in E]; subst;
    exists c; split; [reflexivity|right; split; reflexivity].
Qed.
