(** Properties C33 and C36: rules that are expanded again, and recurrence sets.  [tzo] is the timezone database and [order] the iteration
    order of Python sets, both arbitrary; fuel is a number of loop rounds that is large enough. *)
From Coq Require Import Lia Sorting.Permutation.
From Verif Require Import PyBase ParserCtx CalSpec DateTimeModel DateTimeSpec DateTimeSpec2 PeriodModel PeriodSpec RecurModel RecurTextProofs2
  RecurExpand RecurExpandSpec RecurSetSpec RecurByPartsSpec RecurSetModel RecurUnionSpec PropRecur2 PropRecur4.
From Verif Require RecurAgainProofs RecurUnionProofs.

(** C33, for rules with and without BY parts.  After any calls of expand and of setters a rule
    gives exactly the instances in the window, in order; the result False says that there are
    no others. *)
Theorem C33_any_rule : forall tzo sc off, sc <> Offsets -> forall z r c start range a w b,
  rule_reachable tzo sc off z r c -> same_zone z start -> instant sc start a -> rule_call tzo sc off start range a w b r ->
  exists N, forall fuel, (N <= fuel)%nat -> exists c' items limited,
    expand tzo fuel r c start range off None = Some (c', (items, Ok limited)) /\
    lists_in_order sc items (fun x => rule_gives sc off start a r x /\ w <= x < b) /\
    (limited = false -> forall x, rule_gives sc off start a r x -> w <= x < b).
Proof. exact RecurAgainProofs.expand_reached. Qed.
Print Assumptions C33_any_rule.
(** The last Friday of every month: a wide window, then a narrow one that is served from the
    cache (no rounds are needed), then one from another start, which is not. *)
Example C33_any_rule_ex :
  let r := rule_of "FREQ=MONTHLY;BYDAY=-1FR" in
  let wide := newPeriodEnd (utc 1970 1 1 0) (utc 1970 4 1 0) in
  let narrow := newPeriodEnd (utc 1970 2 1 0) (utc 1970 3 1 0) in
  exists c1 o1 c2 items2 c3 items3,
  expand no_zones 9 r cache_init (utc 1970 1 1 9) wide 0 None = Some (c1, o1) /\
  rule_reachable no_zones (InZone true TzNone) 0 (utc 1970 1 1 9) r c1 /\
  rule_call no_zones (InZone true TzNone) 0 (utc 1970 1 1 9) narrow 32400 2678400 5097600 r /\
  expand no_zones 0 r c1 (utc 1970 1 1 9) narrow 0 None = Some (c2, (items2, Ok true)) /\ map visible items2 = [visible (utc 1970 2 27 9)] /\
  expand no_zones 9 r c2 (utc 1970 1 1 10) narrow 0 None = Some (c3, (items3, Ok true)) /\ map visible items3 = [visible (utc 1970 2 27 10)].
Proof.
  intros r wide narrow. vm_compute in r.
  assert (I : forall m d k h, valid_dt (utc 1970 m d h) -> days_between hist_leap (1970, 1, 1) (1970, m, d) k -> instant (InZone true TzNone) (utc 1970 m d h) (86400 * k + 3600 * h)).
  { intros m d k h V D. apply utc_at; auto. }
  assert (C : forall m1 m2 d1 d2, valid_dt (utc 1970 m1 1 0) -> days_between hist_leap (1970, 1, 1) (1970, m1, 1) d1 ->
    valid_dt (utc 1970 m2 1 0) -> days_between hist_leap (1970, 1, 1) (1970, m2, 1) d2 ->
    rule_call no_zones (InZone true TzNone) 0 (utc 1970 1 1 9) (newPeriodEnd (utc 1970 m1 1 0) (utc 1970 m2 1 0)) 32400 (86400 * d1 + 3600 * 0) (86400 * d2 + 3600 * 0) r).
  { intros m1 m2 d1 d2 V1 D1 V2 D2. exists None. right. split; [|apply C49_fixed_zone; auto].
    split; [discriminate|]. split; [reflexivity|]. split.
    - unfold r. split; [|split; [|split; [|split; [|split; [|split]]]]]; try reflexivity; try (cbn; tauto); try discriminate.
      repeat split; try (cbn; lia); try exact Logic.I. constructor; [cbn; lia|constructor].
    - split; [exact (I 1 1 0 9 ltac:(repeat split; vm_compute; congruence) ltac:(left; split; [lia|vm_compute; reflexivity]))|].
      split; [cbn; lia|]. split.
      + exists (utc 1970 m2 1 0). split; [reflexivity|]. split; [apply I; assumption|].
        exists 12, (utc 1971 1 1 9). split; [lia|]. split; [|cbn; lia]. unfold r. repeat split; cbn; lia.
      + split; [|reflexivity]. apply I; assumption. }
  do 6 eexists. split; [vm_compute; reflexivity|]. split; [|split; [|split; [vm_compute; reflexivity|split; [vm_compute; reflexivity|split; vm_compute; reflexivity]]]].
  - eapply rule_expanded with (start := utc 1970 1 1 9) (range := wide) (fuel := 9%nat) (a := 32400) (c := cache_init);
      [apply rule_new| | | |vm_compute; reflexivity].
    + apply (C 1 4 0 90); try (repeat split; vm_compute; congruence); left; (split; [lia|vm_compute; reflexivity]).
    + exact (I 1 1 0 9 ltac:(repeat split; vm_compute; congruence) ltac:(left; split; [lia|vm_compute; reflexivity])).
    + split; reflexivity.
  - apply (C 2 3 31 59); try (repeat split; vm_compute; congruence); left; (split; [lia|vm_compute; reflexivity]).
Qed.

(** C36. A set expands to exactly the start, the RRULE instances and the RDATEs in the window
    (and the starts of the RDATE periods that overlap it) without the EXRULE instances and the
    EXDATEs, each instant once; the result False says that nothing was left out because of the
    window; and when nothing is excluded the items are in order.  The set may have been expanded
    any number of times before, from starts in the same zone, and edited in between. *)
Theorem C36_expand : forall tzo sc off s start range a w b order,
  permutes order -> set_reachable tzo order sc off start s -> set_call tzo sc off s start range a w b ->
  exists N, forall fuel, (N <= fuel)%nat -> exists s' items limited,
    rset_expand tzo order fuel s start range off None = Some (s', (items, Ok limited)) /\
    holds_exactly sc items (fun x => included sc off start a w b s x /\ ~ excluded sc off start a w b s x) /\
    (limited = false -> w <= a < b /\ (forall r c x, In (r, c) (sRrules s) -> rule_gives sc off start a r x -> w <= x < b) /\
       (forall x, date_gives sc (sRdates s) x -> w <= x < b) /\
       (forall p x e y, In p (sRperiods s) -> instant sc (pStart p) x -> snd (getEnd p) = Ok e -> instant sc e y -> x < b /\ w < y)) /\
    ((forall x, ~ excluded sc off start a w b s x) -> in_order tzo items).
Proof. exact RecurUnionProofs.set_expand. Qed.
Print Assumptions C36_expand.

Lemma utc_honest tzo y m d h : honest tzo (utc y m d h).
Proof. split; [discriminate|discriminate]. Qed.
(** Daily, five times; one more date and one that is there already; the third date excluded by
    EXDATE, and every third one by EXRULE.  The window leaves out the last. *)
Definition ex_set : rset :=
  mkRset [(rule_of "FREQ=DAILY;COUNT=5", cache_init)] [(rule_of "FREQ=DAILY;INTERVAL=3;COUNT=2", cache_init)]
    [utc 1970 1 3 12; utc 1970 1 2 9] [utc 1970 1 3 9] [newPeriodEnd (utc 1970 1 1 0) (utc 1970 1 1 10)] [].
Example C36_expand_ex :
  let range := newPeriodEnd (utc 1970 1 1 6) (utc 1970 1 5 0) in
  permutes (fun l => l) /\ set_reachable no_zones (fun l => l) (InZone true TzNone) 0 (utc 1970 1 1 9) ex_set /\
  set_call no_zones (InZone true TzNone) 0 ex_set (utc 1970 1 1 9) range 32400 21600 345600 /\
  exists s' items, rset_expand no_zones (fun l => l) 9 ex_set (utc 1970 1 1 9) range 0 None = Some (s', (items, Ok true)) /\
  map visible items = map visible [utc 1970 1 1 0; utc 1970 1 2 9; utc 1970 1 3 12].
Proof.
  intro range. split; [intro l; apply Permutation_refl|]. split; [apply set_new; repeat constructor|]. split.
  - assert (U : forall d h, 0 <= h < 24 -> 1 <= d <= 31 -> instant (InZone true TzNone) (utc 1970 1 d h) (86400 * (d - 1) + 3600 * h)).
    { intros d h Hh Hd. apply utc_at; [split; [unfold valid_date, ymd; cbn [utc newDateTime mYear mMonth mDay]; change (month_len hist_leap 1970 1) with 31; lia|split; [unfold valid_time; cbn; lia|discriminate]]|].
      left. split; [lia|]. assert (D : d - 1 = 0 \/ d - 1 = Z.of_nat (Z.to_nat (d - 1))) by lia.
      assert (G : forall n, 1 <= 1 + Z.of_nat n <= 31 -> Nat.iter n (next_day hist_leap) (1970, 1, 1) = (1970, 1, 1 + Z.of_nat n)).
      { induction n as [|n IH]; [reflexivity|]. intro L. cbn [Nat.iter nat_rect]. fold (Nat.iter n (next_day hist_leap) (1970, 1, 1)). rewrite IH by lia.
        unfold next_day. change (month_len hist_leap 1970 1) with 31.
        destruct (Z.ltb_spec (1 + Z.of_nat n) 31); [f_equal; lia|lia]. }
      rewrite G by lia. f_equal. lia. }
    assert (S : instant (InZone true TzNone) (utc 1970 1 1 9) 32400) by (apply (U 1 9); lia).
    assert (W : instant (InZone true TzNone) (utc 1970 1 1 6) 21600) by (apply (U 1 6); lia).
    assert (E : instant (InZone true TzNone) (utc 1970 1 5 0) 345600) by (apply (U 5 0); lia).
    assert (D : forall d h, 0 <= h < 24 -> 1 <= d <= 31 -> date_ok no_zones (InZone true TzNone) (utc 1970 1 1 9) (utc 1970 1 d h)).
    { intros d h Hh Hd. split; [eexists; apply U; lia|]. split; [split; reflexivity|apply utc_honest]. }
    split; [discriminate|]. split; [exact S|]. split; [apply utc_honest|]. split; [exact W|]. split; [exists (utc 1970 1 5 0); auto|].
    split; [|split].
    + repeat constructor; exists None; left; (split; [discriminate|]); (split; [reflexivity|]);
        (split; [split; [vm_compute; congruence|vm_compute; discriminate]|]); (split; [exists 32400; exact S|]);
        (split; [exists (utc 1970 1 5 0); auto|]); (split; [exact W|reflexivity]).
    + repeat constructor; apply D; lia.
    + constructor; [|constructor]. split; [apply D; lia|]. exists (utc 1970 1 1 10), 36000. split; [reflexivity|]. apply (U 1 10); lia.
  - eexists. eexists. split; [vm_compute; reflexivity|]. vm_compute. reflexivity.
Qed.

(** The same set expanded, told that it changed, and given one more excluded date: without the
    clearing of the caches the instances would be those of the first start. *)
Example C36_edited_ex :
  let range := newPeriodEnd (utc 1970 1 1 6) (utc 1970 1 5 0) in
  exists s1 o1 s2 items, rset_expand no_zones (fun l => l) 9 ex_set (utc 1970 1 1 9) range 0 None = Some (s1, o1) /\
  let s' := mkRset (sRrules (rset_changed s1)) (sExrules (rset_changed s1)) (sRdates s1) [utc 1970 1 3 10] [] [] in
  set_reachable no_zones (fun l => l) (InZone true TzNone) 3600 (utc 1970 1 1 10) s' /\
  rset_expand no_zones (fun l => l) 9 s' (utc 1970 1 1 10) range 3600 None = Some (s2, (items, Ok true)) /\
  map visible items = map visible [utc 1970 1 2 9; utc 1970 1 2 10; utc 1970 1 3 12].
Proof.
  intro range. destruct C36_expand_ex as (Ord & R & C & _).
  destruct (rset_expand no_zones (fun l => l) 9 ex_set (utc 1970 1 1 9) range 0 None) as [[s1 o1]|] eqn:E; [|vm_compute in E; discriminate].
  assert (E' := E). vm_compute in E'. injection E' as E1 _.
  do 4 eexists. split; [reflexivity|]. split; [|split; [subst s1; vm_compute; reflexivity|vm_compute; reflexivity]].
  eapply set_edited; [eapply set_changed; eapply set_expanded; [exact R|split; reflexivity|exact C|exact E]|].
  cbn [sRrules sExrules]. apply Forall_forall. intros rc H. right. exact H.
Qed.

(** The period of the example starts before the window: its start is returned all the same, so
    not every item is inside the window. *)
Theorem C36_window_refuted : exists tzo order fuel s start range off s' items limited,
  permutes order /\ rset_expand tzo order fuel s start range off None = Some (s', (items, Ok limited)) /\
  exists d, In d items /\ isDateWithinPeriod tzo range d = Ok false.
Proof.
  exists no_zones, (fun l => l), 9%nat, (mkRset [] [] [] [] [newPeriodEnd (utc 1970 1 1 0) (utc 1970 1 1 10)] []), (utc 1970 1 1 9),
    (newPeriodEnd (utc 1970 1 1 6) (utc 1970 1 5 0)), 0.
  eexists. eexists. eexists. split; [intro l; apply Permutation_refl|]. split; [vm_compute; reflexivity|].
  eexists. split; [left; reflexivity|]. vm_compute. reflexivity.
Qed.
Print Assumptions C36_window_refuted.

(** With exclusions the items need not be in order.  The order of the witness is the one of a
    small hash table: by the last three bits of the hash. *)
Theorem C36_order_refuted : exists tzo order fuel s start range off s' items limited,
  permutes order /\ rset_expand tzo order fuel s start range off None = Some (s', (items, Ok limited)) /\
  exists d e, items = [d; e] /\ dt_lt tzo e d = Ok true.
Proof.
  set (key := fun d => match snd (getPosixTime no_zones d) with Ok n => n mod 8 | Raise _ => 0 end).
  set (at_ := fun s => newDateTime 1970 1 1 0 0 s true TzNone).
  exists no_zones, (isort (fun d e => key d <? key e)), 9%nat, (mkRset [] [] [at_ 8; at_ 3] [at_ 3] [] []), (at_ 1),
    (newPeriodEnd (at_ 0) (at_ 20)), 0.
  eexists. eexists. eexists. split; [intro l; apply isort_perm|]. split; [vm_compute; reflexivity|].
  eexists. eexists. split; [reflexivity|]. vm_compute. reflexivity.
Qed.
Print Assumptions C36_order_refuted.

(** An EXDATE that equals an instance by the == of the code does not remove it when the two
    posix times differ: here a floating EXDATE, and a database whose local zone is an hour
    ahead of UTC. *)
Theorem C36_equal_exdate_refuted : exists tzo order fuel s start range off s' items limited x,
  permutes order /\ In x (sExdates s) /\ dt_eq tzo start x = Ok true /\
  rset_expand tzo order fuel s start range off None = Some (s', (items, Ok limited)) /\
  exists d, In d items /\ dt_eq tzo d x = Ok true.
Proof.
  exists (fun t _ _ _ _ _ _ _ _ => match t with TzNone => 3600 | _ => 0 end), (fun l => l), 9%nat,
    (mkRset [] [] [] [newDateTime 1970 1 1 9 0 0 false TzNone] [] []), (utc 1970 1 1 9), (newPeriodEnd (utc 1970 1 1 0) (utc 1970 1 2 0)), 0.
  eexists. eexists. eexists. eexists. split; [intro l; apply Permutation_refl|]. split; [left; reflexivity|]. split; [vm_compute; reflexivity|].
  split; [vm_compute; reflexivity|]. eexists. split; [left; reflexivity|]. vm_compute. reflexivity.
Qed.
Print Assumptions C36_equal_exdate_refuted.
