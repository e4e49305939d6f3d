(** C81: what the tool that prints the instances of a rule prints. *)
From Coq Require Import Lia ZifyBool.
From Verif Require Import PyBase ParserCtx CalSpec DateTimeModel DateTimeSpec DateTimeSpec2 DateTimeText PeriodModel PeriodSpec RecurModel RecurExpand RecurSpec RecurExpandSpec RecurSetSpec RecurByPartsSpec
  InstancesModel InstancesSpec.
From Verif Require InstancesProofs PropRecur2 PropRecur4.

(** Rules without BY parts: the start and the rule as given, and exactly the instances of the hundred years from the start on, each once, in order. *)
Theorem C81_simple : forall ctx tzo s rrule d r lim a,
  dt_parseText ctx false s = Ok d -> rule_parse ctx rrule = Ok r -> hasBy r = false -> instant (kind d) d a -> advances (kind d) r d -> until_at (kind d) d 0 r lim ->
  exists e b, century d e /\ instant (kind d) e b /\ exists N, forall fuel, (N <= fuel)%nat -> exists items,
    instances_tool ctx tzo fuel s rrule = Some (printed d rrule items, Ok tt) /\ enumerates (kind d) items (fun x => instances (kind d) r lim d x /\ a <= x < b).
Proof. exact InstancesProofs.simple_tool. Qed.
Print Assumptions C81_simple.
(** From 29 February 2000 on every fifty years: 2050 has none; and the hundred years end on 1 March 2100. *)
Definition leap0 : dt := newDate 2000 2 29 false TzNone.
Definition every (n : Z) : rule := set_interval n (set_freq YEARLY rule_init).
Example C81_simple_ex :
  dt_parseText default_ctx false (lit "20000229") = Ok leap0 /\ rule_parse default_ctx (lit "FREQ=YEARLY;INTERVAL=40") = Ok (every 40) /\ hasBy (every 40) = false /\
  instant (kind leap0) leap0 11016 /\ advances (kind leap0) (every 40) leap0 /\ until_at (kind leap0) leap0 0 (every 40) None /\
  forall tzo, instances_tool default_ctx tzo 9 (lit "20000229") (lit "FREQ=YEARLY;INTERVAL=40") =
    Some ([lit "DTSTART:20000229"; lit "RRULE:FREQ=YEARLY;INTERVAL=40"; lit "Instances: 20000229, 20400229, 20800229"], Ok tt).
Proof.
  split; [vm_compute; reflexivity|]. split; [vm_compute; reflexivity|]. split; [reflexivity|]. split.
  - split; [repeat split; vm_compute; congruence|]. split; [reflexivity|]. left. split; [lia|]. vm_compute. reflexivity.
  - split; [split; [vm_compute; congruence|]; repeat split; vm_compute; congruence|]. split; [reflexivity|]. intro tzo. vm_compute. reflexivity.
Qed.
(** Rules with BY parts, in the years of C49: exactly the instances of the hundred years, in order. *)
Theorem C81_by : forall ctx tzo s rrule d r lim a,
  dt_parseText ctx false s = Ok d -> rule_parse ctx rrule = Ok r -> hasBy r = true -> instant (kind d) d a -> by_ok (kind d) r ->
  until_at (kind d) d 0 r lim -> clock_ordered tzo (kind d) -> 1902 <= mYear d -> (exists k x, 0 <= k /\ interval_at (kind d) r d a k x /\ mYear d + 100 < mYear x <= 2099) ->
  exists e b, century d e /\ instant (kind d) e b /\ exists N, forall fuel, (N <= fuel)%nat -> exists items,
    instances_tool ctx tzo fuel s rrule = Some (printed d rrule items, Ok tt) /\ lists_in_order (kind d) items (fun x => by_instances (kind d) r lim d a x /\ a <= x < b).
Proof. exact InstancesProofs.by_tool. Qed.
Print Assumptions C81_by.
(** The last Friday of January, every thirty years. *)
Definition fridays : rule := PropRecur2.rule_of "FREQ=YEARLY;INTERVAL=30;BYMONTH=1;BYDAY=-1FR".
Example C81_by_ex : let d := PropRecur2.utc 1970 1 1 9 in
  dt_parseText default_ctx false (lit "19700101T090000Z") = Ok d /\ rule_parse default_ctx (lit "FREQ=YEARLY;INTERVAL=30;BYMONTH=1;BYDAY=-1FR") = Ok fridays /\ hasBy fridays = true /\
  instant (kind d) d 32400 /\ by_ok (kind d) fridays /\ until_at (kind d) d 0 fridays None /\ (forall tzo, clock_ordered tzo (kind d)) /\ 1902 <= mYear d /\
  (exists k x, 0 <= k /\ interval_at (kind d) fridays d 32400 k x /\ mYear d + 100 < mYear x <= 2099) /\
  instances_tool default_ctx PropRecur2.no_zones 9 (lit "19700101T090000Z") (lit "FREQ=YEARLY;INTERVAL=30;BYMONTH=1;BYDAY=-1FR") =
    Some ([lit "DTSTART:19700101T090000Z"; lit "RRULE:FREQ=YEARLY;INTERVAL=30;BYMONTH=1;BYDAY=-1FR"; lit "Instances: 19700130T090000Z, 20000128T090000Z, 20300125T090000Z, 20600130T090000Z"], Ok tt).
Proof.
  cbv zeta. split; [vm_compute; reflexivity|]. split; [vm_compute; reflexivity|]. split; [reflexivity|].
  split; [exact (PropRecur4.utc_at 1970 1 1 9 0 ltac:(repeat split; vm_compute; congruence) ltac:(left; split; [lia|vm_compute; reflexivity]))|]. split.
  { assert (E : exists r, r = fridays) by eauto. destruct E as [r E]. rewrite <- E. unfold fridays in E. vm_compute in E. subst r.
    split; [|split; [|split; [|split; [|split; [|split]]]]]; try reflexivity; try (cbn; tauto); try discriminate.
    - repeat split; try (cbn; lia); try exact I; try (constructor; [cbn; lia|constructor]).
    - intros _. split; [cbn; tauto|]. left. left. cbn. exact I. }
  split; [reflexivity|]. split; [intro tzo; apply PropRecur4.C49_fixed_zone; left; reflexivity|]. split; [cbn; lia|]. split.
  { exists 4, (PropRecur2.utc 2090 1 1 9). split; [lia|]. split; [|cbn; lia]. repeat split; cbn; lia. }
  vm_compute. reflexivity.
Qed.
(** A start or a rule that cannot be read: nothing is printed, and ValueError. *)
Theorem C81_refused : forall ctx tzo fuel s rrule, (forall r, rule_parse ctx rrule <> Ok r) \/ (forall d, dt_parseText ctx false s <> Ok d) ->
  instances_tool ctx tzo fuel s rrule = Some ([], Raise ValueError).
Proof. exact InstancesProofs.refused. Qed.
Print Assumptions C81_refused.
Example C81_refused_ex : (forall r, rule_parse default_ctx (lit "FREQ=OFTEN") <> Ok r) /\ (forall d, dt_parseText default_ctx false (lit "tomorrow") <> Ok d).
Proof. split; intros x H; vm_compute in H; discriminate H. Qed.
(** Whatever it is given, it prints all three lines or nothing; the first has the start with its fields in range. *)
Theorem C81_whole : forall ctx tzo fuel s rrule l u, instances_tool ctx tzo fuel s rrule = Some (l, u) ->
  (exists e, l = [] /\ u = Raise e) \/ exists d r items, u = Ok tt /\ dt_parseText ctx false s = Ok d /\ rule_parse ctx rrule = Ok r /\ l = printed (normalise d) rrule items.
Proof. exact InstancesProofs.whole. Qed.
Print Assumptions C81_whole.
Example C81_whole_ex : forall tzo, instances_tool default_ctx tzo 9 (lit "20201301") (lit "FREQ=DAILY;COUNT=2") =
  Some ([lit "DTSTART:20210101"; lit "RRULE:FREQ=DAILY;COUNT=2"; lit "Instances: 20210101, 20210102"], Ok tt).
Proof. intro tzo. vm_compute. reflexivity. Qed.

(** ** What does not hold *)
(** The tool does not end for an hourly rule from a date on, whatever the time zones are. *)
Theorem C81_ends_refuted : exists s rrule d r, dt_parseText default_ctx false s = Ok d /\ rule_parse default_ctx rrule = Ok r /\ forall tzo fuel, instances_tool default_ctx tzo fuel s rrule = None.
Proof. exists (lit "20200101"), (lit "FREQ=HOURLY"). eexists. eexists. split; [vm_compute; reflexivity|]. split; [vm_compute; reflexivity|]. exact InstancesProofs.hourly_tool. Qed.
Print Assumptions C81_ends_refuted.
(** With COUNT and BY parts the start is counted but not printed, even if it is an instance. *)
Theorem C81_count_refuted : exists s rrule r, rule_parse default_ctx rrule = Ok r /\ rUseCount r = true /\ rCount r = 2 /\
  exists tzo, instances_tool default_ctx tzo 99 s rrule = Some ([lit "DTSTART:" ++ s; lit "RRULE:" ++ rrule; lit "Instances: 20200201"], Ok tt).
Proof. exists (lit "20200101"), (lit "FREQ=MONTHLY;BYMONTHDAY=1;COUNT=2"). eexists. split; [vm_compute; reflexivity|]. split; [reflexivity|]. split; [reflexivity|]. exists PropRecur2.no_zones. vm_compute. reflexivity. Qed.
Print Assumptions C81_count_refuted.
