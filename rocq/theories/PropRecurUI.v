(** Property C93: what rules and recurrence sets tell user interfaces. *)
From Coq Require Import Lia ZifyBool.
From Verif Require Import PyBase ParserCtx DateTimeModel PeriodModel RecurModel RecurSpec RecurExpand RecurSetModel RecurUIModel RecurUISpec RecurUIProofs PropRecur1.

(** The simple rules are those without BY parts. *)
Theorem C93_simple : forall r, isSimpleRule r = true <-> simple_rule r.
Proof. exact simple_is. Qed.
Print Assumptions C93_simple.
(** The advanced rules. *)
Theorem C93_advanced : forall r, isAdvancedRule r = true <-> advanced_rule r.
Proof. exact advanced_is. Qed.
Print Assumptions C93_advanced.
(** So every simple rule is an advanced one. *)
Theorem C93_simple_advanced : forall r, isSimpleRule r = true -> isAdvancedRule r = true.
Proof.
  intros r H. apply simple_is in H. apply advanced_is. destruct H as (A & B & C & D & E & F & G & _ & I). repeat (split; [assumption|]). split; [|split; [exists 0; split; [lia|]|auto]].
  - intros x m Ex In. destruct E as [E|E]; rewrite E in Ex; [discriminate Ex|]. injection Ex as <-. destruct In.
  - intros x m Ex In. destruct D as [D|D]; rewrite D in Ex; [discriminate Ex|]. injection Ex as <-. destruct In.
Qed.
Print Assumptions C93_simple_advanced.
(** The description of a rule is read as the rule. *)
Theorem C93_rule_description : forall ctx tzo r, rule_ok r -> exists q, rule_parse ctx (rule_getUIDescription r) = Ok q /\ rule_equals tzo r q = Ok true.
Proof. intros ctx tzo r H. destruct (C29_text ctx tzo r H) as (P & E). exists (canon r). split; assumption. Qed.
Print Assumptions C93_rule_description.

(** The description of a set: nothing, or several things, or an exception for a single rule. *)
Theorem C93_description : forall s,
  (getUIDescription s = Ok (lit "No Recurrence") <-> no_recurrence s) /\
  (getUIDescription s = Raise AttributeError <-> exists r, lone_rule s r) /\
  (getUIDescription s = Ok (lit "Multiple recurrence rules, dates or exclusions") <-> ~ no_recurrence s /\ forall r, ~ lone_rule s r).
Proof.
  intro s. pose proof (no_recurrence_is s) as N. unfold getUIDescription. destruct (hasRecurrence s) eqn:H; cbn [negb].
  - assert (N' : ~ no_recurrence s) by (intro X; apply N in X; discriminate X).
    match goal with |- context [if ?b then _ else _] => destruct b eqn:E end.
    + rewrite !Bool.andb_true_iff, !len0 in E. destruct E as (((((A & B) & C) & D) & F) & G).
      assert (L : exists r, lone_rule s r).
      { destruct (sRrules s) as [|[r c] [|y t]] eqn:R; try discriminate A. exists r. split; [exists c; exact R|auto]. }
      split; [split; [discriminate|intro X; destruct (N' X)]|]. split; [split; [intros _; exact L|reflexivity]|]. split; [discriminate|]. intros (_ & X). destruct L as (r & L). destruct (X r L).
    + assert (L : forall r, ~ lone_rule s r).
      { intros r ((c & R) & A & B & C & D & F). rewrite R, A, B, C, D, F in E. discriminate E. }
      split; [split; [discriminate|intro X; destruct (N' X)]|]. split; [split; [discriminate|intros (r & X); destruct (L r X)]|]. split; auto.
  - assert (N' : no_recurrence s) by (apply N; reflexivity). split; [split; auto|]. split.
    + split; [discriminate|]. intros (r & (c & R) & _). destruct N' as (X & _). rewrite X in R. discriminate R.
    + split; [discriminate|]. intros (X & _). destruct (X N').
Qed.
Print Assumptions C93_description.
(** The rule for an interface: the RRULE if there is one only. *)
Theorem C93_rule : forall s r, getUIRecurrence s = Some r <-> sRrules s = [r].
Proof.
  intros s r. unfold getUIRecurrence. destruct (sRrules s) as [|x [|y t]]; (split; intro H; try discriminate H); injection H as ->; reflexivity.
Qed.
Print Assumptions C93_rule.
(** Whether an interface can show a set: false for sets with more than one RRULE and EXDATEs, true for those without an RRULE; but an exception when it comes to the rule. *)
Theorem C93_sets : forall s,
  isSimpleUI s = isAdvancedUI s /\ (isSimpleUI s = Ok false <-> ~ few_rules s) /\ (isSimpleUI s = Ok true <-> few_rules s /\ sRrules s = []) /\
  (isSimpleUI s = Raise AttributeError <-> few_rules s /\ exists r, sRrules s = [r]).
Proof.
  intro s. pose proof (few_is s) as F. unfold isSimpleUI, isAdvancedUI. destruct (too_much s) eqn:T.
  - assert (N : ~ few_rules s) by (intro X; apply F in X; discriminate X). split; [reflexivity|]. split; [tauto|]. split; (split; [discriminate|tauto]).
  - assert (Y : few_rules s) by (apply F; reflexivity). split; [reflexivity|]. pose proof Y as ([R|(r & R)] & _); rewrite R; cbn [List.length Nat.eqb].
    + split; [split; [discriminate|tauto]|]. split; [tauto|]. split; [discriminate|]. intros (_ & r & X). discriminate X.
    + split; [split; [discriminate|tauto]|]. split; [split; [discriminate|intros (_ & X); discriminate X]|]. split; [|reflexivity]. intros _. split; [exact Y|]. exists r. reflexivity.
Qed.
Print Assumptions C93_sets.
(** Comparing dates or periods gives an answer only when it follows from the numbers. *)
Theorem C93_equals : forall (a b : list dt) (p q : list period),
  (equalsDates a b = Ok false <-> List.length a <> List.length b) /\ (equalsDates a b = Ok true <-> a = [] /\ b = []) /\
  (equalsPeriods p q = Ok false <-> List.length p <> List.length q) /\ (equalsPeriods p q = Ok true <-> p = [] /\ q = []).
Proof.
  assert (G : forall A (a b : list A), let f := if negb (List.length a =? List.length b)%nat then Ok false else if (List.length a =? 0)%nat then Ok true else Raise AttributeError in
    (f = Ok false <-> List.length a <> List.length b) /\ (f = Ok true <-> a = [] /\ b = [])).
  { intros A a b. cbn zeta. destruct (Nat.eqb_spec (List.length a) (List.length b)) as [E|N]; cbn [negb].
    - destruct a as [|x a]; cbn [List.length Nat.eqb].
      + destruct b; [|discriminate E]. split; [split; [discriminate|intro X; destruct (X E)]|tauto].
      + split; [split; [discriminate|intro X; destruct (X E)]|]. split; [discriminate|]. intros (X & _). discriminate X.
    - split; [tauto|]. split; [discriminate|]. intros (-> & ->). destruct N. reflexivity. }
  intros a b p q. destruct (G dt a b) as (A & B). destruct (G period p q) as (C & D). auto.
Qed.
Print Assumptions C93_equals.

(** ** Examples *)
Definition ui_rule (s : string) : rule := match rule_parse default_ctx (lit s) with Ok r => r | Raise _ => rule_init end.
Definition ui_set (l : list string) (dates exdates : list dt) : rset := mkRset (map (fun s => (ui_rule s, cache_init)) l) [] dates exdates [] [].
Example C93_simple_ex : isSimpleRule (ui_rule "FREQ=WEEKLY;INTERVAL=2;COUNT=5") = true /\ isSimpleRule (ui_rule "FREQ=WEEKLY;BYDAY=MO") = false.
Proof. split; vm_compute; reflexivity. Qed.
Example C93_advanced_ex : isAdvancedRule (ui_rule "FREQ=MONTHLY;BYDAY=-1MO,-1TU;BYSETPOS=1") = true /\ isAdvancedRule (ui_rule "FREQ=MONTHLY;BYDAY=1MO,2TU") = false /\
  isAdvancedRule (ui_rule "FREQ=MONTHLY;BYMONTHDAY=-8") = false /\ isAdvancedRule (ui_rule "FREQ=YEARLY;BYMONTH=3;BYMONTHDAY=31") = true.
Proof. repeat split; vm_compute; reflexivity. Qed.
Example C93_description_ex : no_recurrence (ui_set [] [] []) /\ lone_rule (ui_set ["FREQ=DAILY"%string] [] []) (ui_rule "FREQ=DAILY") /\
  getUIDescription (ui_set ["FREQ=DAILY"%string] [newDefault] []) = Ok (lit "Multiple recurrence rules, dates or exclusions").
Proof.
  split; [repeat split|]. split; [|vm_compute; reflexivity]. split; [exists cache_init; reflexivity|]. repeat split.
Qed.
Example C93_sets_ex : few_rules (ui_set ["FREQ=DAILY"%string] [] [newDefault]) /\ isSimpleUI (ui_set [] [] [newDefault]) = Ok true /\
  isSimpleUI (ui_set ["FREQ=DAILY"%string; "FREQ=WEEKLY"%string] [] []) = Ok false.
Proof. split; [split; [right; eexists; reflexivity|repeat split]|]. split; vm_compute; reflexivity. Qed.
Example C93_rule_description_ex : rule_getUIDescription (ui_rule "COUNT=3;FREQ=DAILY") = lit "FREQ=DAILY;COUNT=3".
Proof. vm_compute. reflexivity. Qed.

(** An interface is never told that it can show a rule, nor is there a description of it. *)
Theorem C93_lone_rule_refuted : exists s r, lone_rule s r /\ isSimpleRule r = true /\ isSimpleUI s = Raise AttributeError /\ isAdvancedUI s = Raise AttributeError /\
  getUIDescription s = Raise AttributeError.
Proof.
  exists (ui_set ["FREQ=DAILY"%string] [] []), (ui_rule "FREQ=DAILY"). split; [exact (proj1 (proj2 C93_description_ex))|]. repeat split; vm_compute; reflexivity.
Qed.
Print Assumptions C93_lone_rule_refuted.
(** The comment (775-780) has BYMONTHDAY with no negative value and BYDAY numbers 1 to 4, -2 and -1 or none, BYMONTH and BYSETPOS; the last day of the month is accepted as well. *)
Theorem C93_negative_refuted : exists r, rByMonthDay r = Some [-1] /\ isAdvancedRule r = true.
Proof. exists (ui_rule "FREQ=MONTHLY;BYMONTHDAY=-1"). split; vm_compute; reflexivity. Qed.
Print Assumptions C93_negative_refuted.
(** A set is equal to itself, and equal lists of dates are equal: there is an exception. *)
Theorem C93_equal_refuted : exists s, rset_equals s s = Raise AttributeError /\ equalsDates (sRdates s) (sRdates s) = Raise AttributeError.
Proof. exists (ui_set [] [newDefault] []). split; vm_compute; reflexivity. Qed.
Print Assumptions C93_equal_refuted.
