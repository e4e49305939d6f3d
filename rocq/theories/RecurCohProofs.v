(** The caches of the generated values are coherent. *)
From Coq Require Import Lia ZifyBool ZifyNat Sorting.Permutation.
From Verif Require Import PyBase PyProofs ParserCtx CalModel CalSpec DateTimeModel DateTimeSpec DateTimeSpec2 DateTimeText DateTimeOps
  CalProofs DateTimeProofs DateTimeOpsProofs RecurModel RecurTextProofs2 RecurExpand RecurSetSpec RecurSetProofs RecurSortProofs.
Ltac Zify.zify_post_hook ::= Z.div_mod_to_equations.

Section Coh.
Variable tzo : tzid -> Z -> Z -> Z -> Z -> Z -> Z -> bool -> bool -> Z.
Notation coh := (coherent tzo).

Lemma keepr_forall {A} (P : A -> Prop) f l o : Forall P l -> keepr f l = Ok o -> Forall P o.
Proof.
  revert o. induction l as [|x t IH]; intros o F H; cbn [keepr] in H; [injection H as <-; constructor|].
  inversion F; subst. destruct (f x) as [b|]; [|discriminate]. cbn [rbind] in H.
  destruct (keepr f t) as [o'|]; [|discriminate]. cbn [rbind] in H. injection H as <-. specialize (IH o' H3 eq_refl). destruct b; auto.
Qed.
Lemma flat_forall {A B} (P : A -> Prop) (Q : B -> Prop) (f : A -> res (list B)) l o :
  Forall P l -> (forall x o, P x -> f x = Ok o -> Forall Q o) -> flat_mapr f l = Ok o -> Forall Q o.
Proof.
  intros F Hf. revert o. induction F as [|x t Px F IH]; intros o H; cbn [flat_mapr] in H; [injection H as <-; constructor|].
  destruct (f x) as [b|] eqn:E; [|discriminate]. cbn [rbind] in H.
  destruct (flat_mapr f t) as [o'|]; [|discriminate]. cbn [rbind] in H. injection H as <-. apply Forall_app. split; [eapply Hf; eauto|apply IH; reflexivity].
Qed.
Lemma mapr_forall {A B} (Q : B -> Prop) (f : A -> res B) l o : (forall x y, f x = Ok y -> Q y) -> mapr f l = Ok o -> Forall Q o.
Proof.
  intros Hf. revert o. induction l as [|x t IH]; intros o H; cbn [mapr] in H; [injection H as <-; constructor|].
  destruct (f x) as [b|] eqn:E; [|discriminate]. cbn [rbind] in H.
  destruct (mapr f t) as [o'|]; [|discriminate]. cbn [rbind] in H. injection H as <-. constructor; [eapply Hf; eauto|apply IH; reflexivity].
Qed.
Lemma map_forall {A B} (Q : B -> Prop) (f : A -> B) l : (forall x, Q (f x)) -> Forall Q (map f l).
Proof. intro H. induction l; cbn; constructor; auto. Qed.
Lemma all_true {A} (l : list A) : Forall (fun _ => True) l.
Proof. induction l; constructor; auto. Qed.

Lemma st d o d' : coh d -> o <> OAdjustToUTC -> step tzo default_ctx d o = Ok d' -> coh d'.
Proof. intros C N H. eapply step_coherent; eauto. congruence. Qed.

Ltac byop op := match goal with C : coh ?d |- _ => eapply (st d op); [exact C|discriminate|cbn [step]; try reflexivity; try eassumption] end.
Lemma month_coh l ds o : Forall coh ds -> byMonthExpand l ds = Ok o -> Forall coh o.
Proof. intros F. apply flat_forall with (P := coh); [exact F|]. intros x p C H. injection H as <-. apply map_forall. intro n. byop (OSetMonth n). Qed.
Lemma week_coh l ds o : Forall coh ds -> byWeekNoExpand l ds = Ok o -> Forall coh o.
Proof. intros F. apply flat_forall with (P := coh); [exact F|]. intros x p C H. revert H. apply mapr_forall. intros n y E. byop (OSetWeekNo n). Qed.
Lemma yearday_coh l ds o : Forall coh ds -> byYearDayExpand l ds = Ok o -> Forall coh o.
Proof. intros F. apply flat_forall with (P := coh); [exact F|]. intros x p C H. injection H as <-. apply map_forall. intro n. byop (OSetYearDay n true). Qed.
Lemma monthday_coh l ds o : Forall coh ds -> byMonthDayExpand l ds = Ok o -> Forall coh o.
Proof. intros F. apply flat_forall with (P := coh); [exact F|]. intros x p C H. revert H. apply mapr_forall. intros n y E. byop (OSetMonthDay n true). Qed.
Lemma hour_coh l ds o : Forall coh ds -> byHourExpand l ds = Ok o -> Forall coh o.
Proof. intros F. apply flat_forall with (P := coh); [exact F|]. intros x p C H. injection H as <-. apply map_forall. intro n. byop (OSetHours n). Qed.
Lemma minute_coh l ds o : Forall coh ds -> byMinuteExpand l ds = Ok o -> Forall coh o.
Proof. intros F. apply flat_forall with (P := coh); [exact F|]. intros x p C H. injection H as <-. apply map_forall. intro n. byop (OSetMinutes n). Qed.
Lemma second_coh l ds o : Forall coh ds -> bySecondExpand l ds = Ok o -> Forall coh o.
Proof. intros F. apply flat_forall with (P := coh); [exact F|]. intros x p C H. injection H as <-. apply map_forall. intro n. byop (OSetSeconds n). Qed.
Lemma day_year_coh l ds o : Forall coh ds -> byDayExpandYearly l ds = Ok o -> Forall coh o.
Proof.
  intros F. apply flat_forall with (P := coh); [exact F|]. intros x p C. apply flat_forall with (P := fun _ => True); [apply all_true|].
  intros [n d] q _. cbn [fst snd]. destruct (negb (n =? 0)).
  - destruct (setDayOfWeekInYear x n d) as [t|] eqn:E; [|discriminate]. cbn [rbind]. intro H. injection H as <-. constructor; [|constructor].
    byop (OSetDowYear n d).
  - apply flat_forall with (P := fun _ => True); [apply all_true|]. intros i z _.
    destruct (setDayOfWeekInYear x i d) as [t|] eqn:E; [|discriminate]. cbn [rbind]. intro H. injection H as <-.
    destruct (_ =? _); constructor; [|constructor]. byop (OSetDowYear i d).
Qed.
Lemma day_month_coh l ds o : Forall coh ds -> byDayExpandMonthly l ds = Ok o -> Forall coh o.
Proof.
  intros F. apply flat_forall with (P := coh); [exact F|]. intros x p C. apply flat_forall with (P := fun _ => True); [apply all_true|].
  intros [n d] q _. cbn [fst snd]. destruct (negb (n =? 0)).
  - destruct (setDayOfWeekInMonth x n d true) as [t|] eqn:E; [|discriminate]. cbn [rbind]. intro H. injection H as <-. constructor; [|constructor].
    byop (OSetDowMonth n d true).
  - apply flat_forall with (P := fun _ => True); [apply all_true|]. intros i z _.
    destruct (setDayOfWeekInMonth x i d true) as [t|] eqn:E; [|discriminate]. cbn [rbind]. intro H. injection H as <-.
    destruct (_ =? _); constructor; [|constructor]. byop (OSetDowMonth i d true).
Qed.
Lemma day_week_coh k l ds o : Forall coh ds -> byDayExpandWeekly k l ds = Ok o -> Forall coh o.
Proof.
  intros F. apply flat_forall with (P := coh); [exact F|]. intros x p C. apply flat_forall with (P := fun _ => True); [apply all_true|].
  intros [n d] q _. cbn [fst snd]. destruct (n =? 0); [|intro H; injection H as <-; constructor].
  destruct (getDayOfWeek x) as [w|]; [|discriminate]. cbn [rbind]. cbv zeta. intro H.
  match type of H with Ok ?l = _ => assert (Q : q = l) by congruence end. rewrite Q. constructor; [|constructor].
  apply coh_norm.
Qed.

Definition keeps_coh {A} (f : list A -> list dt -> res (list dt)) : Prop := forall l ds o, Forall coh ds -> f l ds = Ok o -> Forall coh o.
Lemma part_coh {A} (l : option (list A)) f ds o : keeps_coh f -> Forall coh ds -> part l f ds = Ok o -> Forall coh o.
Proof. intros K F. unfold part. destruct (has l); [apply K, F|]. intro H. injection H as <-. exact F. Qed.


Ltac parts := repeat match goal with
  | F : Forall coh ?ds, H : rbind (part ?l ?f ?ds) _ = Ok _ |- _ =>
    let o := fresh "o" in let E := fresh "E" in destruct (part l f ds) as [o|] eqn:E; [|discriminate]; cbn [rbind] in H;
    apply part_coh in E; [clear F| |exact F]
  | F : Forall coh ?ds, H : part ?l ?f ?ds = Ok _ |- _ => apply part_coh in H; [exact H| |exact F]
  end.
Ltac one := first [exact month_coh|exact week_coh|exact yearday_coh|exact monthday_coh|exact hour_coh|exact minute_coh|exact second_coh|
  exact day_year_coh|exact day_month_coh|exact (day_week_coh _)|
  (let l := fresh in let ds := fresh in let o := fresh in let F := fresh in intros l ds o F; apply keepr_forall; exact F)].

Lemma pre_coh r s o : coh s -> pre_set r s = Ok o -> Forall coh o.
Proof.
  intros C H. assert (F : Forall coh [s]) by (constructor; [exact C|constructor]).
  unfold pre_set in H. destruct (rFreq r); unfold pre_yearly, pre_monthly, pre_weekly, pre_fine in H; parts;
    repeat match goal with |- keeps_coh (if ?b then _ else _) => destruct b end; one.
Qed.
Lemma sort_coh ds o : Forall coh ds -> sort_posix tzo ds = Ok o -> Forall coh o.
Proof.
  intros F. unfold sort_posix. destruct (mapr (posix_key tzo) ds) as [ks|] eqn:E; [|discriminate]. cbn [rbind]. intro H. injection H as <-.
  assert (G : Forall (fun k => coh (snd k)) ks).
  { revert ks E. induction F as [|d t C F IH]; intros ks E; cbn [mapr] in E; [injection E as <-; constructor|].
    unfold posix_key in E at 1. destruct (getPosixTime tzo d) as [d1 rr] eqn:P. destruct rr as [p|]; [|discriminate]. cbn [rbind] in E.
    destruct (mapr (posix_key tzo) t) as [ks'|]; [|discriminate]. cbn [rbind] in E. injection E as <-. constructor; [|apply IH; reflexivity].
    cbn [snd]. pose proof (coh_posix tzo d p C) as Q. rewrite P in Q. apply Q. reflexivity. }
  apply Forall_forall. intros x Hx. apply in_map_iff in Hx as (k & <- & Hk).
  rewrite Forall_forall in G. apply G. eapply Permutation_in; [apply Permutation_sym, isort_perm|exact Hk].
Qed.
Lemma set_coh r s o : coh s -> ~ given (rBySetPos r) -> generate_set tzo r s = Ok o -> Forall coh o.
Proof.
  intros C G. rewrite plain_set by exact G. destruct (pre_set r s) as [ds|] eqn:E; [|discriminate]. cbn [rbind].
  apply pre_coh in E; [|exact C]. destruct (drop_invalid ds) as [ds'|] eqn:E'; [|discriminate]. cbn [rbind].
  apply sort_coh. unfold drop_invalid in E'. eapply keepr_forall; [exact E|exact E'].
Qed.
End Coh.
