(** Proofs about the sets that the BY parts of a rule generate. *)
From Coq Require Import Lia ZifyBool ZifyNat.
From Verif Require Import PyBase PyProofs CalModel CalSpec DateTimeModel DateTimeSpec CalProofs DateTimeProofs DateTimeProofs2
  DateTimeProofs3 RecurModel RecurSpec RecurExpand RecurSetSpec PropDateProofs.
Ltac Zify.zify_post_hook ::= Z.div_mod_to_equations.

(** ** Lists *)
Lemma describes_iff o S S' : (forall e, S e <-> S' e) -> describes o S -> describes o S'.
Proof. intros E [A B]. split; intros e H; [apply E, A, H|apply B, E, H]. Qed.

Lemma keepr_spec {A} f (P : A -> Prop) l :
  (forall x, In x l -> exists b, f x = Ok b /\ (b = true <-> P x)) ->
  exists p, keepr f l = Ok (filter p l) /\ forall x, In x l -> (p x = true <-> P x).
Proof.
  intro H. exists (fun x => match f x with Ok b => b | _ => false end). split.
  - induction l as [|x t IH]; [reflexivity|]. cbn [keepr filter].
    destruct (H x (or_introl eq_refl)) as (b & E & _). rewrite E. cbn [rbind].
    rewrite IH by (intros; apply H; right; assumption). cbn [rbind]. destruct b; reflexivity.
  - intros x Hx. destruct (H x Hx) as (b & E & I). rewrite E. exact I.
Qed.

Lemma anyr_spec {A} f (P : A -> Prop) l :
  (forall x, In x l -> exists b, f x = Ok b /\ (b = true <-> P x)) ->
  exists b, anyr f l = Ok b /\ (b = true <-> exists x, In x l /\ P x).
Proof.
  induction l as [|x t IH]; intro H; cbn [anyr].
  - exists false. split; [reflexivity|]. split; [discriminate|intros (x & [] & _)].
  - destruct (H x (or_introl eq_refl)) as (b & E & I). rewrite E. cbn [rbind]. destruct b.
    + exists true. split; [reflexivity|]. split; [|reflexivity]. intros _. exists x.
      split; [left; reflexivity|apply I; reflexivity].
    + destruct IH as (b & E' & I'); [intros; apply H; right; assumption|].
      exists b. split; [exact E'|]. rewrite I'. split.
      * intros (y & Hy & Py). exists y. split; [right|]; assumption.
      * intros (y & [<-|Hy] & Py); [apply I in Py; discriminate|]. exists y. split; assumption.
Qed.

Lemma keepr_desc f P ds S :
  describes ds S ->
  (forall x, In x ds -> exists b, f x = Ok b /\ (b = true <-> P x)) ->
  (forall x y, visible x = visible y -> P y -> P x) ->
  exists o, keepr f ds = Ok o /\ describes o (fun e => S e /\ P e).
Proof.
  intros [A B] H I. destruct (keepr_spec f P ds H) as (p & E & Hp).
  exists (filter p ds). split; [exact E|]. split.
  - intros e He. apply filter_In in He as [H1 H2]. split; [apply A, H1|apply Hp; assumption].
  - intros e [He Pe]. destruct (B e He) as (e' & H1 & H2). exists e'. split; [|exact H2].
    apply filter_In. split; [exact H1|]. apply Hp; [exact H1|]. apply (I _ _ H2 Pe).
Qed.

Lemma flat_mapr_desc {A} (f : A -> res (list dt)) (Q : A -> dt -> Prop) l :
  (forall x, In x l -> exists ys, f x = Ok ys /\ describes ys (Q x)) ->
  exists o, flat_mapr f l = Ok o /\ describes o (fun e => exists x, In x l /\ Q x e).
Proof.
  induction l as [|x t IH]; intro H; cbn [flat_mapr].
  - exists []. split; [reflexivity|]. split; [intros e []|intros e (x & [] & _)].
  - destruct (H x (or_introl eq_refl)) as (ys & E & [A1 A2]). rewrite E. cbn [rbind].
    destruct IH as (o & E' & [B1 B2]); [intros; apply H; right; assumption|]. rewrite E'. cbn [rbind].
    exists (ys ++ o). split; [reflexivity|]. split.
    + intros e He. apply in_app_or in He as [He|He].
      * exists x. split; [left; reflexivity|apply A1, He].
      * destruct (B1 e He) as (x' & H1 & H2). exists x'. split; [right|]; assumption.
    + intros e (x' & [<-|Hx] & Qe).
      * destruct (A2 e Qe) as (e' & H1 & H2). exists e'. split; [apply in_or_app; left|]; assumption.
      * destruct (B2 e) as (e' & H1 & H2); [exists x'; split; assumption|].
        exists e'. split; [apply in_or_app; right|]; assumption.
Qed.

Lemma mapr_desc {A} (f : A -> res dt) (Q : A -> dt -> Prop) l :
  (forall x, In x l -> exists y, f x = Ok y /\ describes [y] (Q x)) ->
  exists o, mapr f l = Ok o /\ describes o (fun e => exists x, In x l /\ Q x e).
Proof.
  intro H. destruct (flat_mapr_desc (fun x => do y <- f x; Ok [y]) Q l) as (o & E & D).
  { intros x Hx. destruct (H x Hx) as (y & E & D). rewrite E. exists [y]. split; [reflexivity|exact D]. }
  exists o. split; [|exact D]. rewrite <- E. clear - H. induction l as [|x t IH]; [reflexivity|].
  cbn [mapr flat_mapr]. destruct (H x (or_introl eq_refl)) as (y & E & _). rewrite E. cbn [rbind].
  rewrite IH by (intros; apply H; right; assumption).
  destruct (flat_mapr (fun x0 => do y0 <- f x0; Ok [y0]) t); reflexivity.
Qed.

Lemma map_desc {A} (f : A -> dt) (Q : A -> dt -> Prop) l :
  (forall x, In x l -> describes [f x] (Q x)) ->
  describes (map f l) (fun e => exists x, In x l /\ Q x e).
Proof.
  intro H. destruct (mapr_desc (fun x => Ok (f x)) Q l) as (o & E & D).
  { intros x Hx. exists (f x). split; [reflexivity|apply H, Hx]. }
  assert (mapr (fun x => Ok (f x)) l = Ok (map f l)) as E'.
  { clear. induction l as [|x t IH]; [reflexivity|]. cbn [mapr map]. cbn [rbind]. rewrite IH. reflexivity. }
  rewrite E' in E. injection E as ->. exact D.
Qed.

(** ** Sets given by a condition on the date and one for each unit of the clock *)
Definition cset (s : dt) (D : date -> Prop) (H M S : Z -> Prop) (e : dt) : Prop :=
  same_kind s e /\ D (ymd e) /\ H (mHours e) /\ M (mMinutes e) /\ S (mSeconds e).
(** The clock still being that of the start. *)
Definition dset (s : dt) (D : date -> Prop) : dt -> Prop :=
  cset s D (eq (mHours s)) (eq (mMinutes s)) (eq (mSeconds s)).
(** The start, moved to another day and without its caches. *)
Definition rebuild (s : dt) (dd : date) : dt :=
  mkDT (year_of dd) (month_of dd) (day_of dd) (mHours s) (mMinutes s) (mSeconds s) (mDateOnly s) (mTZUTC s) (mTZID s) None false 0.

Lemma visible_split a b : visible a = visible b <->
  ymd a = ymd b /\ mHours a = mHours b /\ mMinutes a = mMinutes b /\ mSeconds a = mSeconds b /\
  mDateOnly a = mDateOnly b /\ mTZUTC a = mTZUTC b /\ mTZID a = mTZID b.
Proof.
  unfold visible. split.
  - intro H. repeat match goal with H : (_, _) = (_, _) |- _ => apply pair_equal_spec in H; destruct H end.
    repeat split; assumption.
  - intros (-> & -> & -> & -> & -> & -> & ->). reflexivity.
Qed.

Lemma ymd_rebuild s dd : ymd (rebuild s dd) = dd.
Proof. destruct dd as [[y m] d]. reflexivity. Qed.

Lemma rebuild_dset s (D : date -> Prop) dd : D dd -> dset s D (rebuild s dd).
Proof. intro H. unfold dset, cset, same_kind. rewrite ymd_rebuild. cbn. auto 10. Qed.

Lemma cset_visible s D H M S x y : visible x = visible y -> cset s D H M S y -> cset s D H M S x.
Proof.
  intro E. apply visible_split in E as (E1 & E2 & E3 & E4 & E5 & E6 & E7).
  unfold cset, same_kind. rewrite E1, E2, E3, E4, E5, E6, E7. auto.
Qed.

Lemma dset_visible s D x : dset s D x -> visible x = visible (rebuild s (ymd x)).
Proof.
  intros ((A & B & C) & _ & H1 & H2 & H3). apply visible_split. rewrite ymd_rebuild. cbn. auto 10.
Qed.

Lemma start_desc s : describes [s] (dset s (eq (ymd s))).
Proof.
  split.
  - intros e [<-|[]]. unfold dset, cset, same_kind. auto 10.
  - intros e H. exists s. split; [left; reflexivity|].
    destruct H as ((A & B & C) & H0 & H1 & H2 & H3). apply visible_split. auto 10.
Qed.

Lemma one_desc s x D : dset s D x -> (forall dd, D dd -> dd = ymd x) -> describes [x] (dset s D).
Proof.
  intros H I. split.
  - intros e [<-|[]]. exact H.
  - intros e He. exists x. split; [left; reflexivity|].
    rewrite (dset_visible s D x H), (dset_visible s D e He). do 2 f_equal. symmetry. apply I, He.
Qed.

(** ** Stages *)
Lemma limit_stage f P s D ds :
  describes ds (dset s D) ->
  (forall x, dset s D x -> exists b, f x = Ok b /\ (b = true <-> P (ymd x))) ->
  exists o, keepr f ds = Ok o /\ describes o (dset s (fun dd => D dd /\ P dd)).
Proof.
  intros Dd H. destruct (keepr_desc f (fun x => P (ymd x)) ds (dset s D) Dd) as (o & E & Do).
  - intros x Hx. apply H, Dd, Hx.
  - intros x y E Py. apply visible_split in E as (E & _). rewrite E. exact Py.
  - exists o. split; [exact E|]. revert Do. apply describes_iff. intro e. unfold dset, cset. tauto.
Qed.

Lemma expand_stage f Q s D ds :
  describes ds (dset s D) ->
  (forall x, dset s D x -> exists ys, f x = Ok ys /\ describes ys (dset s (Q (ymd x)))) ->
  exists o, flat_mapr f ds = Ok o /\ describes o (dset s (fun dd => exists d0, D d0 /\ Q d0 dd)).
Proof.
  intros Dd H. destruct (flat_mapr_desc f (fun x => dset s (Q (ymd x))) ds) as (o & E & [A B]).
  - intros x Hx. apply H, Dd, Hx.
  - exists o. split; [exact E|]. split.
    + intros e He. destruct (A e He) as (x & Hx & K). apply Dd in Hx.
      unfold dset, cset in *. split; [apply K|]. split; [|apply K]. exists (ymd x). split; [apply Hx|apply K].
    + intros e He. apply B. destruct He as (K & (d0 & D0 & Q0) & C).
      destruct (proj2 Dd (rebuild s d0)) as (x & Hx & Ex); [apply rebuild_dset, D0|].
      exists x. split; [exact Hx|]. apply visible_split in Ex as (Ex & _). rewrite ymd_rebuild in Ex. rewrite Ex.
      split; [exact K|]. split; [exact Q0|exact C].
Qed.

(** Expansion of one unit of the clock. *)
Section Clock.
Variables (get : dt -> Z) (set : dt -> Z -> dt) (s : dt).
Variables (S0 S1 : dt -> Prop) (l : list Z).
Hypothesis into : forall x n, S0 x -> In n l -> S1 (set x n).
Hypothesis back : forall e, S1 e -> In (get e) l /\ exists x, S0 x /\
  forall x', visible x' = visible x -> visible (set x' (get e)) = visible e.

Lemma clock_expand ds : describes ds S0 ->
  exists o, flat_mapr (fun d => Ok (map (set d) l)) ds = Ok o /\ describes o S1.
Proof.
  intros [A B]. 
  assert (E : forall ds, flat_mapr (fun d => Ok (map (set d) l)) ds = Ok (flat_map (fun d => map (set d) l) ds)).
  { clear. induction ds as [|d t IH]; [reflexivity|]. cbn [flat_mapr flat_map rbind]. rewrite IH. reflexivity. }
  eexists. split; [apply E|]. split.
  - intros e He. apply in_flat_map in He as (x & Hx & He). apply in_map_iff in He as (n & <- & Hn). auto.
  - intros e He. destruct (back e He) as (Hn & x & Sx & V). destruct (B x Sx) as (x' & Hx' & Vx).
    exists (set x' (get e)). split; [|apply V, Vx]. apply in_flat_map. exists x'. split; [exact Hx'|].
    apply in_map, Hn.
Qed.
End Clock.

Lemma setHours_visible d n : visible (setHours d n) = visible (with_hms d n (mMinutes d) (mSeconds d)).
Proof. unfold setHours. destruct (Z.eqb_spec (mHours d) n) as [<-|]; [|reflexivity]. destruct d; reflexivity. Qed.
Lemma setMinutes_visible d n : visible (setMinutes d n) = visible (with_hms d (mHours d) n (mSeconds d)).
Proof. unfold setMinutes. destruct (Z.eqb_spec (mMinutes d) n) as [<-|]; [|reflexivity]. destruct d; reflexivity. Qed.
Lemma setSeconds_visible d n : visible (setSeconds d n) = visible (with_hms d (mHours d) (mMinutes d) n).
Proof. unfold setSeconds. destruct (Z.eqb_spec (mSeconds d) n) as [<-|]; [|reflexivity]. destruct d; reflexivity. Qed.
Lemma setMonth_visible d n : visible (setMonth d n) = visible (with_ymd d (mYear d) n (mDay d)).
Proof. unfold setMonth. destruct (Z.eqb_spec (mMonth d) n) as [<-|]; [|reflexivity]. destruct d; reflexivity. Qed.

Lemma hours_stage s D l M S ds : describes ds (cset s D (eq (mHours s)) M S) ->
  exists o, byHourExpand l ds = Ok o /\ describes o (cset s D (fun h => In h l) M S).
Proof.
  apply (clock_expand mHours setHours).
  - intros x n (K & HD & HH & HM & HS) Hn. eapply cset_visible; [apply setHours_visible|]. repeat split; try apply K; assumption.
  - intros e (K & HD & HH & HM & HS). split; [exact HH|]. exists (with_hms e (mHours s) (mMinutes e) (mSeconds e)). split.
    + repeat split; try apply K; assumption.
    + intros x' V. rewrite setHours_visible. apply visible_split in V as (V1 & V2 & V3 & V4 & V5 & V6 & V7).
      apply visible_split. auto 10.
Qed.
Lemma minutes_stage s D l H S ds : describes ds (cset s D H (eq (mMinutes s)) S) ->
  exists o, byMinuteExpand l ds = Ok o /\ describes o (cset s D H (fun h => In h l) S).
Proof.
  apply (clock_expand mMinutes setMinutes).
  - intros x n (K & HD & HH & HM & HS) Hn. eapply cset_visible; [apply setMinutes_visible|]. repeat split; try apply K; assumption.
  - intros e (K & HD & HH & HM & HS). split; [exact HM|]. exists (with_hms e (mHours e) (mMinutes s) (mSeconds e)). split.
    + repeat split; try apply K; assumption.
    + intros x' V. rewrite setMinutes_visible. apply visible_split in V as (V1 & V2 & V3 & V4 & V5 & V6 & V7).
      apply visible_split. auto 10.
Qed.
Lemma seconds_stage s D l H M ds : describes ds (cset s D H M (eq (mSeconds s))) ->
  exists o, bySecondExpand l ds = Ok o /\ describes o (cset s D H M (fun h => In h l)).
Proof.
  apply (clock_expand mSeconds setSeconds).
  - intros x n (K & HD & HH & HM & HS) Hn. eapply cset_visible; [apply setSeconds_visible|]. repeat split; try apply K; assumption.
  - intros e (K & HD & HH & HM & HS). split; [exact HS|]. exists (with_hms e (mHours e) (mMinutes e) (mSeconds s)). split.
    + repeat split; try apply K; assumption.
    + intros x' V. rewrite setSeconds_visible. apply visible_split in V as (V1 & V2 & V3 & V4 & V5 & V6 & V7).
      apply visible_split. auto 10.
Qed.

(** ** The parts of a generator *)
Definition part {A} (l : option (list A)) (f : list A -> list dt -> res (list dt)) (ds : list dt) : res (list dt) :=
  if has l then f (items l) ds else Ok ds.
Lemma when_part {A} (l : option (list A)) f ds k : when l f ds k = do o <- part l f ds; k o.
Proof. unfold when, part. destruct (has l); reflexivity. Qed.
Lemma limit_part {A} (l : option (list A)) f ds k : k [] = Ok [] -> limit l f ds k = do o <- part l f ds; k o.
Proof.
  intro H. unfold limit, part. destruct (has l); [|reflexivity].
  destruct (f (items l) ds) as [[|x t]|]; cbn [rbind]; auto.
Qed.
Lemma has_given {A} (l : option (list A)) : has l = true <-> given l.
Proof. destruct l as [[|x t]|]; cbn; split; auto; try discriminate; tauto. Qed.
Lemma has_not_given {A} (l : option (list A)) : has l = false <-> ~ given l.
Proof. destruct l as [[|x t]|]; cbn; split; auto; try discriminate; tauto. Qed.

Lemma limit_in (get : dt -> Z) (l : list Z) x : exists b, anyr (fun n => Ok (get x =? n)) l = Ok b /\ (b = true <-> In (get x : Z) l).
Proof.
  destruct (anyr_spec (fun n => Ok (get x =? n)) (fun n => get x = n) l) as (b & E & I).
  { intros n _. exists (get x =? n). split; [reflexivity|apply Z.eqb_eq]. }
  exists b. split; [exact E|]. rewrite I. split; [intros (n & Hn & <-); exact Hn|]. intro Hn. exists (get x). auto.
Qed.

Section Parts.
Variable s : dt.

Lemma hours_part D l M S ds : describes ds (cset s D (eq (mHours s)) M S) ->
  exists o, part l byHourExpand ds = Ok o /\ describes o (cset s D (clock_unit l true (mHours s)) M S).
Proof.
  intro H. unfold part. destruct l as [[|x t]|]; cbn [has items clock_unit].
  2:{ destruct (hours_stage s D (x :: t) M S ds H) as (o & E & Do). exists o. split; [exact E|].
      revert Do. apply describes_iff. intro e. unfold cset, clock_unit. cbv beta. assert (true = false -> mHours e = mHours s) by discriminate. tauto. }
  all: exists ds; split; [reflexivity|]; revert H; apply describes_iff; intro e; unfold cset, clock_unit; cbv beta; intuition congruence.
Qed.
Lemma minutes_part D l H S ds : describes ds (cset s D H (eq (mMinutes s)) S) ->
  exists o, part l byMinuteExpand ds = Ok o /\ describes o (cset s D H (clock_unit l true (mMinutes s)) S).
Proof.
  intro Hd. unfold part. destruct l as [[|x t]|]; cbn [has items clock_unit].
  2:{ destruct (minutes_stage s D (x :: t) H S ds Hd) as (o & E & Do). exists o. split; [exact E|].
      revert Do. apply describes_iff. intro e. unfold cset, clock_unit. cbv beta. assert (true = false -> mMinutes e = mMinutes s) by discriminate. tauto. }
  all: exists ds; split; [reflexivity|]; revert Hd; apply describes_iff; intro e; unfold cset, clock_unit; cbv beta; intuition congruence.
Qed.
Lemma seconds_part D l H M ds : describes ds (cset s D H M (eq (mSeconds s))) ->
  exists o, part l bySecondExpand ds = Ok o /\ describes o (cset s D H M (clock_unit l true (mSeconds s))).
Proof.
  intro Hd. unfold part. destruct l as [[|x t]|]; cbn [has items clock_unit].
  2:{ destruct (seconds_stage s D (x :: t) H M ds Hd) as (o & E & Do). exists o. split; [exact E|].
      revert Do. apply describes_iff. intro e. unfold cset, clock_unit. cbv beta. assert (true = false -> mSeconds e = mSeconds s) by discriminate. tauto. }
  all: exists ds; split; [reflexivity|]; revert Hd; apply describes_iff; intro e; unfold cset, clock_unit; cbv beta; intuition congruence.
Qed.

Lemma hours_limit D l M S ds : describes ds (cset s D (eq (mHours s)) M S) ->
  exists o, part l byHourLimit ds = Ok o /\ describes o (cset s D (clock_unit l false (mHours s)) M S).
Proof.
  intro H. unfold part. destruct l as [[|x t]|]; cbn [has items clock_unit].
  2:{ destruct (keepr_desc (fun d => anyr (fun n => Ok (mHours d =? n)) (x :: t)) (fun e => In (mHours e) (x :: t)) ds _ H) as (o & E & Do).
      - intros d _. apply (limit_in mHours).
      - intros a b E. apply visible_split in E as (_ & -> & _). auto.
      - exists o. split; [exact E|]. revert Do. apply describes_iff. intro e. unfold cset, clock_unit. cbv beta. intuition congruence. }
  all: exists ds; split; [reflexivity|]; revert H; apply describes_iff; intro e; unfold cset, clock_unit; cbv beta; intuition congruence.
Qed.
Lemma minutes_limit D l H S ds : describes ds (cset s D H (eq (mMinutes s)) S) ->
  exists o, part l byMinuteLimit ds = Ok o /\ describes o (cset s D H (clock_unit l false (mMinutes s)) S).
Proof.
  intro Hd. unfold part. destruct l as [[|x t]|]; cbn [has items clock_unit].
  2:{ destruct (keepr_desc (fun d => anyr (fun n => Ok (mMinutes d =? n)) (x :: t)) (fun e => In (mMinutes e) (x :: t)) ds _ Hd) as (o & E & Do).
      - intros d _. apply (limit_in mMinutes).
      - intros a b E. apply visible_split in E as (_ & _ & -> & _). auto.
      - exists o. split; [exact E|]. revert Do. apply describes_iff. intro e. unfold cset, clock_unit. cbv beta. intuition congruence. }
  all: exists ds; split; [reflexivity|]; revert Hd; apply describes_iff; intro e; unfold cset, clock_unit; cbv beta; intuition congruence.
Qed.
Lemma seconds_limit D l H M ds : describes ds (cset s D H M (eq (mSeconds s))) ->
  exists o, part l bySecondLimit ds = Ok o /\ describes o (cset s D H M (clock_unit l false (mSeconds s))).
Proof.
  intro Hd. unfold part. destruct l as [[|x t]|]; cbn [has items clock_unit].
  2:{ destruct (keepr_desc (fun d => anyr (fun n => Ok (mSeconds d =? n)) (x :: t)) (fun e => In (mSeconds e) (x :: t)) ds _ Hd) as (o & E & Do).
      - intros d _. apply (limit_in mSeconds).
      - intros a b E. apply visible_split in E as (_ & _ & _ & -> & _). auto.
      - exists o. split; [exact E|]. revert Do. apply describes_iff. intro e. unfold cset, clock_unit. cbv beta. intuition congruence. }
  all: exists ds; split; [reflexivity|]; revert Hd; apply describes_iff; intro e; unfold cset, clock_unit; cbv beta; intuition congruence.
Qed.

(** The date parts that limit. *)
Lemma listed_limit {A} f (P : date -> A -> Prop) D (l : option (list A)) ds :
  describes ds (dset s D) ->
  (forall x v, dset s D x -> In v (items l) -> exists b, f x v = Ok b /\ (b = true <-> P (ymd x) v)) ->
  exists o, part l (fun l => keepr (fun x => anyr (f x) l)) ds = Ok o /\ describes o (dset s (fun dd => D dd /\ listed l (P dd))).
Proof.
  intros H F. unfold part. destruct l as [[|v t]|]; cbn [has items listed].
  2:{ apply (limit_stage _ (fun dd => exists w, In w (v :: t) /\ P dd w)); [exact H|].
      intros x Hx. apply anyr_spec. intros w Hw. apply F; assumption. }
  all: exists ds; split; [reflexivity|]; revert H; apply describes_iff; intro e; unfold dset, cset; tauto.
Qed.

Lemma drop_stage (D : date -> Prop) H M S ds : (forall dd, D dd -> 1 <= month_of dd <= 12 /\ 1752 < year_of dd) ->
  describes ds (cset s D H M S) ->
  exists o, drop_invalid ds = Ok o /\ describes o (cset s (fun dd => D dd /\ valid_date greg_leap dd) H M S).
Proof.
  intros I Hd. destruct (keepr_desc (fun x => do b <- invalid x; Ok (negb b)) (fun e => valid_date greg_leap (ymd e)) ds _ Hd) as (o & E & Do).
  - intros x Hx. apply Hd in Hx. destruct Hx as (_ & Hx & _). apply I in Hx as [Hm Hy].
    unfold month_of, year_of, ymd in Hm, Hy. cbn [fst snd] in Hm, Hy.
    unfold invalid, ymd, valid_date. rewrite (daysInMonth_r_ok _ _ Hm), (month_len_greg _ _ Hy).
    destruct (Z.leb_spec (mDay x) 0); cbn [rbind negb].
    + exists false. split; [reflexivity|]. split; [discriminate|lia].
    + eexists. split; [reflexivity|]. lia.
  - intros x y E. apply visible_split in E as (-> & _). auto.
  - exists o. split; [exact E|]. revert Do. apply describes_iff. intro e. unfold cset. tauto.
Qed.

(** ** Dates *)
Hypothesis start_ok : set_start s.

Lemma dset_valid D x : dset s D x -> valid_date greg_leap (ymd x) -> 1752 < mYear x -> valid_dt x.
Proof.
  intros ((K1 & _) & _ & H1 & H2 & H3) V Y. destruct start_ok as (_ & C & O).
  split; [|split].
  - unfold ymd in *. apply valid_greg_hist; assumption.
  - rewrite <- H1, <- H2, <- H3. exact C.
  - rewrite K1. intro E. unfold secs_of_day in *. rewrite <- H1, <- H2, <- H3. apply O, E.
Qed.

(** A day that is there, in the years for which weekdays are right. *)
Definition proper (dd : date) : Prop := valid_date greg_leap dd /\ 1901 <= year_of dd <= 2100.

Lemma month_limit D l ds : describes ds (dset s D) ->
  exists o, part l byMonthLimit ds = Ok o /\ describes o (dset s (fun dd => D dd /\ listed l (fun n => month_of dd = n))).
Proof.
  intro H. apply (listed_limit (fun d n => Ok (mMonth d =? n)) (fun dd n => month_of dd = n) D l ds H).
  intros x v _ _. eexists. split; [reflexivity|]. apply Z.eqb_eq.
Qed.
Lemma week_limit (D : date -> Prop) l ds : describes ds (dset s D) -> (forall dd, D dd -> proper dd) ->
  exists o, part l byWeekNoLimit ds = Ok o /\ describes o (dset s (fun dd => D dd /\ listed l (fun n => 0 < n /\ iso_week dd n))).
Proof.
  intros H I. apply (listed_limit isWeekNo (fun dd n => 0 < n /\ iso_week dd n) D l ds H).
  intros x v Hx _. pose proof (I _ (proj1 (proj2 Hx))) as [V Y]. change (year_of (ymd x)) with (mYear x) in Y.
  apply isWeekNo_iff; [apply (dset_valid D); auto; lia|exact Y].
Qed.
Lemma monthday_limit (D : date -> Prop) l ds : describes ds (dset s D) -> (forall dd, D dd -> proper dd) ->
  exists o, part l byMonthDayLimit ds = Ok o /\ describes o (dset s (fun dd => D dd /\ listed l (is_month_day dd))).
Proof.
  intros H I. apply (listed_limit isMonthDay is_month_day D l ds H).
  intros x v Hx _. pose proof (I _ (proj1 (proj2 Hx))) as [V Y]. change (year_of (ymd x)) with (mYear x) in Y.
  destruct (isMonthDay_spec x v) as (b & E & B); [apply (dset_valid D); auto; lia|].
  exists b. split; [exact E|]. rewrite B, month_len_greg by lia. reflexivity.
Qed.
Lemma day_limit (D : date -> Prop) l ds : describes ds (dset s D) -> (forall dd, D dd -> proper dd) -> all_in (fun nw => 0 <= snd nw <= 6) l ->
  exists o, part l byDayLimit ds = Ok o /\ describes o (dset s (fun dd => D dd /\ listed l (is_month_weekday dd))).
Proof.
  intros H I R. apply (listed_limit (fun d nw => isDayOfWeekInMonth d (fst nw) (snd nw)) is_month_weekday D l ds H).
  intros x v Hx Hv. pose proof (I _ (proj1 (proj2 Hx))) as [V Y]. change (year_of (ymd x)) with (mYear x) in Y.
  apply isDayOfWeekInMonth_spec; [apply (dset_valid D); auto; lia|exact Y|].
  destruct l as [l|]; [|destruct Hv]. apply (proj1 (Forall_forall _ _) R), Hv.
Qed.
End Parts.
