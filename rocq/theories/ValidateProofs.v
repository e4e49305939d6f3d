(** Proofs about validation: dictionaries, tables and the report of each check. *)
From Coq Require Import Lia ZifyBool ZifyNat.
From Verif Require Import PyProofs LineProofs PropertyProofs ComponentProofs2 ComponentProofs3 ValidateModel ValidateSpec.

Local Ltac case_beq := match goal with |- context [beq ?a ?b] => destruct (beq_case a b) as [[? ->]|[? ->]] end.

(** ** Dictionaries. *)
Lemma named_get n ps : tidy_props ps -> named n ps = getProperties n ps.
Proof.
  intros [N F]. unfold named, getProperties. induction ps as [|[k l] ps IH]; [reflexivity|].
  inversion N as [|? ? N1 N2]; subst. inversion F as [|? ? [F1 F2] F3]; subst. cbn [fst snd] in *. cbn [map List.concat assoc snd].
  rewrite filter_app, IH by assumption. clear IH.
  assert (E : filter (fun p => beq (upper (pName p)) n) l = if beq k n then l else []).
  { clear - F2. induction l as [|p l IH]; [case_beq; reflexivity|]. inversion F2 as [|? ? P Q]; subst. cbn [filter]. rewrite IH by assumption.
    case_beq; reflexivity. }
  rewrite E. destruct (beq_case k n) as [[-> ->]|[M ->]]; [|reflexivity].
  rewrite assoc_out by assumption. apply app_nil_r.
Qed.
Lemma many_count n ps : tidy_props ps -> many n ps = countProperty n ps.
Proof. intro T. unfold many, countProperty. rewrite named_get by assumption. reflexivity. Qed.
Lemma has_get n ps : tidy_props ps -> hasProperty n ps = match getProperties n ps with [] => false | _ => true end.
Proof.
  intros [N F]. unfold hasProperty, getProperties. destruct (assoc n ps) as [l|] eqn:E; [|reflexivity].
  apply assoc_some in E. rewrite Forall_forall in F. apply F in E as [E _]. cbn [snd] in E. destruct l; congruence.
Qed.
Lemma has_true n ps : tidy_props ps -> hasProperty n ps = true <-> named n ps <> [].
Proof. intro T. rewrite has_get, named_get by assumption. destruct (getProperties n ps); split; congruence. Qed.
Lemma has_false n ps : tidy_props ps -> hasProperty n ps = false <-> named n ps = [].
Proof. intro T. rewrite has_get, named_get by assumption. destruct (getProperties n ps); split; congruence. Qed.

Lemma in_named n p ps : tidy_props ps -> In p (named n ps) <-> In p (List.concat (map snd ps)) /\ upper (pName p) = n.
Proof. intro T. unfold named. rewrite filter_In, beq_eq. tauto. Qed.
Lemma in_get n p ps : tidy_props ps -> In p (getProperties n ps) <-> In p (List.concat (map snd ps)) /\ upper (pName p) = n.
Proof. intro T. rewrite <- in_named, named_get by assumption. tauto. Qed.

Lemma tidy_add n v ps : upper n = n -> tidy_props ps -> tidy_props (addProperty (mkProp n [] v) ps).
Proof.
  intros U [N F]. unfold addProperty. cbn [pName]. rewrite U. split; [apply add_NoDup; assumption|]. clear N.
  induction F as [|[k l] ps [F1 F2] F IH]; cbn [add_prop].
  - repeat constructor; cbn [fst snd]; [discriminate|assumption].
  - cbn [fst snd] in *. destruct (beq_case k n) as [[-> ->]|[M ->]].
    + constructor; [|assumption]. cbn [fst snd]. split; [destruct l; discriminate|]. apply Forall_app. split; [assumption|]. repeat constructor. assumption.
    + constructor; [split; assumption|assumption].
Qed.
Lemma get_addProperty name n v ps : upper n = n ->
  getProperties name (addProperty (mkProp n [] v) ps) = getProperties name ps ++ if beq n name then [mkProp n [] v] else [].
Proof. intro U. unfold addProperty. cbn [pName]. rewrite U. apply get_add. Qed.
Lemma remove_keys n ps k : In k (map fst (removeProperties n ps)) -> In k (map fst ps).
Proof.
  induction ps as [|[k' l] ps IH]; cbn [removeProperties map fst]; [tauto|].
  case_beq; cbn [map fst In]; [tauto|intros [?|?]; auto].
Qed.
Lemma tidy_remove n ps : tidy_props ps -> tidy_props (removeProperties n ps).
Proof.
  intros [N F]. split.
  - clear F. induction ps as [|[k l] ps IH]; [constructor|]. inversion N as [|? ? N1 N2]; subst. cbn [removeProperties map fst].
    case_beq; [assumption|]. cbn [map fst]. constructor; [|auto]. intro I. apply remove_keys in I. contradiction.
  - clear N. induction F as [|[k l] ps F1 F IH]; [constructor|]. cbn [removeProperties]. case_beq; [assumption|constructor; assumption].
Qed.
Lemma get_remove name n ps : tidy_props ps ->
  getProperties name (removeProperties n ps) = if beq n name then [] else getProperties name ps.
Proof.
  intros [N _]. unfold getProperties. induction ps as [|[k l] ps IH]; [case_beq; reflexivity|].
  inversion N as [|? ? N1 N2]; subst. cbn [removeProperties map fst].
  destruct (beq_case k n) as [[-> ->]|[M ->]]; cbn [assoc].
  - case_beq; [|reflexivity]. subst. rewrite assoc_out by assumption. reflexivity.
  - destruct (beq_case k name) as [[-> ->]|[M2 ->]]; [|apply IH; assumption].
    destruct (beq_case n name) as [[-> _]|[_ ->]]; [congruence|reflexivity].
Qed.
Lemma replace_keys n l ps : map fst (replaceProperties n l ps) = map fst ps.
Proof. induction ps as [|[k x] ps IH]; [reflexivity|]. cbn [replaceProperties]. case_beq; cbn [map fst]; [reflexivity|]. f_equal. exact IH. Qed.
Lemma get_replace name n l ps : (getProperties n ps = [] -> l = []) ->
  getProperties name (replaceProperties n l ps) = if beq n name then l else getProperties name ps.
Proof.
  unfold getProperties. induction ps as [|[k x] ps IH]; intro H.
  - cbn in *. case_beq; [symmetry; auto|reflexivity].
  - cbn [replaceProperties assoc] in *. destruct (beq_case k n) as [[-> E]|[M E]]; rewrite E in *; cbn [assoc].
    + case_beq; [reflexivity|reflexivity].
    + destruct (beq_case k name) as [[-> ->]|[M2 ->]]; [|apply IH; assumption].
      destruct (beq_case n name) as [[-> _]|[_ ->]]; [congruence|reflexivity].
Qed.
Lemma tidy_replace n l ps : tidy_props ps -> Forall2 (fun p q => pName p = pName q) (getProperties n ps) l -> tidy_props (replaceProperties n l ps).
Proof.
  intros [N F] H. split; [rewrite replace_keys; assumption|]. unfold getProperties in H. clear N.
  induction F as [|[k x] ps [F1 F2] F IH]; [constructor|]. cbn [replaceProperties assoc fst snd] in *.
  destruct (beq_case k n) as [[-> E]|[M E]]; rewrite E in *.
  - constructor; [|assumption]. cbn [fst snd]. clear - F1 F2 H. split.
    + inversion H; subst; congruence.
    + clear F1. induction H as [|p q x l P H IH]; [constructor|]. inversion F2; subst. constructor; [congruence|auto].
  - constructor; [split; assumption|]. apply IH. exact H.
Qed.
Lemma replace_same n ps : replaceProperties n (getProperties n ps) ps = ps.
Proof.
  unfold getProperties. induction ps as [|[k x] ps IH]; [reflexivity|]. cbn [replaceProperties assoc].
  case_beq; [reflexivity|]. f_equal. exact IH.
Qed.

(** ** Tables. *)
Definition fam_eqb (a b : family) : bool :=
  match a, b with
  | Calendar, Calendar | Event, Event | ToDo, ToDo | Journal, Journal | FreeBusy, FreeBusy | Zone, Zone | Observance, Observance
  | Availability, Availability | Available, Available | Poll, Poll | Voter, Voter | Vote, Vote | AudioAlarm, AudioAlarm
  | DisplayAlarm, DisplayAlarm | EmailAlarm, EmailAlarm | UriAlarm, UriAlarm | NoneAlarm, NoneAlarm | OtherAlarm, OtherAlarm
  | Other, Other => true
  | _, _ => false
  end.
Lemma fam_eqb_eq a b : fam_eqb a b = true <-> a = b.
Proof. split; [destruct a, b; (reflexivity || discriminate)|intros <-; destruct a; reflexivity]. Qed.
Definition names_for (t : list (bytes * list family)) (f : family) : list bytes :=
  map fst (filter (fun x => existsb (fam_eqb f) (snd x)) t).
Lemma listed_names t n f : listed t n f <-> In n (names_for t f).
Proof.
  unfold listed, names_for. rewrite in_map_iff. split.
  - intros (fs & I & J). exists (n, fs). split; [reflexivity|]. rewrite filter_In. split; [assumption|].
    rewrite existsb_exists. exists f. split; [exact J|apply fam_eqb_eq; reflexivity].
  - intros ([n' fs] & E & I). cbn in E. subst n'. apply filter_In in I as [I J]. exists fs. split; [assumption|].
    rewrite existsb_exists in J. destruct J as (g & J & E). apply fam_eqb_eq in E. subst g. exact J.
Qed.
Definition inclb (a b : list bytes) : bool := forallb (fun x => existsb (beq x) b) a.
Lemma inclb_in a b : inclb a b = true -> forall n, In n a -> In n b.
Proof.
  unfold inclb. rewrite forallb_forall. intros H n I. apply H in I. rewrite existsb_exists in I.
  destruct I as (x & I & E). apply beq_eq in E. subst x. assumption.
Qed.
Lemma same_names a b n : inclb a b && inclb b a = true -> In n a <-> In n b.
Proof. intro H. apply Bool.andb_true_iff in H as [H1 H2]. split; apply inclb_in; assumption. Qed.
Ltac by_kind k s := destruct k;
  lazymatch goal with
  | |- context [VALARM] => unfold family_of, cardinality_1, alarm_once, cardinality_1_Fix_Empty, cardinality_0_1, alarm_at_most, cardinality_1_More; destruct (sAction s) as [|p|p];
      [vm_compute; reflexivity|destruct p as [[[p|p|]|[p|p|]|]|[[p|p|]|[p|p|]|]|]; vm_compute; reflexivity|vm_compute; reflexivity]
  | |- _ => vm_compute; reflexivity
  end.
Lemma table_1 k s n : In n (cardinality_1 k s) <-> listed exactly_once n (family_of k s).
Proof. rewrite listed_names. apply same_names. by_kind k s. Qed.
Lemma table_text k s n : In n (cardinality_1_Fix_Empty k s) <-> listed exactly_once_text n (family_of k s).
Proof. rewrite listed_names. apply same_names. by_kind k s. Qed.
Lemma table_0_1 k s n : In n (cardinality_0_1 k s) <-> listed at_most_once n (family_of k s).
Proof. rewrite listed_names. apply same_names. by_kind k s. Qed.
Lemma table_more k s n : In n (cardinality_1_More k s) <-> listed at_least_once n (family_of k s).
Proof. rewrite listed_names. apply same_names. by_kind k s. Qed.
Lemma table_recur k s : is_recur k = true <-> In (family_of k s) recurring.
Proof.
  unfold recurring. destruct k; cbn [is_recur family_of In]; try (split; intuition congruence).
  split; [discriminate|]. destruct (sAction s) as [|p|p]; try intuition congruence. destruct p as [[[p|p|]|[p|p|]|]|[[p|p|]|[p|p|]|]|]; intuition congruence.
Qed.

(** ** The cardinality checks. *)
Lemma in_report k text (f : bytes -> bool) l m : In m (map (msg k text) (filter f l)) <-> exists n, In n l /\ f n = true /\ m = says k text n.
Proof.
  rewrite in_map_iff. split.
  - intros (n & <- & I). apply filter_In in I as [I J]. exists n. repeat split; assumption.
  - intros (n & I & J & ->). exists n. split; [reflexivity|]. apply filter_In. split; assumption.
Qed.
Lemma in_check_1 k s ps m : tidy_props ps -> In m (check_1 k s ps) <->
  exists n, listed exactly_once n (family_of k s) /\ many n ps <> 1%nat /\ m = says k (lit "Missing or too many required property") n.
Proof.
  intro T. unfold check_1. rewrite in_report. split; intros (n & I & J & E); exists n; rewrite table_1 in *; rewrite many_count in * by assumption;
    repeat split; auto; [apply Bool.negb_true_iff, Nat.eqb_neq in J; assumption|apply Bool.negb_true_iff, Nat.eqb_neq; assumption].
Qed.
Lemma in_check_0_1 k s ps m : tidy_props ps -> In m (check_0_1 k s ps) <->
  exists n, listed at_most_once n (family_of k s) /\ (1 < many n ps)%nat /\ m = says k (lit "Too many properties present") n.
Proof.
  intro T. unfold check_0_1. rewrite in_report. split; intros (n & I & J & E); exists n; rewrite table_0_1 in *; rewrite many_count in * by assumption;
    repeat split; auto; [apply Nat.ltb_lt in J; assumption|apply Nat.ltb_lt; assumption].
Qed.
Lemma in_check_1_More k s ps m : tidy_props ps -> In m (check_1_More k s ps) <->
  exists n, listed at_least_once n (family_of k s) /\ many n ps = 0%nat /\ m = says k (lit "Missing required property") n.
Proof.
  intro T. unfold check_1_More. rewrite in_report. split; intros (n & I & J & E); exists n; rewrite table_more in *; rewrite many_count in * by assumption;
    repeat split; auto; [apply Bool.negb_true_iff, Nat.ltb_ge in J; lia|apply Bool.negb_true_iff, Nat.ltb_ge; lia].
Qed.
Definition filled (doFix : bool) (names : list bytes) (ps : props) (n : bytes) : list prop :=
  getProperties n ps ++ (if doFix && existsb (beq n) names && (countProperty n ps =? 0)%nat then [text_property n []] else []).
Lemma existsb_beq n l : existsb (beq n) l = true <-> In n l.
Proof. rewrite existsb_exists. split; [intros (x & I & E); apply beq_eq in E; subst; assumption|intro I; exists n; split; [assumption|apply beq_refl]]. Qed.
Lemma fill_empty k doFix names : NoDup names -> (forall n, In n names -> upper n = n) -> forall ps, tidy_props ps ->
  exists ps' f u, check_1_Fix_Empty k doFix names ps = (ps', (f, u)) /\ tidy_props ps' /\
    (forall n, getProperties n ps' = filled doFix names ps n) /\
    (doFix = false -> ps' = ps) /\
    (forall m, In m f <-> doFix = true /\ exists n, In n names /\ many n ps = 0%nat /\ m = says k (lit "Missing required property") n) /\
    (forall m, In m u <-> (exists n, In n names /\ (1 < many n ps)%nat /\ m = says k (lit "Too many required property") n) \/
                          (doFix = false /\ exists n, In n names /\ many n ps = 0%nat /\ m = says k (lit "Missing required property") n)).
Proof.
  intros N. induction names as [|x names IH]; intros U ps T; cbn [check_1_Fix_Empty].
  - exists ps, [], []. split; [reflexivity|]. split; [assumption|]. split; [intro n; unfold filled; cbn [existsb]; rewrite Bool.andb_false_r; symmetry; apply app_nil_r|].
    split; [reflexivity|]. split; intro m; [split; [intros []|intros (_ & n & [] & _)]|split; [intros []|intros [(n & [] & _)|(_ & n & [] & _)]]].
  - inversion N as [|? ? N1 N2]; subst. assert (Ux : upper x = x) by (apply U; left; reflexivity).
    specialize (IH N2 (fun n I => U n (or_intror I))). rewrite <- (many_count x ps T).
    destruct (1 <? many x ps)%nat eqn:C; [|destruct (many x ps =? 0)%nat eqn:D].
    + apply Nat.ltb_lt in C. destruct (IH ps T) as (ps' & f & u & -> & T' & G & S & F & V). exists ps', f, (msg k (lit "Too many required property") x :: u).
      split; [reflexivity|]. split; [assumption|]. split; [|split; [assumption|split]].
      * intro n. rewrite G. unfold filled. f_equal. cbn [existsb]. destruct (beq_case n x) as [[-> ->]|[M ->]]; [|reflexivity].
        replace (countProperty x ps =? 0)%nat with false; [rewrite !Bool.andb_false_r; reflexivity|]. rewrite many_count in C by assumption. symmetry. apply Nat.eqb_neq. lia.
      * intro m. rewrite F. split; intros (E & n & I & J & K); (split; [assumption|]); exists n; [split; [right; assumption|split; assumption]|].
        destruct I as [<-|I]; [lia|]. repeat split; assumption.
      * intro m. cbn [In]. rewrite V. split.
        -- intros [<-|[(n & I & J & K)|(E & n & I & J & K)]]; [left; exists x; repeat split; auto; left; reflexivity|left; exists n; repeat split; auto; right; assumption|
             right; split; [assumption|]; exists n; repeat split; auto; right; assumption].
        -- intros [(n & I & J & K)|(E & n & I & J & K)].
           ++ destruct I as [<-|I]; [left; symmetry; exact K|]. right. left. exists n. repeat split; assumption.
           ++ destruct I as [<-|I]; [lia|]. right. right. split; [assumption|]. exists n. repeat split; assumption.
    + apply Nat.eqb_eq in D. destruct doFix.
      * assert (T2 : tidy_props (addProperty (text_property x []) ps)) by (apply tidy_add; assumption).
        destruct (IH _ T2) as (ps' & f & u & -> & T' & G & S & F & V). exists ps', (msg k (lit "Missing required property") x :: f), u.
        assert (A : forall n, n <> x -> getProperties n (addProperty (text_property x []) ps) = getProperties n ps).
        { intros n M. unfold text_property. rewrite get_addProperty by assumption. destruct (beq_case x n) as [[-> _]|[_ ->]]; [congruence|apply app_nil_r]. }
        assert (B : forall n, n <> x -> many n (addProperty (text_property x []) ps) = many n ps).
        { intros n M. rewrite !many_count by assumption. unfold countProperty. rewrite A by assumption. reflexivity. }
        assert (I0 : forall n, In n names -> n <> x) by (intros n I ->; contradiction).
        split; [reflexivity|]. split; [assumption|]. split; [|split; [discriminate|split]].
        -- intro n. rewrite G. unfold filled. cbn [existsb andb]. destruct (beq_case n x) as [[-> ->]|[M ->]].
           ++ replace (existsb (beq x) names) with false.
              2:{ symmetry. apply Bool.not_true_iff_false. rewrite existsb_beq. assumption. }
              cbn [orb andb]. rewrite app_nil_r. unfold text_property at 1. rewrite get_addProperty, beq_refl by assumption.
              rewrite many_count in D by assumption. rewrite D. reflexivity.
           ++ unfold countProperty. rewrite A by assumption. cbn [orb]. reflexivity.
        -- intro m. cbn [In]. rewrite F. split.
           ++ intros [<-|(_ & n & I & J & K)]; (split; [reflexivity|]); [exists x; repeat split; auto|]. rewrite B in J by auto. exists n. repeat split; auto.
           ++ intros (_ & n & [<-|I] & J & K); [left; symmetry; assumption|]. right. split; [reflexivity|]. exists n. rewrite B by auto. repeat split; assumption.
        -- intro m. rewrite V. split.
           ++ intros [(n & I & J & K)|(E & _)]; [|discriminate]. left. rewrite B in J by auto. exists n. repeat split; auto. right. assumption.
           ++ intros [(n & [<-|I] & J & K)|(E & _)]; [lia| |discriminate]. left. exists n. rewrite B by auto. repeat split; assumption.
      * destruct (IH ps T) as (ps' & f & u & -> & T' & G & S & F & V). exists ps', f, (msg k (lit "Missing required property") x :: u).
        split; [reflexivity|]. split; [assumption|]. split; [|split; [assumption|split]].
        -- intro n. rewrite G. unfold filled. cbn [andb]. reflexivity.
        -- intro m. rewrite F. split; intros [E _]; discriminate.
        -- intro m. cbn [In]. rewrite V. split.
           ++ intros [<-|[(n & I & J & K)|(E & n & I & J & K)]]; [right; split; [reflexivity|]; exists x; repeat split; auto; left; reflexivity
               |left; exists n; repeat split; auto; right; assumption|right; split; [reflexivity|]; exists n; repeat split; auto; right; assumption].
           ++ intros [(n & I & J & K)|(E & n & I & J & K)].
              ** destruct I as [<-|I]; [lia|]. right. left. exists n. repeat split; assumption.
              ** destruct I as [<-|I]; [left; symmetry; assumption|]. right. right. split; [reflexivity|]. exists n. repeat split; assumption.
    + apply Nat.ltb_ge in C. apply Nat.eqb_neq in D. destruct (IH ps T) as (ps' & f & u & -> & T' & G & S & F & V). exists ps', f, u.
      split; [reflexivity|]. split; [assumption|]. split; [|split; [assumption|split]].
      * intro n. rewrite G. unfold filled. f_equal. cbn [existsb]. destruct (beq_case n x) as [[-> ->]|[M ->]]; [|reflexivity].
        replace (countProperty x ps =? 0)%nat with false; [rewrite !Bool.andb_false_r; reflexivity|]. rewrite many_count in D by assumption. symmetry. apply Nat.eqb_neq. assumption.
      * intro m. rewrite F. split; intros (E & n & I & J & K); (split; [assumption|]); exists n; [split; [right; assumption|split; assumption]|].
        destruct I as [<-|I]; [lia|]. repeat split; assumption.
      * intro m. rewrite V. split.
        -- intros [(n & I & J & K)|(E & n & I & J & K)]; [left; exists n; repeat split; auto; right; assumption|
             right; split; [assumption|]; exists n; repeat split; auto; right; assumption].
        -- intros [(n & I & J & K)|(E & n & I & J & K)].
           ++ destruct I as [<-|I]; [lia|]. left. exists n. repeat split; assumption.
           ++ destruct I as [<-|I]; [lia|]. right. split; [assumption|]. exists n. repeat split; assumption.
Qed.
Lemma text_table_ok k s : NoDup (cardinality_1_Fix_Empty k s) /\ forall n, In n (cardinality_1_Fix_Empty k s) -> upper n = n.
Proof.
  unfold cardinality_1_Fix_Empty. destruct k; try (split; [constructor|intros n []]).
  destruct (sAction s =? 1); [|destruct (sAction s =? 2)]; [| |split; [constructor|intros n []]].
  - split; [repeat constructor; intros []|]. intros n [<-|[]]. reflexivity.
  - split; [repeat constructor; cbn; intuition discriminate|]. intros n [<-|[<-|[]]]; reflexivity.
Qed.

(** ** STATUS. *)
Lemma text_is v t : text_of v = Some t <-> is_text v t.
Proof.
  unfold text_of, is_text. split.
  - destruct v as [[i|l]|]; try discriminate. destruct i; try discriminate; intro H.
    + injection H as ->. left. reflexivity.
    + subst. right. left. eexists. reflexivity.
    + subst. right. right. reflexivity.
  - intros [->|[[c ->]| ->]]; reflexivity.
Qed.
Lemma has_cancelled_spec l : (forall p, In p l -> exists t, is_text (pValue p) t) ->
  exists b, has_cancelled l = Ok b /\ (b = true <-> exists p t, In p l /\ is_text (pValue p) t /\ upper t = lit "CANCELLED").
Proof.
  induction l as [|p l IH]; intro H; cbn [has_cancelled].
  - exists false. split; [reflexivity|]. split; [discriminate|intros (p & t & [] & _)].
  - destruct (H p (or_introl eq_refl)) as [t E]. pose proof (proj2 (text_is _ _) E) as E2. rewrite E2.
    destruct (beq_case (upper t) (lit "CANCELLED")) as [[F ->]|[F ->]].
    + exists true. split; [reflexivity|]. split; [intros _; exists p, t; repeat split; auto; left; reflexivity|reflexivity].
    + destruct IH as (b & Hb & I); [intros q J; apply H; right; assumption|]. exists b. split; [exact Hb|]. rewrite I. split.
      * intros (q & t' & J & K & L). exists q, t'. repeat split; auto. right. assumption.
      * intros (q & t' & J & K & L). exists q, t'. split; [|split; assumption]. destruct J as [<-|J]; [|assumption].
        exfalso. apply F. rewrite <- L. f_equal. apply text_is in E, K. congruence.
Qed.
Lemma has_cancelled_ok l b : has_cancelled l = Ok b -> b = true <-> exists p t, In p l /\ is_text (pValue p) t /\ upper t = lit "CANCELLED".
Proof.
  intro H. destruct b.
  - split; [intros _|reflexivity]. induction l as [|p l IH]; cbn [has_cancelled] in H; [discriminate|].
    destruct (text_of (pValue p)) as [t|] eqn:E; [|discriminate].
    destruct (beq_case (upper t) (lit "CANCELLED")) as [[F G]|[F G]]; rewrite G in H.
    + exists p, t. split; [left; reflexivity|]. split; [apply text_is|]; assumption.
    + destruct (IH H) as (q & t' & J & K). exists q, t'. split; [right; assumption|assumption].
  - split; [discriminate|]. intros (q & t' & J & K & L). induction l as [|p l IH]; cbn [has_cancelled] in H; [contradiction|].
    destruct (text_of (pValue p)) as [t|] eqn:E; [|discriminate].
    destruct (beq_case (upper t) (lit "CANCELLED")) as [[F G]|[F G]]; rewrite G in H; [discriminate|].
    destruct J as [->|J]; [|auto]. apply text_is in K. congruence.
Qed.
Definition status_fixed (k : kind) (ps : props) : Prop := is_recur k = true /\ (1 < many (lit "STATUS") ps)%nat /\ cancelled ps.
