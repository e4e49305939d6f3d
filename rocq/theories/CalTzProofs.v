(** Proofs about the time zones of a calendar. *)
From Coq Require Import Lia.
From Verif Require Import PyBase PyProofs DateTimeModel PropertyModel ComponentModel CalendarModel CalendarProofs DupModel DupSpec DupProofs CalTzModel CalTzSpec.

Lemma tz_eqb_eq a b : tz_eqb a b = true <-> a = b.
Proof.
  destruct a, b; cbn; split; intro H; try discriminate; try reflexivity; try congruence.
  - apply beq_eq in H as ->. reflexivity.
  - injection H as ->. apply beq_refl.
  - apply Z.eqb_eq in H as ->. reflexivity.
  - injection H as ->. apply Z.eqb_refl.
Qed.
Lemma tz_set_in l t : In t (tz_set l) <-> In t l.
Proof.
  induction l as [|a l IH]; [reflexivity|]. cbn [tz_set]. destruct (existsb (tz_eqb a) (tz_set l)) eqn:E.
  - rewrite IH. split; [right; assumption|]. intros [<-|H]; [|exact H]. apply existsb_exists in E as (x & I & Q). apply tz_eqb_eq in Q as <-. apply IH, I.
  - cbn [In]. rewrite IH. reflexivity.
Qed.
Lemma tz_set_NoDup l : NoDup (tz_set l).
Proof.
  induction l as [|a l IH]; [constructor|]. cbn [tz_set]. destruct (existsb (tz_eqb a) (tz_set l)) eqn:E; [exact IH|]. constructor; [|exact IH].
  intro I. assert (X : existsb (tz_eqb a) (tz_set l) = true) by (apply existsb_exists; exists a; split; [exact I|apply tz_eqb_eq; reflexivity]). congruence.
Qed.
Lemma tz_true_iff t : tz_true t = true <-> t <> TzNone /\ t <> TzName [] /\ t <> TzInt 0.
Proof.
  destruct t as [|[|a s]|n]; cbn; split; intro H; try discriminate; try tauto; try (repeat split; discriminate).
  - apply Bool.negb_true_iff, Z.eqb_neq in H. repeat split; congruence.
  - apply Bool.negb_true_iff, Z.eqb_neq. intros ->. apply H. reflexivity.
Qed.
Lemma own_spec c t : In t (own_tzids c) <-> tz_true t = true /\ dated_in t c.
Proof.
  unfold own_tzids, dated_in. rewrite in_flat_map. fold (all_props c). split.
  - intros (p & I & H). unfold prop_tzids in H. destruct (pValue p) as [[i|ty l]|] eqn:E; cbn in H; try contradiction.
    destruct i; cbn in H; try contradiction. destruct (tz_true (mTZID d)) eqn:T; [|contradiction]. destruct H as [<-|[]]. split; [exact T|]. eauto.
  - intros (T & p & d & I & E & <-). exists p. split; [exact I|]. unfold prop_tzids. rewrite E. cbn. rewrite T. left. reflexivity.
Qed.
Lemma uses_spec subs t :
  In t (tz_set (flat_map getTimezones (filter (fun c => negb (beq (getType (cKind c)) (lit "VTIMEZONE"))) subs))) <-> uses subs t.
Proof.
  rewrite tz_set_in, in_flat_map. unfold uses. split.
  - intros (c & I & H). apply filter_In in I as (I & N). apply Bool.negb_true_iff in N. unfold getTimezones in H.
    assert (X : tz_true t = true /\ (dated_in t c \/ cKind c = VAVAILABILITY /\ exists a, In a (cSubs c) /\ upper_type a = lit "AVAILABLE" /\ dated_in t a)).
    { apply in_app_or in H as [H|H].
      - apply own_spec in H as [T D]. auto.
      - destruct (cKind c) eqn:K; try contradiction. apply in_flat_map in H as (a & A & H). apply filter_In in A as (A & U). apply beq_eq in U.
        apply own_spec in H as [T D]. split; [exact T|]. right. split; [reflexivity|]. exists a. auto. }
    destruct X as [T X]. apply tz_true_iff in T as (T1 & T2 & T3). repeat (split; [assumption|]). exists c. split; [exact I|]. split; [|exact X].
    intro E. rewrite E, beq_refl in N. discriminate.
  - intros (T1 & T2 & T3 & c & I & N & X). assert (T : tz_true t = true) by (apply tz_true_iff; auto). exists c. split.
    + apply filter_In. split; [exact I|]. apply Bool.negb_true_iff. destruct (beq (getType (cKind c)) (lit "VTIMEZONE")) eqn:E; [|reflexivity]. apply beq_eq in E. contradiction.
    + unfold getTimezones. apply in_or_app. destruct X as [D|(K & a & A & U & D)].
      * left. apply own_spec. auto.
      * right. rewrite K. apply in_flat_map. exists a. split; [apply filter_In; split; [exact A|rewrite U; apply beq_refl]|]. apply own_spec. auto.
Qed.

Lemma zone_upper c : zone c -> upper_type c = lit "VTIMEZONE".
Proof. intro Z. unfold upper_type. rewrite Z. reflexivity. Qed.
Lemma same_id_eq id t : same_id id t = true <-> TzName id = t.
Proof. destruct t; cbn; split; intro H; try discriminate; [apply beq_eq in H as ->; reflexivity|injection H as ->; apply beq_refl]. Qed.
Lemma find_zone t subs : zones_only subs -> exists o, find_timezone t subs = Ok o /\ (o <> None <-> has_zone subs t).
Proof.
  intro Z. induction subs as [|c r IH].
  - exists None. split; [reflexivity|]. split; [congruence|]. intros (c & [] & _).
  - inversion Z as [|? ? Zc Zr]; subst. destruct (IH Zr) as (o & E & H). cbn [find_timezone]. destruct (beq (upper_type c) (lit "VTIMEZONE")) eqn:U.
    + apply beq_eq in U. specialize (Zc U). unfold getID. rewrite Zc. cbn [rbind]. destruct (same_id (sID (cState c)) t) eqn:S.
      * exists (Some c). split; [reflexivity|]. split; [|discriminate]. intros _. exists c. split; [left; reflexivity|]. split; [exact Zc|]. apply same_id_eq, S.
      * exists o. split; [exact E|]. rewrite H. split; intros (x & I & Zx & Q).
        -- exists x. split; [right; exact I|]. auto.
        -- destruct I as [<-|I]; [apply same_id_eq in Q; congruence|]. exists x. auto.
    + exists o. split; [exact E|]. rewrite H. split; intros (x & I & Zx & Q).
      * exists x. split; [right; exact I|]. auto.
      * destruct I as [<-|I]; [rewrite (zone_upper _ Zx), beq_refl in U; discriminate|]. exists x. auto.
Qed.
Lemma has_zone_app l r t : has_zone (l ++ r) t <-> has_zone l t \/ has_zone r t.
Proof.
  unfold has_zone. split.
  - intros (c & I & H). apply in_app_or in I as [I|I]; [left|right]; exists c; auto.
  - intros [(c & I & H)|(c & I & H)]; exists c; (split; [apply in_or_app; auto|exact H]).
Qed.

Section Include.
Variable lookup : tzid -> option comp.
Variable standard : tzid -> bool.
Variable uuid : tzid -> list nat -> bytes.
Hypothesis S : sound lookup.
(** A zone added is the copy of the one the database has. *)
Definition added_ok (z' : comp) : Prop := zone z' /\ exists z, lookup (TzName (sID (cState z'))) = Some z /\ copy_of z z'.

Lemma each_spec m l : m <> NO_TIMEZONES -> NoDup l -> forall subs, zones_only subs ->
  exists new, include_each lookup standard uuid m l subs = Ok (subs ++ new) /\ Forall added_ok new /\ NoDup (map (fun z => TzName (sID (cState z))) new) /\
    (forall t, has_zone new t <-> In t l /\ wanted standard m t /\ ~ has_zone subs t /\ lookup t <> None).
Proof.
  intro M. induction l as [|t l IH]; intros N subs Z.
  - exists []. rewrite app_nil_r. split; [reflexivity|]. split; [constructor|]. split; [constructor|]. intro t. split; [intros (c & [] & _)|intros ([] & _)].
  - apply NoDup_cons_iff in N as [N1 N2]. cbn [include_each].
    assert (skip : (wanted standard m t -> ~ has_zone subs t -> lookup t <> None -> False) ->
      exists new, include_each lookup standard uuid m l subs = Ok (subs ++ new) /\ Forall added_ok new /\ NoDup (map (fun z => TzName (sID (cState z))) new) /\
        (forall u, has_zone new u <-> In u (t :: l) /\ wanted standard m u /\ ~ has_zone subs u /\ lookup u <> None)).
    { intro H. destruct (IH N2 subs Z) as (new & E & A & D & Q). exists new. repeat (split; [assumption|]). intro u. rewrite Q. cbn [In]. split; [tauto|].
      intros ([<-|I] & W & P & L); [exfalso; auto|auto]. }
    destruct ((match m with NONSTD_TIMEZONES => true | _ => false end) && standard t) eqn:B.
    { apply skip. destruct m; try discriminate B. cbn in *. congruence. }
    destruct (find_zone t subs Z) as (o & -> & H). cbn [rbind]. destruct o as [c|].
    { apply skip. intros _ P _. apply P, H. discriminate. }
    destruct (lookup t) as [z|] eqn:L; [|apply skip; congruence].
    destruct (S t z L) as (K & R & I). destruct (copies (uuid t) z R []) as (z' & -> & C). cbn [rbind].
    assert (K' : zone z' /\ TzName (sID (cState z')) = t).
    { destruct C as [k s s' ps l1 l2 _ _ _ Q _ _]. unfold zone in *. cbn in K. subst k. split; [reflexivity|]. cbn in *. rewrite Q by reflexivity. exact I. }
    destruct K' as [K' I'].
    assert (Z' : zones_only (subs ++ [z'])) by (apply Forall_app; split; [exact Z|constructor; [intros _; exact K'|constructor]]).
    destruct (IH N2 (subs ++ [z']) Z') as (new & E & A & D & Q). exists (z' :: new).
    assert (W : wanted standard m t) by (destruct m; cbn in *; [exact Logic.I|exact B|congruence]).
    assert (P : ~ has_zone subs t) by (intro P; apply H in P; congruence).
    assert (One : forall u, has_zone [z'] u <-> u = t).
    { intro u. split; [intros (c & [<-|[]] & _ & X); congruence|]. intros ->. exists z'. split; [left; reflexivity|]. auto. }
    split; [rewrite E, <- app_assoc; reflexivity|]. split; [constructor; [|exact A]; split; [exact K'|exists z; rewrite I'; auto]|]. split.
    + cbn [map]. constructor; [|exact D]. intro X. apply in_map_iff in X as (y & Y1 & Y2).
      assert (HZ : has_zone new t). { exists y. split; [exact Y2|]. rewrite Forall_forall in A. split; [apply A, Y2|congruence]. }
      apply Q in HZ as (X & _). contradiction.
    + intro u. change (z' :: new) with ([z'] ++ new). rewrite has_zone_app, One, Q, has_zone_app, One. cbn [In]. split.
      * intros [->|(I1 & W1 & P1 & L1)]; [repeat split; auto; congruence|]. tauto.
      * intros (I1 & W1 & P1 & L1). destruct (tz_eqb u t) eqn:UT; [apply tz_eqb_eq in UT; left; exact UT|].
        right. assert (u <> t) by (intros ->; rewrite (proj2 (tz_eqb_eq t t) eq_refl) in UT; discriminate). destruct I1 as [<-|I1]; [congruence|]. tauto.
Qed.

Variable order : list tzid -> list tzid.
Hypothesis O : forall l, Permutation l (order l).
Definition mode_of (m : option mode) : mode := match m with Some m => m | None => NONSTD_TIMEZONES end.

Lemma include_spec m subs : zones_only subs ->
  exists new, includeMissingTimezones lookup standard order uuid m subs = Ok (subs ++ new) /\ Forall added_ok new /\
    NoDup (map (fun z => TzName (sID (cState z))) new) /\
    (forall t, has_zone new t <-> uses subs t /\ wanted standard (mode_of m) t /\ ~ has_zone subs t /\ lookup t <> None).
Proof.
  intro Z. unfold includeMissingTimezones.
  assert (main : mode_of m <> NO_TIMEZONES -> let used := filter (fun c => negb (beq (getType (cKind c)) (lit "VTIMEZONE"))) subs in
    exists new, include_each lookup standard uuid (mode_of m) (order (tz_set (flat_map getTimezones used))) subs = Ok (subs ++ new) /\ Forall added_ok new /\
    NoDup (map (fun z => TzName (sID (cState z))) new) /\
    (forall t, has_zone new t <-> uses subs t /\ wanted standard (mode_of m) t /\ ~ has_zone subs t /\ lookup t <> None)).
  { intros M used. destruct (each_spec (mode_of m) (order (tz_set (flat_map getTimezones used))) M) with (subs := subs) as (new & E & A & D & Q).
    - apply (Permutation_NoDup (O _)), tz_set_NoDup.
    - exact Z.
    - exists new. repeat (split; [assumption|]). intro t. rewrite Q. rewrite <- uses_spec. fold used.
      assert (X : In t (order (tz_set (flat_map getTimezones used))) <-> In t (tz_set (flat_map getTimezones used))).
      { split; apply Permutation_in; [apply Permutation_sym|]; apply O. }
      rewrite X. reflexivity. }
  destruct m as [[| |]|]; try (apply main; discriminate).
  exists []. rewrite app_nil_r. split; [reflexivity|]. split; [constructor|]. split; [constructor|]. intro t. split; [intros (c & [] & _)|intros (_ & [] & _)].
Qed.
Lemma added_zones new : Forall added_ok new -> zones_only new.
Proof. apply Forall_impl. intros z [K _] _. exact K. Qed.
Lemma uses_added subs new t : Forall added_ok new -> (uses (subs ++ new) t <-> uses subs t).
Proof.
  intro A. unfold uses. split; intros (T1 & T2 & T3 & c & I & N & X); repeat (split; [assumption|]); exists c; (split; [|split; assumption]).
  - apply in_app_or in I as [I|I]; [exact I|]. rewrite Forall_forall in A. destruct (A _ I) as [K _]. unfold zone in K. rewrite K in N. exfalso. apply N. reflexivity.
  - apply in_or_app. left. exact I.
Qed.
Lemma include_again m subs l : zones_only subs -> includeMissingTimezones lookup standard order uuid m subs = Ok l ->
  includeMissingTimezones lookup standard order uuid m l = Ok l.
Proof.
  intros Z E. destruct (include_spec m subs Z) as (new & E' & A & _ & Q). rewrite E in E'. apply PropertyProofs3.Ok_inj in E'. subst l.
  assert (Z' : zones_only (subs ++ new)) by (apply Forall_app; split; [exact Z|apply added_zones, A]).
  destruct (include_spec m (subs ++ new) Z') as (new' & -> & A' & _ & Q'). f_equal. destruct new' as [|z r]; [apply app_nil_r|exfalso].
  inversion A' as [|? ? [Kz _] _]; subst.
  assert (H : has_zone (z :: r) (TzName (sID (cState z)))) by (exists z; split; [left; reflexivity|auto]).
  apply Q' in H as (U & W & P & L). apply (uses_added subs new _ A) in U. apply P. apply has_zone_app. right. apply Q.
  repeat (split; [assumption|]). split; [|assumption]. intro H. apply P, has_zone_app. left. exact H.
Qed.
End Include.

Section Strip.
Variable lookup : tzid -> option comp.
Variable standard : tzid -> bool.
Variable tzo : tzid -> Z -> Z -> Z -> Z -> Z -> Z -> bool -> bool -> Z.
Variable fl : floats.
Variable phash : prop -> Z.
Notation goes c i := (stripped lookup standard (heap c i)).

Lemma take_here (h : nat -> comp) i l r : ~ In i l -> (forall j, In j l -> comp_eq tzo fl phash (h j) (h i) = Ok false) ->
  take_first (is_or_equal tzo fl phash h i) (l ++ i :: r) = Ok (Some (l ++ r)).
Proof.
  intros N H. induction l as [|j l IH]; cbn [app take_first].
  - unfold is_or_equal. rewrite Nat.eqb_refl. reflexivity.
  - unfold is_or_equal at 1. assert (Nat.eqb j i = false) as -> by (apply Nat.eqb_neq; intros ->; apply N; left; reflexivity).
    rewrite (H j) by (left; reflexivity). cbn [rbind]. rewrite IH; [reflexivity|intro; apply N; right; assumption|intros; apply H; right; assumption].
Qed.
Lemma remove_zone c i l r : zone (heap c i) -> held c = l ++ i :: r -> ~ In i l -> (forall j, In j l -> comp_eq tzo fl phash (heap c j) (heap c i) = Ok false) ->
  cal_remove tzo fl phash i c = (mkCal (heap c) (l ++ r) (masters c) (overridden c), Ok tt).
Proof. intros K E N H. unfold cal_remove. rewrite E, (take_here (heap c) i l r N H). rewrite K. reflexivity. Qed.

Lemma strip_spec l : forall pre c changed, NoDup (pre ++ l) -> held c = pre ++ l -> zones_only (map (heap c) l) ->
  (forall i, In i pre -> goes c i = false) ->
  (forall i j, In i (pre ++ l) -> In j (pre ++ l) -> goes c i = false -> goes c j = true -> comp_eq tzo fl phash (heap c i) (heap c j) = Ok false) ->
  strip_each lookup standard tzo fl phash (filter (fun i => beq (upper_type (heap c i)) (lit "VTIMEZONE")) l) changed c =
    (mkCal (heap c) (pre ++ filter (fun i => negb (goes c i)) l) (masters c) (overridden c), Ok (changed || existsb (fun i => goes c i) l)).
Proof.
  induction l as [|i l IH]; intros pre c changed N E Z P H.
  - cbn. rewrite Bool.orb_false_r. destruct c as [h hd ms ov]. cbn in *. rewrite E. reflexivity.
  - inversion Z as [|? ? Zi Zl]; subst.
    assert (stay : goes c i = false -> strip_each lookup standard tzo fl phash (filter (fun i => beq (upper_type (heap c i)) (lit "VTIMEZONE")) l) changed c =
      (mkCal (heap c) (pre ++ filter (fun i => negb (goes c i)) (i :: l)) (masters c) (overridden c), Ok (changed || existsb (fun i => goes c i) (i :: l)))).
    { intro G. cbn [filter existsb]. rewrite G. cbn [negb orb].
      change (i :: filter (fun i0 => negb (goes c i0)) l) with ([i] ++ filter (fun i0 => negb (goes c i0)) l). rewrite app_assoc.
      assert (X : pre ++ i :: l = (pre ++ [i]) ++ l) by (rewrite <- app_assoc; reflexivity).
      apply IH.
      - rewrite <- X. exact N.
      - rewrite <- X. exact E.
      - exact Zl.
      - intros j J. apply in_app_or in J as [J|[<-|[]]]; auto.
      - rewrite <- X. exact H. }
    cbn [filter]. destruct (beq (upper_type (heap c i)) (lit "VTIMEZONE")) eqn:U.
    + apply beq_eq in U. specialize (Zi U). cbn [strip_each]. unfold getID. rewrite Zi.
      assert (G : goes c i = match lookup (TzName (sID (cState (heap c i)))) with Some _ => standard (TzName (sID (cState (heap c i)))) | None => false end)
        by (unfold stripped; rewrite Zi; reflexivity).
      destruct (lookup (TzName (sID (cState (heap c i))))) as [z|]; [|cbn [filter] in stay; apply stay; exact G].
      destruct (standard (TzName (sID (cState (heap c i))))); [|cbn [filter] in stay; apply stay; exact G].
      assert (Ni : ~ In i pre) by (intro I; apply P in I; congruence).
      rewrite (remove_zone c i pre l Zi E Ni).
      2:{ intros j J. apply H; [apply in_or_app; left; exact J|apply in_or_app; right; left; reflexivity|apply P, J|exact G]. }
      cbn [existsb]. rewrite G. cbn [negb orb]. rewrite Bool.orb_true_r.
      apply (IH pre (mkCal (heap c) (pre ++ l) (masters c) (overridden c)) true).
      * apply NoDup_remove_1 in N. exact N.
      * reflexivity.
      * exact Zl.
      * exact P.
      * intros a b A B. apply H; [apply in_app_or in A as [A|A]|apply in_app_or in B as [B|B]]; apply in_or_app; auto; right; right; assumption.
    + cbn [filter] in stay. apply stay. unfold stripped. destruct (cKind (heap c i)) eqn:K; try reflexivity.
      rewrite (zone_upper _ K), beq_refl in U. discriminate.
Qed.
Lemma strip_all c : NoDup (held c) -> zones_only (map (heap c) (held c)) ->
  (forall i j, In i (held c) -> In j (held c) -> goes c i = false -> goes c j = true -> zone (heap c i) -> comp_eq tzo fl phash (heap c i) (heap c j) = Ok false) ->
  stripStandardTimezones lookup standard tzo fl phash c =
    (mkCal (heap c) (filter (fun i => negb (goes c i)) (held c)) (masters c) (overridden c), Ok (existsb (fun i => goes c i) (held c))).
Proof.
  intros N Z H. unfold stripStandardTimezones, getComponents.
  assert (lit "VTIMEZONE" <> []) by discriminate. destruct (lit "VTIMEZONE") as [|a s] eqn:L; [congruence|].
  assert (U : upper (a :: s) = lit "VTIMEZONE") by (rewrite <- L; reflexivity). rewrite U.
  apply (strip_spec (held c) [] c false); try assumption; try reflexivity.
  - intros i [].
  - cbn [app]. intros i j I J Gi Gj. destruct (beq (getType (cKind (heap c i))) (lit "VTIMEZONE")) eqn:T.
    + apply beq_eq in T. apply H; try assumption. unfold zones_only in Z. rewrite Forall_map, Forall_forall in Z. apply Z; [exact I|].
      unfold upper_type. rewrite T. reflexivity.
    + destruct (heap c i) as [k s' ps subs], (heap c j) as [k' s2 ps2 subs2]. unfold stripped in Gj. cbn [cKind] in *. destruct k'; try discriminate Gj.
      cbn [comp_eq getType]. rewrite T. reflexivity.
Qed.
End Strip.
