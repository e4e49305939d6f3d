(** Proofs about validation and duplicates of vCards. *)
From Coq Require Import Lia ZifyBool ZifyNat Sorting.Permutation.
From Verif Require Import PyBase PyProofs ParserCtx TextModel LineModel LineProofs PropertyModel PropertySpec PropertyProofs PropertyProofs2 PropertyProofs3 ComponentModel ComponentProofs ComponentProofs2
  ValidateModel ValidateProofs VCardModel VCardSpec VCardProofs VCardProofs2 VCardProofs3 VCardCheckModel VCardCheckSpec.

Lemma lower_upper s : lower (upper s) = lower s.
Proof. unfold lower, upper. rewrite map_map. apply map_ext. intro c. destruct c as [[|] [|] [|] [|] [|] [|] [|] [|]]; reflexivity. Qed.
Lemma upper_lower s : upper (lower s) = upper s.
Proof. unfold lower, upper. rewrite map_map. apply map_ext. intro c. destruct c as [[|] [|] [|] [|] [|] [|] [|] [|]]; reflexivity. Qed.
Lemma lower_eq s t : beq (lower s) (lower t) = true <-> upper s = upper t.
Proof.
  rewrite beq_eq. split; intro H.
  - rewrite <- (upper_lower s), H. apply upper_lower.
  - rewrite <- (lower_upper s), H. apply lower_upper.
Qed.

Section Tidy.
Variable c : cprops.
Hypothesis T : card_tidy c.

Lemma in_card_get p : in_card p c <-> In p (card_get (upper (cpName p)) c).
Proof.
  destruct T as [N F]. rewrite Forall_forall in F. unfold card_get. split.
  - intros (k & l & I & J). destruct (F _ I) as [_ G]. cbn [fst snd] in G. rewrite Forall_forall in G. rewrite (G p J). rewrite (assoc_in k c l N I). exact J.
  - intro H. destruct (assoc _ c) as [l|] eqn:E; [|destruct H]. exists (upper (cpName p)), l. split; [exact (assoc_some _ _ _ E)|exact H].
Qed.
Lemma get_named n p : In p (card_get n c) -> upper (cpName p) = n /\ in_card p c.
Proof.
  destruct T as [N F]. rewrite Forall_forall in F. unfold card_get. intro H. destruct (assoc n c) as [l|] eqn:E; [|destruct H]. pose proof (assoc_some _ _ _ E) as I.
  destruct (F _ I) as [_ G]. rewrite Forall_forall in G. split; [exact (G p H)|]. exists n, l. auto.
Qed.
Lemma get_split n : exists r, Permutation (List.concat (map snd c)) (card_get n c ++ r) /\ Forall (fun p => upper (cpName p) <> n) r.
Proof.
  destruct T as [N F]. clear T. unfold card_get. induction c as [|[k l] m IH]; [exists []; split; constructor|]. cbn [map fst] in N. apply NoDup_cons_iff in N. destruct N as [N1 N2].
  inversion F as [|? ? F1 F2]; subst. destruct F1 as [_ F1]. cbn [fst snd] in F1. cbn [assoc]. destruct (beq_case k n) as [[-> ->]|[D ->]].
  - exists (List.concat (map snd m)). split; [reflexivity|]. rewrite Forall_forall in *. intros p I. apply in_concat in I. destruct I as (x & I1 & I2). apply in_map_iff in I1. destruct I1 as ([k' x'] & <- & I1). cbn [snd] in I2.
    destruct (F2 _ I1) as [_ G]. cbn [fst snd] in G. rewrite Forall_forall in G. rewrite (G p I2). intros ->. apply N1. apply in_map_iff. exists (n, x'). auto.
  - destruct (IH N2 F2) as (r & P & Q). exists (l ++ r). cbn [map snd List.concat]. split.
    + rewrite P. rewrite !app_assoc. apply Permutation_app_tail, Permutation_app_comm.
    + apply Forall_app. split; [|exact Q]. rewrite Forall_forall in *. intros p I. rewrite (F1 p I). congruence.
Qed.
Lemma named_iff n k : named_in n c k <-> k = List.length (card_get n c).
Proof.
  assert (Fl : forall a b a' b' : list cprop, Permutation (a ++ b) (a' ++ b') -> Forall (fun p => upper (cpName p) = n) a -> Forall (fun p => upper (cpName p) = n) a' -> Forall (fun p => upper (cpName p) <> n) b ->
    Forall (fun p => upper (cpName p) <> n) b' -> List.length a = List.length a').
  { assert (Y : forall a, Forall (fun p => upper (cpName p) = n) a -> filter (fun p => beq (upper (cpName p)) n) a = a) by (induction 1 as [|p a H _ IH]; [reflexivity|]; cbn [filter]; rewrite H, beq_refl, IH; reflexivity).
    assert (X : forall a, Forall (fun p => upper (cpName p) <> n) a -> filter (fun p => beq (upper (cpName p)) n) a = []).
    { induction 1 as [|p a H _ IH]; [reflexivity|]. cbn [filter]. destruct (beq_case (upper (cpName p)) n) as [[E _]|[_ ->]]; [contradiction|exact IH]. }
    intros a b a' b' P A A' B B'. assert (G : Permutation (filter (fun p => beq (upper (cpName p)) n) (a ++ b)) (filter (fun p => beq (upper (cpName p)) n) (a' ++ b'))).
    { clear - P. induction P; cbn [filter]; repeat match goal with |- context [if ?x then _ else _] => destruct x end; try reflexivity; try (constructor; assumption); try assumption; try constructor. etransitivity; eassumption. }
    rewrite !filter_app, (Y a A), (Y a' A'), (X b B), (X b' B'), !app_nil_r in G. apply Permutation_length, G. }
  destruct (get_split n) as (r & P & Q). assert (U : Forall (fun p => upper (cpName p) = n) (card_get n c)) by (apply Forall_forall; intros p I; apply (get_named n p I)).
  split.
  - intros (l & <- & M & r' & P' & Q'). rewrite P in P'. symmetry. eapply Fl; [exact P'|exact U| |exact Q|exact Q']. apply Forall_forall. intros p I. apply M, I.
  - intros ->. exists (card_get n c). split; [reflexivity|]. split; [|exists r; auto]. intro p. split; [intro I; split; apply (get_named n p I)|].
    intros [I <-]. apply in_card_get, I.
Qed.
End Tidy.

Lemma reads_iff p t : has_text p -> exists b, card_stringValue t (cpValue p) = Ok b /\ (b = true <-> reads p t).
Proof.
  unfold has_text, reads. intro H. destruct (cpValue p) as [[i|ty l]|] eqn:E; [destruct i as [i|l|l|l]; [destruct i|..]|..]; cbn [card_stringValue];
    try (destruct s as [s|]; [|contradiction H]);
    try (eexists; split; [reflexivity|]; rewrite lower_eq; split; [intro X; exists s; split; [exact X|eauto]|intros (s' & X & [Y|[[k' Y]|Y]]); congruence]);
    (exists false; split; [reflexivity|]; split; [discriminate|intros (s' & X & [Y|[[k' Y]|Y]]); discriminate Y]).
Qed.
Definition value_wrong (p : cprop) (m : bytes) : Prop :=
  exists n t, In (n, t) [(lit "VERSION", lit "3.0"); (lit "PROFILE", lit "VCARD")] /\ upper (cpName p) = n /\ ~ reads p t /\ m = lit "[VCARD] Property value incorrect: " ++ n.
Lemma values_spec l : Forall (fun p => In (upper (cpName p)) [lit "VERSION"; lit "PROFILE"] -> has_text p) l ->
  exists u, card_check_values l = Ok u /\ forall m, In m u <-> exists p, In p l /\ value_wrong p m.
Proof.
  induction 1 as [|p l H F (u & E & S)]; [exists []; split; [reflexivity|]; intro m; split; [contradiction|intros (p & [] & _)]|].
  cbn [card_check_values]. destruct (assoc (upper (cpName p)) card_value_checks) as [f|] eqn:A.
  - assert (X : exists n t, In (n, t) [(lit "VERSION", lit "3.0"); (lit "PROFILE", lit "VCARD")] /\ upper (cpName p) = n /\ f = card_stringValue t).
    { unfold card_value_checks in A. cbn [assoc] in A. destruct (beq_case (lit "VERSION") (upper (cpName p))) as [[B R]|[_ R]]; rewrite R in A; [injection A as <-; exists (lit "VERSION"), (lit "3.0"); split; [left; reflexivity|auto]|].
      destruct (beq_case (lit "PROFILE") (upper (cpName p))) as [[B R']|[_ R']]; rewrite R' in A; [|discriminate A]. injection A as <-. exists (lit "PROFILE"), (lit "VCARD"). split; [right; left; reflexivity|auto]. }
    destruct X as (n & t & I & Un & ->).
    assert (Ht : has_text p) by (apply H; rewrite Un; destruct I as [I|[I|[]]]; injection I as <- _; [left|right; left]; reflexivity).
    destruct (reads_iff p t Ht) as (b & -> & B). cbn [rbind]. rewrite E. cbn [rbind].
    assert (W : forall m, value_wrong p m <-> b = false /\ m = lit "[VCARD] Property value incorrect: " ++ n).
    { intro m. split.
      - intros (n' & t' & I' & Un' & R & ->). assert (n' = n) as -> by congruence. assert (t' = t) as ->.
        { cbn [In] in I, I'. destruct I as [I|[I|[]]], I' as [I'|[I'|[]]]; try congruence; exfalso; pose proof (f_equal fst I) as I1; pose proof (f_equal fst I') as I2; cbn [fst] in I1, I2; rewrite <- I1 in I2; discriminate I2. }
        split; [|reflexivity]. destruct b; [exfalso; apply R, B; reflexivity|reflexivity].
      - intros [-> ->]. exists n, t. split; [exact I|]. split; [exact Un|]. split; [|reflexivity]. intro R. apply B in R. discriminate R. }
    eexists. split; [reflexivity|]. intro m. destruct b.
    + rewrite S. split; [intros (q & Iq & Wq); exists q; split; [right; exact Iq|exact Wq]|intros (q & [<-|Iq] & Wq); [apply W in Wq; destruct Wq; discriminate|exists q; auto]].
    + cbn [In]. rewrite S. split.
      * intros [<-|(q & Iq & Wq)]; [exists p; split; [left; reflexivity|]; apply W; split; [reflexivity|]; rewrite Un; reflexivity|exists q; split; [right; exact Iq|exact Wq]].
      * intros (q & [<-|Iq] & Wq); [left; apply W in Wq; rewrite (proj2 Wq), Un; reflexivity|right; exists q; auto].
  - exists u. split; [exact E|]. intro m. rewrite S. split; [intros (q & Iq & Wq); exists q; split; [right; exact Iq|exact Wq]|intros (q & [<-|Iq] & Wq); [|exists q; auto]].
    exfalso. destruct Wq as (n & t & I & Un & _). rewrite Un in A. destruct I as [I|[I|[]]]; injection I as <- _; discriminate A.
Qed.

Lemma report_spec order doFix c : (forall l, Permutation (order l) l) -> card_tidy c -> (forall p, in_card p c -> In (upper (cpName p)) [lit "VERSION"; lit "PROFILE"] -> has_text p) ->
  exists u, card_report order doFix c = Ok ([], u) /\ forall m, In m u <-> card_problem c m.
Proof.
  intros O T H. set (l := List.concat (order (map snd c))).
  assert (L : forall p, In p l <-> in_card p c).
  { intro p. unfold l. split.
    - intro I. apply in_concat in I. destruct I as (x & I1 & I2). apply (Permutation_in _ (O _)) in I1. apply in_map_iff in I1. destruct I1 as ([k y] & <- & I1). exists k, y. auto.
    - intros (k & y & I1 & I2). apply in_concat. exists y. split; [|exact I2]. apply (Permutation_in _ (Permutation_sym (O _))). apply in_map_iff. exists (k, y). auto. }
  destruct (values_spec l) as (u & E & S); [apply Forall_forall; intros p I; apply H, L, I|].
  unfold card_report. fold l. rewrite E. cbn [rbind]. eexists. split; [reflexivity|]. intro m. rewrite !in_app_iff, S.
  assert (Cn : forall n, In n (card_1 ++ card_0_1 ++ card_1_More) -> card_count n c = List.length (card_get n c)).
  { intros n I. unfold card_count. f_equal. f_equal. cbn in I. repeat (destruct I as [<-|I]; [reflexivity|]). destruct I. }
  split.
  - intros [I|[I|[I|I]]].
    + unfold card_check_1 in I. apply in_map_iff in I. destruct I as (n & <- & I). apply filter_In in I. destruct I as [I D].
      apply (pr_once c n (card_count n c)); [exact I|apply named_iff; [exact T|apply Cn; apply in_app_iff; auto]|lia].
    + unfold card_check_0_1 in I. apply in_map_iff in I. destruct I as (n & <- & I). apply filter_In in I. destruct I as [I D].
      apply (pr_atmost c n (card_count n c)); [exact I|apply named_iff; [exact T|apply Cn; rewrite !in_app_iff; auto]|lia].
    + unfold card_check_1_More in I. apply in_map_iff in I. destruct I as (n & <- & I). apply filter_In in I. destruct I as [I D].
      assert (C0 : 0%nat = card_count n c) by lia. destruct I as [<-|[]]. apply pr_needed. apply named_iff; [exact T|]. rewrite C0. apply Cn. rewrite !in_app_iff. right. right. left. reflexivity.
    + destruct I as (p & Ip & n & t & In' & Un & R & ->). apply (pr_value c n t p); auto. apply L, Ip.
  - intros [n k I K D|n k I K D|K|n t p I Ip Un R].
    + left. unfold card_check_1. apply in_map_iff. exists n. split; [reflexivity|]. apply filter_In. split; [exact I|]. apply named_iff in K; [|exact T]. rewrite Cn by (apply in_app_iff; left; exact I). subst k. lia.
    + right. left. unfold card_check_0_1. apply in_map_iff. exists n. split; [reflexivity|]. apply filter_In. split; [exact I|]. apply named_iff in K; [|exact T]. rewrite Cn by (rewrite !in_app_iff; right; left; exact I). subst k. lia.
    + right. right. left. unfold card_check_1_More. apply in_map_iff. exists (lit "FN"). split; [reflexivity|]. apply filter_In. split; [left; reflexivity|].
      apply named_iff in K; [|exact T]. rewrite Cn by (rewrite !in_app_iff; right; right; left; reflexivity). lia.
    + right. right. right. exists p. split; [apply L, Ip|]. exists n, t. auto.
Qed.
Lemma validate_spec order doFix c : (forall l, Permutation (order l) l) -> card_tidy c -> (forall p, in_card p c -> In (upper (cpName p)) [lit "VERSION"; lit "PROFILE"] -> has_text p) ->
  exists u, card_validate order doFix false c = Ok ([], u) /\ (forall m, In m u <-> card_problem c m) /\
    card_validate order doFix true c = if match u with [] => true | _ => false end then Ok ([], []) else Raise ValidationError.
Proof.
  intros O T H. destruct (report_spec order doFix c O T H) as (u & E & S). exists u. unfold card_validate. rewrite E. cbn [rbind andb snd]. split; [reflexivity|]. split; [exact S|]. destruct u; reflexivity.
Qed.
