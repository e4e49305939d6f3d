(** Proofs about equality of components. *)
From Coq Require Import Lia.
From Verif Require Import PyBase PyProofs LineProofs PropertyModel PropertyProofs PropertyProofs3 ComponentModel ComponentSpec ComponentProofs2 ComponentProofs3
  ComponentProofs6 CalendarModel DupModel DupSpec DupProofs.

Section WithEq.
Variable tzo : tzid -> Z -> Z -> Z -> Z -> Z -> Z -> bool -> bool -> Z.
Variable fl : floats.
Variable phash : prop -> Z.
Notation peq := (prop_eq tzo fl).
Notation pin := (in_set tzo fl phash).

Definition matching : list comp -> list comp -> res bool :=
  fix matching (mine theirs : list comp) : res bool :=
    match mine with
    | [] => Ok (match theirs with [] => true | _ => false end)
    | x :: r => do o <- take_first (comp_eq tzo fl phash x) theirs;
                match o with Some theirs' => matching r theirs' | None => Ok false end
    end.
Lemma comp_eq_eq k s ps subs k' s' qs subs' : comp_eq tzo fl phash (Comp k s ps subs) (Comp k' s' qs subs') =
  if beq (getType k) (getType k') then
    do b <- compareProperties tzo fl phash ps qs; if b then matching subs subs' else Ok false
  else Ok false.
Proof. reflexivity. Qed.
Lemma matching_cons x r l : matching (x :: r) l =
  do o <- take_first (comp_eq tzo fl phash x) l; match o with Some l' => matching r l' | None => Ok false end.
Proof. reflexivity. Qed.

(** ** A copy is equal to the original. *)
Section Self.
Variable l : list prop.
Hypothesis total : forall p q, In p l -> In q l -> exists b, peq p q = Ok b.
Hypothesis self : forall p, In p l -> peq p p = Ok true.
Lemma in_set_total p m : In p l -> incl m l -> exists b, pin p m = Ok b.
Proof.
  intros P. induction m as [|q m IH]; intro I; cbn [in_set]; [eexists; reflexivity|].
  destruct IH as [b B]; [intros x X; apply I; right; assumption|]. destruct (phash q =? phash p); [|eexists; exact B].
  destruct (total q p) as [c C]; [apply I; left; reflexivity|assumption|]. rewrite C. cbn [rbind]. destruct c; [eexists; reflexivity|eexists; exact B].
Qed.
Lemma in_set_self p m : In p m -> incl m l -> pin p m = Ok true.
Proof.
  induction m as [|q m IH]; intros P I; [contradiction|]. cbn [in_set]. destruct P as [->|P].
  - rewrite Z.eqb_refl, self by (apply I; left; reflexivity). reflexivity.
  - assert (Im : incl m l) by (intros x X; apply I; right; assumption). rewrite (IH P Im). destruct (phash q =? phash p); [|reflexivity].
    destruct (total q p) as [c C]; [apply I; left; reflexivity|apply Im; assumption|]. rewrite C. cbn [rbind]. destruct c; reflexivity.
Qed.
Lemma to_set_total m : forall acc, incl acc l -> incl m l -> exists s, to_set tzo fl phash acc m = Ok s /\ incl s l.
Proof.
  induction m as [|p m IH]; intros acc A I; cbn [to_set]; [exists acc; auto|].
  destruct (in_set_total p acc) as [b B]; [apply I; left; reflexivity|assumption|]. rewrite B. cbn [rbind]. apply IH.
  - destruct b; [assumption|]. intros x X. apply in_app_iff in X. destruct X as [X|[<-|[]]]; [auto|]. apply I; left; reflexivity.
  - intros x X; apply I; right; assumption.
Qed.
Lemma all_in_self m s : incl m s -> incl s l -> CalendarModel.all_in tzo fl phash m s = Ok true.
Proof.
  intros I S. induction m as [|p m IH]; [reflexivity|]. cbn [CalendarModel.all_in]. rewrite in_set_self; [|apply I; left; reflexivity|assumption].
  cbn [rbind]. apply IH. intros x X; apply I; right; assumption.
Qed.
End Self.
Lemma same_props ps : (forall p q, In p (List.concat (map snd ps)) -> In q (List.concat (map snd ps)) -> exists b, peq p q = Ok b) ->
  (forall p, In p (List.concat (map snd ps)) -> peq p p = Ok true) -> compareProperties tzo fl phash ps ps = Ok true.
Proof.
  intros T S. unfold compareProperties. destruct (to_set_total _ T (List.concat (map snd ps)) [] (incl_nil_l _) (incl_refl _)) as (s & E & I).
  rewrite E. cbn [rbind]. rewrite Nat.eqb_refl. apply (all_in_self _ T S); [apply incl_refl|assumption].
Qed.
Lemma copy_equal c : comparable tzo fl c -> forall d, copy_of c d -> comp_eq tzo fl phash c d = Ok true.
Proof.
  induction c as [k s ps subs IH] using comp_tree_ind. intros C d H. inversion C as [? T S Cs E]; subst. inversion H as [? ? s' ? ? subs' _ _ _ _ _ F]; subst.
  rewrite comp_eq_eq, beq_refl, (same_props ps T S). cbn [rbind cSubs] in *. clear T S C H.
  revert IH Cs. induction F as [|x y l m X F IHF]; intros IH Cs; [reflexivity|]. inversion IH as [|? ? I1 I2]; subst. inversion Cs as [|? ? C1 C2]; subst.
  rewrite matching_cons. cbn [take_first]. rewrite (I1 C1 y X). cbn [rbind]. auto.
Qed.

(** ** When components are equal. *)
Section Regular.
Variable U : prop -> Prop.
Hypothesis R : regular tzo fl phash U.
Lemma total p q : U p -> U q -> exists b, peq p q = Ok b.
Proof. apply R. Qed.
Lemma prefl p : U p -> peq p p = Ok true.
Proof. apply R. Qed.
Lemma psym p q : U p -> U q -> peq p q = Ok true -> peq q p = Ok true.
Proof. apply R. Qed.
Lemma ptrans p q r : U p -> U q -> U r -> peq p q = Ok true -> peq q r = Ok true -> peq p r = Ok true.
Proof. apply R. Qed.
Lemma phash_eq p q : U p -> U q -> peq p q = Ok true -> phash p = phash q.
Proof. apply R. Qed.

Definition from (l : list prop) : Prop := forall p, In p l -> U p.
Lemma from_tail p l : from (p :: l) -> from l.
Proof. intros H q Q. apply H. right; assumption. Qed.
Lemma in_set_spec p l : U p -> from l -> exists b, pin p l = Ok b /\ (b = true <-> exists q, In q l /\ peq p q = Ok true).
Proof.
  intros Up. induction l as [|q l IH]; intro F; cbn [in_set].
  - exists false. split; [reflexivity|]. split; [discriminate|]. intros (q & [] & _).
  - destruct (IH (from_tail _ _ F)) as (b & B & Sb). assert (Uq : U q) by (apply F; left; reflexivity).
    assert (No : peq q p <> Ok true -> b = true <-> exists r, In r (q :: l) /\ peq p r = Ok true).
    { intro N. rewrite Sb. split; intros (r & Ir & Er); exists r; (split; [|assumption]); [right; assumption|].
      destruct Ir as [->|Ir]; [|assumption]. exfalso. apply N. apply psym; assumption. }
    destruct (Z.eqb_spec (phash q) (phash p)) as [Eh|Nh].
    + destruct (total q p Uq Up) as [c C]. rewrite C. cbn [rbind]. destruct c.
      * exists true. split; [reflexivity|]. split; [|reflexivity]. intros _. exists q. split; [left; reflexivity|]. apply psym; assumption.
      * exists b. split; [assumption|]. apply No. congruence.
    + exists b. split; [assumption|]. apply No. intro E. apply Nh. apply phash_eq; assumption.
Qed.
(** No two that are equal. *)
Inductive apart : list prop -> Prop :=
| apart_nil : apart []
| apart_cons : forall p l, (forall q, In q l -> peq p q <> Ok true) -> apart l -> apart (p :: l).
Lemma apart_snoc l p : from l -> U p -> apart l -> (forall q, In q l -> peq p q <> Ok true) -> apart (l ++ [p]).
Proof.
  intros F Up A. induction A as [|x l X A IH]; intro N; cbn [app].
  - constructor; [intros q []|constructor].
  - constructor; [|apply IH; [eapply from_tail; eassumption|]; intros q Q; apply N; right; assumption].
    intros q Q. apply in_app_iff in Q. destruct Q as [Q|[<-|[]]]; [apply X; assumption|]. intro E. apply (N x); [left; reflexivity|].
    apply psym; [apply F; left; reflexivity|assumption|assumption].
Qed.
Lemma to_set_spec l : forall acc, from acc -> from l -> apart acc ->
  exists s, to_set tzo fl phash acc l = Ok s /\ apart s /\ incl s (acc ++ l) /\ forall p, In p (acc ++ l) -> exists q, In q s /\ peq p q = Ok true.
Proof.
  induction l as [|p l IH]; intros acc Fa Fl A; cbn [to_set].
  - exists acc. split; [reflexivity|]. split; [assumption|]. rewrite app_nil_r. split; [apply incl_refl|].
    intros q Q. exists q. split; [assumption|]. apply prefl, Fa, Q.
  - assert (Up : U p) by (apply Fl; left; reflexivity). destruct (in_set_spec p acc Up Fa) as (b & B & Sb). rewrite B. cbn [rbind].
    assert (Fl' : from l) by (eapply from_tail; eassumption). destruct b.
    + destruct (IH acc Fa Fl' A) as (s & E & As & I & C). exists s. split; [assumption|]. split; [assumption|]. split.
      * intros x X. apply I in X. apply in_app_iff in X. apply in_app_iff. cbn [In]. tauto.
      * intros x X. apply in_app_iff in X. destruct X as [X|[<-|X]]; [apply C, in_app_iff; auto| |apply C, in_app_iff; auto].
        destruct (proj1 Sb eq_refl) as (q & Q & Eq). destruct (C q) as (r & Ir & Er); [apply in_app_iff; auto|]. exists r. split; [assumption|].
        assert (Ur : U r) by (apply I in Ir; apply in_app_iff in Ir; destruct Ir as [Ir|Ir]; [apply Fa|apply Fl']; assumption).
        apply (ptrans p q r); auto.
    + assert (Fs : from (acc ++ [p])) by (intros x X; apply in_app_iff in X; destruct X as [X|[<-|[]]]; auto).
      destruct (IH (acc ++ [p]) Fs Fl') as (s & E & As & I & C).
      { apply apart_snoc; auto. intros q Q Eq. assert (false = true); [|discriminate]. apply Sb. eauto. }
      exists s. rewrite <- app_assoc in I, C. cbn [app] in I, C. auto.
Qed.
Lemma all_in_spec m s : from m -> from s -> exists b, CalendarModel.all_in tzo fl phash m s = Ok b /\ (b = true <-> forall p, In p m -> exists q, In q s /\ peq p q = Ok true).
Proof.
  intros Fm Fs. induction m as [|p m IH]; cbn [CalendarModel.all_in].
  - exists true. split; [reflexivity|]. split; [intros _ p []|reflexivity].
  - destruct (in_set_spec p s (Fm p (or_introl eq_refl)) Fs) as (b & B & Sb). rewrite B. cbn [rbind]. destruct b.
    + destruct (IH (from_tail _ _ Fm)) as (c & C & Sc). exists c. split; [assumption|]. rewrite Sc. split.
      * intros H q [<-|Q]; [apply Sb; reflexivity|auto].
      * intros H q Q. apply H. right; assumption.
    + exists false. split; [reflexivity|]. split; [discriminate|]. intro H. apply Sb. apply H. left; reflexivity.
Qed.
Lemma fewer m : forall s, from m -> from s -> apart m -> (forall p, In p m -> exists q, In q s /\ peq p q = Ok true) ->
  (List.length m <= List.length s)%nat.
Proof.
  induction m as [|p m IH]; intros s Fm Fs A H; [cbn; lia|]. inversion A as [|? ? A1 A2]; subst.
  destruct (H p (or_introl eq_refl)) as (q & Q & E). apply in_split in Q. destruct Q as (a & b & ->).
  assert (L : (List.length m <= List.length (a ++ b))%nat).
  { apply IH; [eapply from_tail; eassumption| |assumption|].
    - intros x X. apply Fs. apply in_app_iff in X. apply in_app_iff. cbn [In]. tauto.
    - intros x X. destruct (H x (or_intror X)) as (r & Ir & Er). exists r. split; [|assumption]. apply in_app_iff in Ir. apply in_app_iff.
      destruct Ir as [Ir|[<-|Ir]]; [auto| |auto]. exfalso. apply (A1 x X).
      assert (Up : U p) by (apply Fm; left; reflexivity). assert (Ux : U x) by (apply Fm; right; assumption).
      assert (Uq : U q) by (apply Fs, in_app_iff; right; left; reflexivity).
      apply (ptrans p q x); auto. apply psym; assumption. }
  rewrite app_length in *. cbn [List.length] in *. lia.
Qed.
Definition covers (l m : list prop) : Prop := forall p, In p l -> exists q, In q m /\ peq p q = Ok true.
Lemma covers_trans l m n : from l -> from m -> from n -> covers l m -> covers m n -> covers l n.
Proof.
  intros Fl Fm Fn A B p P. destruct (A p P) as (q & Q & E). destruct (B q Q) as (r & Ir & Er). exists r. split; [assumption|].
  apply (ptrans p q r); auto.
Qed.
Lemma incl_covers l m : from l -> incl l m -> covers l m.
Proof. intros F I p P. exists p. split; [auto|]. apply prefl; auto. Qed.
Lemma from_incl l m : from m -> incl l m -> from l.
Proof. intros F I p P. auto. Qed.
Lemma props_spec ps qs : from (List.concat (map snd ps)) -> from (List.concat (map snd qs)) ->
  exists b, compareProperties tzo fl phash ps qs = Ok b /\
    (b = true <-> covers (List.concat (map snd ps)) (List.concat (map snd qs)) /\ covers (List.concat (map snd qs)) (List.concat (map snd ps))).
Proof.
  unfold compareProperties. generalize (List.concat (map snd ps)) (List.concat (map snd qs)). intros l m Fl Fm.
  destruct (to_set_spec l [] (fun p (H : In p []) => match H with end) Fl apart_nil) as (s & Es & As & Is & Cs).
  destruct (to_set_spec m [] (fun p (H : In p []) => match H with end) Fm apart_nil) as (t & Et & At & It & Ct).
  cbn [app] in *. rewrite Es, Et. cbn [rbind]. pose proof (from_incl s l Fl Is) as Fs. pose proof (from_incl t m Fm It) as Ft.
  assert (Ls : covers l s) by exact Cs. assert (Sl : covers s l) by (apply incl_covers; assumption).
  assert (Mt : covers m t) by exact Ct. assert (Tm : covers t m) by (apply incl_covers; assumption).
  destruct (all_in_spec s t Fs Ft) as (b & B & Sb). destruct (Nat.eqb_spec (List.length s) (List.length t)) as [E|N].
  - exists b. split; [assumption|]. rewrite Sb. fold (covers s t). split.
    + intro H. assert (H' : covers t s).
      { intros q Q. destruct (in_set_spec q s (Ft q Q) Fs) as (c & _ & Sc). destruct c; [apply Sc; reflexivity|]. exfalso.
        apply in_split in Q. destruct Q as (x & y & ->).
        assert (L : (List.length s <= List.length (x ++ y))%nat).
        { apply fewer; auto.
          - intros z Z. apply Ft. apply in_app_iff in Z. apply in_app_iff. cbn [In]. tauto.
          - intros p P. destruct (H p P) as (r & Ir & Er). exists r. split; [|assumption]. apply in_app_iff in Ir. apply in_app_iff.
            destruct Ir as [Ir|[<-|Ir]]; [auto| |auto]. exfalso. assert (Uq : U q) by (apply Ft, in_app_iff; right; left; reflexivity).
            assert (false = true); [|discriminate]. apply Sc. exists p. split; [assumption|]. apply (psym p q); auto. }
        rewrite app_length in *. cbn [List.length] in *. lia. }
      split.
      * apply (covers_trans l s m); auto. apply (covers_trans s t m); auto.
      * apply (covers_trans m t l); auto. apply (covers_trans t s l); auto.
    + intros [H _]. apply (covers_trans s l t); auto. apply (covers_trans l m t); auto.
  - exists false. split; [reflexivity|]. split; [discriminate|]. intros [H1 H2]. exfalso. apply N. apply Nat.le_antisymm; apply fewer; auto.
    + apply (covers_trans s l t); auto. apply (covers_trans l m t); auto.
    + apply (covers_trans t m s); auto. apply (covers_trans m l s); auto.
Qed.

(** ** Being alike is an equivalence. *)
Notation like := (alike tzo fl).
Lemma f2_refl_in {A} (P : A -> A -> Prop) l : (forall x, In x l -> P x x) -> Forall2 P l l.
Proof. induction l as [|x l IH]; intro H; constructor; [apply H; left; reflexivity|]. apply IH. intros y Y; apply H; right; assumption. Qed.
Lemma like_refl c : drawn U c -> like c c.
Proof.
  induction c as [k s ps subs IH] using comp_tree_ind. intro D. inversion D as [? F Ds E]; subst. cbn [cSubs] in *.
  apply (alike_intro _ _ _ _ subs); [reflexivity| | |reflexivity|].
  - intros p P. exists p. split; [assumption|]. apply prefl; auto.
  - intros p P. exists p. split; [assumption|]. apply prefl; auto.
  - apply f2_refl_in. rewrite Forall_forall in *. auto.
Qed.
Lemma drawn_perm l m : Permutation l m -> Forall (drawn U) m -> Forall (drawn U) l.
Proof. intros P F. eapply Permutation_Forall; [symmetry; exact P|exact F]. Qed.
Lemma f2_swap {A} (P : A -> A -> Prop) l m : Forall2 P l m -> Forall2 (fun x y => P y x) m l.
Proof. induction 1; constructor; assumption. Qed.
Lemma like_sym c : forall d, drawn U c -> drawn U d -> like c d -> like d c.
Proof.
  induction c as [k s ps subs IH] using comp_tree_ind. intros d Dc Dd H. inversion H as [? ? l T A B P F]; subst.
  inversion Dc as [? Fc Dsc E]; subst. inversion Dd as [? Fd Dsd E]; subst. cbn [cSubs] in *.
  assert (Fl : Forall (drawn U) l) by (eapply drawn_perm; eassumption).
  assert (G : Forall2 like l subs).
  { clear - IH F Dsc Fl. revert IH Dsc Fl. induction F as [|x y subs l X F IHF]; intros IH Dsc Fl; [constructor|].
    inversion IH; inversion Dsc; inversion Fl; subst. constructor; auto. }
  destruct (f2_permute _ _ _ _ (f2_swap _ _ _ G) P) as (l' & Pl & G').
  apply (alike_intro _ _ _ _ l').
  - symmetry; assumption.
  - intros q Q. destruct (B q Q) as (p & Ip & Ep). exists p. split; [assumption|]. apply psym; auto.
  - intros q Q. destruct (A q Q) as (p & Ip & Ep). exists p. split; [assumption|]. apply psym; auto.
  - assumption.
  - apply f2_swap. assumption.
Qed.
Lemma like_trans c : forall d e, drawn U c -> drawn U d -> drawn U e -> like c d -> like d e -> like c e.
Proof.
  induction c as [k s ps subs IH] using comp_tree_ind. intros d e Dc Dd De H K. inversion H as [? ? l T A B P F]; subst. inversion K as [? ? m T' A' B' P' F']; subst.
  inversion Dc as [? Fc Dsc E]; subst. inversion Dd as [? Fd Dsd E]; subst. inversion De as [? Fe Dse E]; subst. cbn [cSubs] in *.
  destruct (f2_permute (fun x y => like y x) m (cSubs d) l (f2_swap _ _ _ F') (Permutation_sym P)) as (n & Pn & G). apply f2_swap in G. cbv beta in G.
  assert (Fl : Forall (drawn U) l) by (eapply drawn_perm; eassumption).
  assert (Fn : Forall (drawn U) n) by (eapply drawn_perm; [exact Pn|]; eapply drawn_perm; eassumption).
  apply (alike_intro _ _ _ _ n).
  - congruence.
  - intros p Ip. destruct (A p Ip) as (q & Iq & Eq). destruct (A' q Iq) as (r & Ir & Er). exists r. split; [assumption|]. apply (ptrans p q r); auto.
  - intros r Ir. destruct (B' r Ir) as (q & Iq & Eq). destruct (B q Iq) as (p & Ip & Ep). exists p. split; [assumption|]. apply (ptrans p q r); auto.
  - rewrite Pn. assumption.
  - clear - IH F G Dsc Fl Fn. revert n G Fn IH Dsc Fl. induction F as [|x y subs l X F IHF]; intros n G Fn IH Dsc Fl; inversion G as [|? z ? n' Gz Gn]; subst; [constructor|].
    inversion IH; inversion Dsc; inversion Fl; inversion Fn; subst. constructor; [eauto|]. apply IHF; assumption.
Qed.

(** ** Equality is being alike. *)
Lemma take_spec (P : comp -> Prop) f l : (forall x, In x l -> exists b, f x = Ok b /\ (b = true <-> P x)) ->
  exists o, take_first f l = Ok o /\
    match o with
    | Some r => exists a x b, l = a ++ x :: b /\ r = a ++ b /\ P x
    | None => forall x, In x l -> ~ P x
    end.
Proof.
  induction l as [|x l IH]; intro H; cbn [take_first].
  - exists None. split; [reflexivity|]. intros x [].
  - destruct (H x (or_introl eq_refl)) as (b & -> & Sb). cbn [rbind]. destruct b.
    + exists (Some l). split; [reflexivity|]. exists [], x, l. split; [reflexivity|]. split; [reflexivity|]. apply Sb; reflexivity.
    + destruct IH as (o & -> & So); [intros y Y; apply H; right; assumption|]. cbn [rbind]. eexists. split; [reflexivity|]. destruct o as [r|].
      * destruct So as (a & y & c & -> & -> & Py). exists (x :: a), y, c. auto.
      * intros y [<-|Y]; [|auto]. intro Q. apply Sb in Q. discriminate.
Qed.
Lemma like_spec c : forall d, drawn U c -> drawn U d -> exists b, comp_eq tzo fl phash c d = Ok b /\ (b = true <-> like c d).
Proof.
  induction c as [k s ps subs IH] using comp_tree_ind. intros [k' s' qs subs'] Dc Dd. rewrite comp_eq_eq.
  inversion Dc as [? Fc Dsc E]; subst. inversion Dd as [? Fd Dsd E]; subst. cbn [cSubs] in *. unfold all_props in Fc, Fd. cbn [cProps] in *.
  destruct (beq_case (getType k) (getType k')) as [[T ->]|[N ->]].
  2:{ exists false. split; [reflexivity|]. split; [discriminate|]. intro H. inversion H; subst. cbn [cKind] in *. congruence. }
  destruct (props_spec ps qs Fc Fd) as (b & -> & Sb). cbn [rbind]. destruct b.
  2:{ exists false. split; [reflexivity|]. split; [discriminate|]. intro H. inversion H as [? ? l _ A B _ _]; subst. unfold all_props in A, B. cbn [cProps] in A, B.
      apply Sb. split; [exact A|]. intros q Q. destruct (B q Q) as (p & Ip & Ep). exists p. split; [assumption|]. apply psym; auto. }
  assert (M : exists b, matching subs subs' = Ok b /\ (b = true <-> exists l, Permutation l subs' /\ Forall2 like subs l)).
  { clear - IH Dsc Dsd R. revert subs' Dsd IH Dsc. induction subs as [|x subs IHs]; intros subs' Dsd IH Dsc.
    - exists (match subs' with [] => true | _ => false end). split; [reflexivity|]. destruct subs' as [|y r].
      + split; [|reflexivity]. intros _. exists []. split; [reflexivity|constructor].
      + split; [discriminate|]. intros (l & P & F). inversion F; subst. apply Permutation_nil in P. discriminate.
    - inversion IH as [|? ? I1 I2]; subst. inversion Dsc as [|? ? D1 D2]; subst. rewrite matching_cons.
      destruct (take_spec (like x) (comp_eq tzo fl phash x) subs') as (o & -> & So).
      { intros y Y. rewrite Forall_forall in Dsd. apply I1; auto. }
      cbn [rbind]. destruct o as [r|].
      + destruct So as (a & z & b & -> & -> & Lz). assert (Dab : Forall (drawn U) (a ++ b)).
        { apply Forall_app in Dsd. destruct Dsd as [Da Db]. inversion Db; subst. apply Forall_app; auto. }
        assert (Dz : drawn U z) by (apply Forall_app in Dsd; destruct Dsd as [_ Db]; inversion Db; assumption).
        destruct (IHs (a ++ b) Dab I2 D2) as (c & C & Sc). exists c. split; [assumption|]. rewrite Sc. split.
        * intros (l & P & F). exists (z :: l). split; [|constructor; assumption]. rewrite P. apply Permutation_middle.
        * intros (l & P & F). inversion F as [|? y ? l0 Ly F0]; subst.
          assert (Dy : drawn U y /\ Forall (drawn U) l0).
          { assert (Q : Forall (drawn U) (y :: l0)) by (eapply drawn_perm; eassumption). inversion Q; auto. }
          destruct Dy as [Dy Dl0].
          assert (P1 : Permutation (y :: l0) (z :: a ++ b)) by (rewrite P; symmetry; apply Permutation_middle).
          assert (Iz : In z (y :: l0)) by (eapply Permutation_in; [symmetry; exact P1|left; reflexivity]).
          destruct Iz as [->|Iz]; [exists l0; split; [eapply Permutation_cons_inv; exact P1|assumption]|].
          apply in_split in Iz. destruct Iz as (u & v & ->).
          exists (u ++ y :: v). split.
          -- apply (Permutation_cons_inv (a := z)). rewrite <- P1. rewrite <- (Permutation_middle u v y), <- (Permutation_middle u v z). apply perm_swap.
          -- apply Forall2_app_inv_r in F0. destruct F0 as (s1 & s2 & F1 & F2 & ->). inversion F2 as [|w ? s3 ? Lw F3]; subst.
             apply Forall2_app; [assumption|]. constructor; [|assumption].
             apply Forall_app in D2. destruct D2 as [_ D2]. inversion D2 as [|? ? Dw _]; subst.
             apply (like_trans w z y); auto. apply (like_trans z x y); auto. apply like_sym; auto.
      + exists false. split; [reflexivity|]. split; [discriminate|]. intros (l & P & F). inversion F as [|? y ? l0 Ly F0]; subst. exfalso.
        apply (So y); [|assumption]. eapply Permutation_in; [exact P|left; reflexivity]. }
  destruct M as (b & B & Sm). exists b. split; [assumption|]. rewrite Sm. destruct (proj1 Sb eq_refl) as [A1 A2]. split.
  - intros (l & P & F). apply (alike_intro _ _ _ _ l); try assumption.
    intros q Q. destruct (A2 q Q) as (p & Ip & Ep). exists p. split; [assumption|]. apply psym; auto.
  - intro H. inversion H as [? ? l _ _ _ P F]; subst. cbn [cSubs] in *. exists l. auto.
Qed.
End Regular.
End WithEq.
