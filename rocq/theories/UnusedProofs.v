(** Proofs for C95. *)
From Coq Require Import Lia.
From Verif Require Import PyBase PyProofs ComponentModel UnusedModel UnusedSpec.

Lemma loop_cases hit (P : bytes -> Prop) default : (forall x, hit x = true <-> P x) -> forall ss i,
  (exists j, first_at P ss j /\ index_loop hit i ss default = Ok (i + j)) \/ (ends_before P ss /\ index_loop hit i ss default = Ok default) \/ (nowhere P ss /\ index_loop hit i ss default = Raise IndexError).
Proof.
  intros H. induction ss as [|[[|c x]|] r IH]; intros i; cbn [index_loop].
  - right; right. split; [exists []; split; [reflexivity|constructor]|reflexivity].
  - right; left. split; [exists [], (Some []), r; auto|reflexivity].
  - destruct (hit (c :: x)) eqn:E.
    + left. exists 0. split; [|f_equal; lia]. exists [], (c :: x), r. apply H in E. repeat split; auto. discriminate.
    + assert (N : c :: x <> [] /\ ~ P (c :: x)) by (split; [discriminate|intros Q; apply H in Q; congruence]).
      destruct (IH (i + 1)) as [(j & (pre & y & post & -> & -> & Y) & ->)|[((pre & y & post & -> & Y1 & Y2) & ->)|((pre & -> & Y) & ->)]].
      * left. exists (Z.of_nat (S (List.length pre))). split; [|f_equal; lia]. exists ((c :: x) :: pre), y, post. destruct Y as (Y1 & Y2 & Y3). repeat split; auto.
      * right; left. split; [|reflexivity]. exists ((c :: x) :: pre), y, post. auto.
      * right; right. split; [|reflexivity]. exists ((c :: x) :: pre). auto.
  - right; left. split; [exists [], None, r; auto|reflexivity].
Qed.
Lemma begins_iff s : forall x, startswith s x = true <-> begins s x.
Proof.
  induction s as [|d s IH]; intros [|c x]; cbn [startswith]; split; try discriminate; try reflexivity; try (intros _; eexists; reflexivity).
  - intros (t & E). discriminate E.
  - intros E. apply andb_true_iff in E as [E1 E2]. apply Ascii.eqb_eq in E1. subst d. apply IH in E2 as (t & ->). exists t. reflexivity.
  - intros (t & E). injection E as -> E. rewrite Ascii.eqb_refl. apply IH. exists t. exact E.
Qed.
Lemma equal_iff s : forall x, beq s x = true <-> s = x.
Proof. intros x. split; [apply beq_eq|intros ->; apply beq_refl]. Qed.
Lemma remove_others name : forall ps n, n <> name -> getProperties n (removeProperties name ps) = getProperties n ps.
Proof.
  unfold getProperties. induction ps as [|[k l] r IH]; intros n N; cbn [removeProperties]; [reflexivity|]. destruct (beq k name) eqn:E; cbn [assoc].
  - apply beq_eq in E. subst k. destruct (beq name n) eqn:Q; [apply beq_eq in Q; congruence|reflexivity].
  - destruct (beq k n); [reflexivity|apply IH, N].
Qed.
Lemma remove_gone name : forall ps, NoDup (map fst ps) -> hasProperty name (removeProperties name ps) = false.
Proof.
  unfold hasProperty. induction ps as [|[k l] r IH]; intros N; cbn [removeProperties]; [reflexivity|]. inversion N as [|? ? N1 N2]; subst. destruct (beq k name) eqn:E; cbn [assoc].
  - apply beq_eq in E. subst k. destruct (assoc name r) as [v|] eqn:Q; [|reflexivity]. destruct N1. clear - Q. induction r as [|[k' l'] r IH]; [discriminate|]. cbn [assoc] in Q. cbn [map fst]. destruct (beq k' name) eqn:B; [apply beq_eq in B; left; congruence|right; auto].
  - rewrite E. apply IH, N2.
Qed.
