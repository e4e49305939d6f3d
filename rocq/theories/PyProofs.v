(** Facts about the Python run-time notions of PyBase. *)
From Coq Require Import Lia ZifyBool ZifyNat.
From Verif Require Import PyBase.
Ltac Zify.zify_post_hook ::= Z.div_mod_to_equations.

Lemma digit_char_val d : 0 <= d <= 9 -> digit_val (digit_char d) = d.
Proof.
  intro H. unfold digit_val, digit_char. rewrite nat_ascii_embedding by lia. lia.
Qed.

Lemma digit_char_digit d : 0 <= d <= 9 -> is_digit (digit_char d) = true.
Proof. intro H. unfold is_digit, digit_char. rewrite nat_ascii_embedding by lia. lia. Qed.

Definition all_digits (s : bytes) : bool := forallb is_digit s.

Lemma is_digit_not_space c : is_digit c = true -> is_space c = false.
Proof. unfold is_digit, is_space. lia. Qed.

Lemma read_digits_app a b acc : read_digits acc (a ++ b) = read_digits (read_digits acc a) b.
Proof. revert acc; induction a as [|c a IH]; intro acc; cbn; auto. Qed.

(** Each udigits_f step puts the digits of n in front of acc. *)
Lemma udigits_f_spec f : forall n acc, 0 <= n -> n < 2 ^ Z.of_nat f ->
  exists ds, udigits_f f n acc = ds ++ acc /\ all_digits ds = true /\
    (0 < Z.of_nat f -> ds <> []) /\
    (f <> O -> read_digits 0 ds = n) /\
    (f <> O -> forall w, 0 < w -> n < 10 ^ w -> Z.of_nat (List.length ds) <= w) /\
    (f <> O -> n <> 0 -> nth_error ds 0 <> Some (digit_char 0)).
Proof.
  induction f as [|f IH]; intros n acc Hn Hf.
  - exists []. cbn [udigits_f app]. repeat split; intros; try lia; try congruence.
  - cbn [udigits_f]. destruct (Z.eqb_spec (n / 10) 0) as [E|E].
    + exists [digit_char (n mod 10)]. cbn [app]. split; [reflexivity|].
      split. { unfold all_digits; cbn [forallb]. rewrite digit_char_digit by lia. reflexivity. }
      split; [discriminate|]. split.
      { intros _. cbn [read_digits]. rewrite digit_char_val by lia. lia. }
      split. { intros _ w Hw Hlt. cbn [List.length]. lia. }
      intros _ Hnz. cbn [nth_error]. intro K. injection K as K.
      apply (f_equal digit_val) in K. rewrite !digit_char_val in K by lia. lia.
    + destruct (IH (n / 10) (digit_char (n mod 10) :: acc)) as (ds & E1 & D & N & R & W & Z0).
      { lia. } { rewrite Nat2Z.inj_succ, Z.pow_succ_r in Hf by lia. lia. }
      assert (Hf0 : f <> O).
      { intros ->. cbn in Hf. change (2 ^ Z.of_nat 1) with 2 in Hf. lia. }
      exists (ds ++ [digit_char (n mod 10)]). rewrite E1. rewrite <- app_assoc.
      split; [reflexivity|].
      split. { unfold all_digits in *. rewrite forallb_app, D. cbn [forallb]. rewrite digit_char_digit by lia. reflexivity. }
      split. { intros _ K. apply app_eq_nil in K as [_ K]. discriminate. }
      split. { intros _. rewrite read_digits_app, R by exact Hf0. cbn [read_digits]. rewrite digit_char_val by lia. lia. }
      split. { intros _ w Hw Hlt. rewrite app_length. cbn [List.length].
        assert (w = 1 \/ 1 < w) as [->|Hw1] by lia; [change (10^1) with 10 in Hlt; lia|].
        specialize (W Hf0 (w - 1) ltac:(lia)).
        assert (n / 10 < 10 ^ (w - 1)).
        { replace w with (Z.succ (w - 1)) in Hlt by lia. rewrite Z.pow_succ_r in Hlt by lia. lia. }
        lia. }
      intros _ _. specialize (Z0 Hf0 E). destruct ds as [|c ds]; [exfalso; apply N; [lia|reflexivity]|].
      cbn [app nth_error] in *. exact Z0.
Qed.

Lemma log2_fuel n : 0 <= n -> n < 2 ^ Z.of_nat (S (Z.to_nat (Z.log2 n))).
Proof.
  intro H. rewrite Nat2Z.inj_succ, Z2Nat.id by apply Z.log2_nonneg.
  destruct (Z.eq_dec n 0) as [->|Hn]; [reflexivity|]. apply Z.log2_spec. lia.
Qed.

Lemma udigits_spec n : 0 <= n ->
  all_digits (udigits n) = true /\ udigits n <> [] /\ read_digits 0 (udigits n) = n /\
  (forall w, 0 < w -> n < 10 ^ w -> Z.of_nat (List.length (udigits n)) <= w).
Proof.
  intro H. unfold udigits.
  destruct (udigits_f_spec (S (Z.to_nat (Z.log2 n))) n [] H (log2_fuel n H)) as (ds & E & D & N & R & W & _).
  rewrite E, app_nil_r. repeat split; auto. apply N. lia.
Qed.

Lemma udigits_lead n : 0 < n -> nth_error (udigits n) 0 <> Some (digit_char 0).
Proof.
  intro H. unfold udigits.
  destruct (udigits_f_spec (S (Z.to_nat (Z.log2 n))) n [] ltac:(lia) (log2_fuel n ltac:(lia))) as (ds & E & _ & _ & _ & _ & Z0).
  rewrite E, app_nil_r. apply Z0; [discriminate|lia].
Qed.

Lemma all_digits_repeat0 k : all_digits (repeat "0"%char k) = true.
Proof. induction k; cbn; auto. Qed.

Lemma read_repeat0 k s : read_digits 0 (repeat "0"%char k ++ s) = read_digits 0 s.
Proof. induction k as [|k IH]; cbn; auto. Qed.

Lemma fmt0_spec w n : 0 <= n ->
  all_digits (fmt0 w n) = true /\ read_digits 0 (fmt0 w n) = n /\
  (forall k, 0 <= n < 10 ^ k -> 0 < k <= Z.of_nat w -> List.length (fmt0 w n) = w) /\
  fmt0 w n <> [].
Proof.
  intro H. unfold fmt0. destruct (Z.ltb_spec n 0); [lia|].
  destruct (udigits_spec n H) as (D & N & R & W). unfold pad0.
  split. { unfold all_digits in *. rewrite forallb_app, D. rewrite (all_digits_repeat0 _). reflexivity. }
  split. { rewrite read_repeat0. exact R. }
  split. { intros k Hk Hw. rewrite app_length, repeat_length. specialize (W k). lia. }
  intro K. apply app_eq_nil in K as [_ K]. auto.
Qed.

(** Reading back a padded number of known width. *)
Lemma fmt0_2 n : 0 <= n < 100 -> exists a b, fmt0 2 n = [a; b] /\ is_digit a = true /\ is_digit b = true /\
  read_digits 0 [a; b] = n.
Proof.
  intro H. destruct (fmt0_spec 2 n ltac:(lia)) as (D & R & L & _).
  specialize (L 2 ltac:(lia) ltac:(lia)).
  destruct (fmt0 2 n) as [|a [|b [|c t]]]; try discriminate.
  exists a, b. unfold all_digits in D; cbn [forallb] in D.
  repeat split; auto; destruct (is_digit a), (is_digit b); auto; discriminate.
Qed.

Lemma fmt0_4 n : 0 <= n < 10000 -> exists a b c d, fmt0 4 n = [a; b; c; d] /\
  is_digit a = true /\ is_digit b = true /\ is_digit c = true /\ is_digit d = true /\
  read_digits 0 [a; b; c; d] = n.
Proof.
  intro H. destruct (fmt0_spec 4 n ltac:(lia)) as (D & R & L & _).
  specialize (L 4 ltac:(lia) ltac:(lia)).
  destruct (fmt0 4 n) as [|a [|b [|c [|d [|e t]]]]]; try discriminate.
  exists a, b, c, d. unfold all_digits in D; cbn [forallb] in D.
  repeat split; auto; destruct (is_digit a), (is_digit b), (is_digit c), (is_digit d); auto; discriminate.
Qed.

Lemma span_digits_all s : all_digits s = true -> span_digits s = (s, []).
Proof.
  induction s as [|c s IH]; cbn; auto. intro H. apply andb_prop in H as [Hc Hs].
  rewrite Hc, IH by exact Hs. reflexivity.
Qed.

Lemma span_digits_app s t : all_digits s = true ->
  (match t with c :: _ => is_digit c = false | [] => True end) -> span_digits (s ++ t) = (s, t).
Proof.
  induction s as [|c s IH]; cbn; intros H Ht.
  - destruct t as [|x t]; auto. cbn. rewrite Ht. reflexivity.
  - apply andb_prop in H as [Hc Hs]. rewrite Hc, IH by auto. reflexivity.
Qed.

Lemma is_digit_not_sign c : is_digit c = true -> Ascii.eqb c "-"%char = false /\ Ascii.eqb c "+"%char = false.
Proof.
  intro H. split; destruct (Ascii.eqb_spec c "-"%char), (Ascii.eqb_spec c "+"%char); subst; auto; discriminate.
Qed.

Lemma lstrip_digits s : all_digits s = true -> lstrip s = s.
Proof.
  destruct s as [|c s]; auto. cbn. intro H. apply andb_prop in H as [Hc _].
  rewrite is_digit_not_space by exact Hc. reflexivity.
Qed.

Lemma pyint_digits s : all_digits s = true -> s <> [] -> pyint s = Ok (read_digits 0 s).
Proof.
  intros D N. unfold pyint. rewrite lstrip_digits by exact D.
  destruct s as [|c s]; [congruence|].
  pose proof D as D'. cbn [all_digits forallb] in D'. apply andb_prop in D' as [Hc Hs].
  destruct (is_digit_not_sign c Hc) as [-> ->].
  rewrite lstrip_digits by exact D. rewrite span_digits_all by exact D. reflexivity.
Qed.

Lemma pyint_only_value s e : pyint s = Raise e -> e = ValueError.
Proof.
  unfold pyint. destruct (match lstrip s with [] => _ | c :: r => _ end) as [neg s2].
  destruct (span_digits (lstrip s2)) as [ds rest]. destruct ds; [congruence|].
  destruct (lstrip rest); congruence.
Qed.

Lemma beq_refl s : beq s s = true.
Proof. induction s as [|c s IH]; cbn; auto. rewrite Ascii.eqb_refl. exact IH. Qed.

Lemma beq_eq a b : beq a b = true <-> a = b.
Proof.
  split; [|intros ->; apply beq_refl].
  revert b; induction a as [|c a IH]; destruct b as [|d b]; cbn; try congruence.
  intro H. apply andb_prop in H as [H1 H2]. apply Ascii.eqb_eq in H1. rewrite (IH b H2), H1. reflexivity.
Qed.

Lemma beq_sym a b : beq a b = beq b a.
Proof.
  destruct (beq a b) eqn:E.
  - apply beq_eq in E as ->. symmetry. apply beq_refl.
  - destruct (beq b a) eqn:F; auto. apply beq_eq in F as ->. rewrite beq_refl in E. discriminate.
Qed.

Lemma cin_In c s : cin c s = true <-> In c s.
Proof.
  induction s as [|x s IH]; cbn; [split; [discriminate|tauto]|].
  rewrite orb_true_iff, IH. split; intros [H|H]; auto.
  - apply Ascii.eqb_eq in H; auto.
  - left. subst. apply Ascii.eqb_refl.
Qed.
