(** Proofs for what rules and recurrence sets tell user interfaces. *)
From Coq Require Import Lia ZifyBool.
From Verif Require Import PyBase RecurModel RecurSetModel RecurUIModel RecurUISpec.

Lemma has_no {A} (l : option (list A)) : has l = false <-> no_part l.
Proof. unfold no_part. destruct l as [[|x m]|]; cbn; split; intro H; auto; try discriminate. destruct H as [H|H]; discriminate H. Qed.

Lemma simple_is r : isSimpleRule r = true <-> simple_rule r.
Proof.
  unfold isSimpleRule, hasBy, simple_rule. rewrite Bool.negb_true_iff, !Bool.orb_false_iff, !has_no. tauto.
Qed.

Lemma days_are l : existsb (fun i => (i <? -7) || (31 <? i) || (i =? 0)) (items l) = false <-> part_all (fun d => 1 <= d <= 31 \/ -7 <= d <= -1) l.
Proof.
  unfold part_all. split.
  - intros H x m -> I. cbn [items] in H. assert (E : ((x <? -7) || (31 <? x) || (x =? 0)) = false).
    { destruct ((x <? -7) || (31 <? x) || (x =? 0)) eqn:E; [|reflexivity]. rewrite <- H. symmetry. apply existsb_exists. exists x. split; assumption. }
    lia.
  - intro H. destruct (existsb _ (items l)) eqn:E; [|reflexivity]. apply existsb_exists in E as (x & I & E). destruct l as [m|]; [|destruct I].
    specialize (H x m eq_refl I). lia.
Qed.
Lemma numbers_are l : match items l with
          | [] => false
          | (number, _) :: t => (4 <? number) || (number <? -2) || existsb (fun nw => negb (number =? fst nw)) t
          end = false <-> exists n, -2 <= n <= 4 /\ part_all (fun day : Z * Z => fst day = n) l.
Proof.
  unfold part_all. destruct l as [[|[n w] t]|]; cbn [items].
  - split; [intros _; exists 0; split; [lia|]|reflexivity]. intros x m E I. injection E as <-. destruct I.
  - split.
    + intro H. apply Bool.orb_false_iff in H as [H1 H2]. exists n. split; [lia|]. intros x m E I. injection E as <-. destruct I as [<-|I]; [reflexivity|].
      destruct (Z.eq_dec (fst x) n) as [E|N]; [exact E|]. exfalso. assert (X : existsb (fun nw => negb (n =? fst nw)) t = true) by (apply existsb_exists; exists x; split; [exact I|lia]). congruence.
    + intros (k & K & H). pose proof (H (n, w) _ eq_refl (or_introl eq_refl)) as E. cbn [fst] in E. subst k.
      destruct (existsb (fun nw => negb (n =? fst nw)) t) eqn:X; [|lia]. apply existsb_exists in X as (x & I & X). specialize (H x _ eq_refl (or_intror I)). lia.
  - split; [intros _; exists 0; split; [lia|]|reflexivity]. intros x m E. discriminate E.
Qed.
Lemma position_is l : match items l with [] => true | [p] => (p =? -1) || (p =? 1) | _ => false end = true <-> no_part l \/ l = Some [1] \/ l = Some [-1].
Proof.
  unfold no_part. destruct l as [[|p [|q t]]|]; cbn [items].
  - split; auto.
  - split; [intro H; assert (E : p = 1 \/ p = -1) by lia; destruct E as [-> | ->]; auto|]. intros [[H|H]|[H|H]]; try discriminate H; injection H as ->; reflexivity.
  - split; [discriminate|]. intros [[H|H]|[H|H]]; discriminate H.
  - split; auto.
Qed.
Lemma advanced_is r : isAdvancedRule r = true <-> advanced_rule r.
Proof.
  unfold isAdvancedRule, advanced_rule. rewrite <- days_are, <- numbers_are, <- position_is.
  destruct (has (rBySeconds r) || has (rByMinutes r) || has (rByHours r) || has (rByYearDay r) || has (rByWeekNo r)) eqn:H.
  - split; [discriminate|]. intros (A & B & C & D & E & _). apply has_no in A, B, C, D, E. rewrite A, B, C, D, E in H. discriminate H.
  - rewrite !Bool.orb_false_iff, !has_no in H. destruct (existsb _ (items (rByMonthDay r))); [split; [discriminate|intros (_ & _ & _ & _ & _ & X & _); discriminate X]|].
    destruct (match items (rByDay r) with [] => false | _ => _ end); [split; [discriminate|intros (_ & _ & _ & _ & _ & _ & X & _); discriminate X]|]. tauto.
Qed.

Lemma len0 {A} (l : list A) : (List.length l =? 0)%nat = true <-> l = [].
Proof. destruct l; cbn; split; intro H; auto; discriminate H. Qed.
Lemma gt0 {A} (l : list A) : (0 <? List.length l)%nat = false <-> l = [].
Proof. destruct l; cbn; split; intro H; auto; discriminate H. Qed.

Lemma no_recurrence_is s : hasRecurrence s = false <-> no_recurrence s.
Proof. unfold hasRecurrence, no_recurrence. rewrite !Bool.orb_false_iff, !Bool.negb_false_iff. rewrite !len0. tauto. Qed.
Lemma few_is s : too_much s = false <-> few_rules s.
Proof.
  unfold too_much, few_rules. rewrite !Bool.orb_false_iff, !gt0. assert (E : (1 <? List.length (sRrules s))%nat = false <-> sRrules s = [] \/ exists r, sRrules s = [r]).
  { destruct (sRrules s) as [|x [|y t]]; cbn; split; auto; try (intros _; right; exists x; reflexivity); try discriminate. intros [H|(r & H)]; discriminate H. }
  rewrite E. tauto.
Qed.
