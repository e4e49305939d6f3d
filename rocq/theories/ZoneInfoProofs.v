(** Proofs for C75: replacement in texts. *)
From Coq Require Import Lia Sorting.Permutation.
From Verif Require Import PyBase PyProofs ZoneInfoModel ZoneInfoSpec.

Lemma starts_app s p : startswith (p ++ s) p = true.
Proof. induction p as [|c p IH]; [destruct s; reflexivity|]. cbn [app startswith]. rewrite Ascii.eqb_refl. exact IH. Qed.
Lemma starts_iff s p : startswith s p = true <-> exists r, s = p ++ r.
Proof.
  split; [|intros (r & ->); apply starts_app]. revert s. induction p as [|c p IH]; intros s H; [exists s; reflexivity|]. destruct s as [|d s]; [discriminate H|]. cbn [startswith] in H.
  apply andb_true_iff in H as [H1 H2]. apply Ascii.eqb_eq in H1 as ->. destruct (IH s H2) as (r & ->). exists r. reflexivity.
Qed.
Lemma repl_skip old new x s : replace_from old new (x ++ s) (List.length x) = replace_from old new s 0.
Proof. induction x as [|c x IH]; [reflexivity|]. cbn [app List.length replace_from]. exact IH. Qed.
Lemma repl_here old new s : old <> [] -> replace_from old new (old ++ s) 0 = new ++ replace_from old new s 0.
Proof.
  intro N. destruct old as [|c r] eqn:E; [congruence|]. rewrite <- E. assert (S : startswith (old ++ s) old = true) by apply starts_app. rewrite E in S at 1. cbn [app] in S.
  rewrite E at 2. cbn [app replace_from]. rewrite S. f_equal. replace (List.length old - 1)%nat with (List.length r) by (rewrite E; cbn [List.length]; lia). apply repl_skip.
Qed.
Lemma repl_before old new p s : (forall a b, p ++ s = a ++ old ++ b -> (List.length p <= List.length a)%nat) -> replace_from old new (p ++ s) 0 = p ++ replace_from old new s 0.
Proof.
  induction p as [|c p IH]; intro H; [reflexivity|]. cbn [app replace_from]. destruct (startswith (c :: p ++ s) old) eqn:S.
  - apply starts_iff in S as (r & E). specialize (H [] r E). cbn [List.length] in H. lia.
  - rewrite IH; [reflexivity|]. intros a b E. specialize (H (c :: a) b). cbn [app List.length] in H. rewrite E in H. specialize (H eq_refl). lia.
Qed.
Lemma repl_none old new s : old <> [] -> (forall a b, s <> a ++ old ++ b) -> replace_from old new s 0 = s.
Proof.
  intros N H. rewrite <- (app_nil_r s) at 1. rewrite repl_before; [cbn [replace_from]; apply app_nil_r|]. intros a b E. rewrite app_nil_r in E. exfalso. exact (H a b E).
Qed.
Lemma app_same {A} (a b x : list A) : a ++ x = a ++ b -> x = b.
Proof. apply app_inv_head. Qed.
Theorem replace_two old new p m q : old <> [] -> at_most_twice old (p ++ old ++ m ++ old ++ q) -> str_replace (p ++ old ++ m ++ old ++ q) old new = p ++ new ++ m ++ new ++ q.
Proof.
  intros N H. unfold str_replace. destruct old as [|c0 r0] eqn:E0; [congruence|]. rewrite <- E0 in *. clear c0 r0 E0.
  assert (Lo : (0 < List.length old)%nat) by (destruct old; [congruence|cbn; lia]).
  assert (K : forall a b, p ++ old ++ m ++ old ++ q = a ++ old ++ b -> a = p \/ a = p ++ old ++ m).
  { intros a b E. destruct (H p (p ++ old ++ m) a (m ++ old ++ q) q b eq_refl) as [D|[D|D]]; [rewrite <- !app_assoc; reflexivity|exact E| | |].
    - exfalso. apply (f_equal (@List.length ascii)) in D. rewrite !app_length in D. lia.
    - auto.
    - auto. }
  rewrite repl_before.
  - rewrite repl_here by exact N. do 2 f_equal. rewrite repl_before.
    + rewrite repl_here by exact N. do 2 f_equal. apply repl_none; [exact N|]. intros a b E. destruct (K (p ++ old ++ m ++ old ++ a) b) as [D|D]; [rewrite E, <- !app_assoc; reflexivity| |];
        apply (f_equal (@List.length ascii)) in D; rewrite !app_length in D; lia.
    + intros a b E. destruct (K (p ++ old ++ a) b) as [D|D]; [rewrite E, <- !app_assoc; reflexivity| |]; apply (f_equal (@List.length ascii)) in D; rewrite !app_length in D; lia.
  - intros a b E. destruct (K a b E) as [-> | ->]; rewrite ?app_length; lia.
Qed.

(** Counting the places. *)
Fixpoint places (w t : bytes) (k : nat) : list nat :=
  (if startswith t w then [k] else []) ++ match t with [] => [] | _ :: r => places w r (S k) end.
Lemma places_all w a b k : In (k + List.length a)%nat (places w (a ++ w ++ b) k).
Proof.
  revert k. induction a as [|c a IH]; intro k.
  - cbn [app List.length]. assert (S : startswith (w ++ b) w = true) by apply starts_app. destruct (w ++ b) as [|x l]; cbn [places]; rewrite S; left; lia.
  - cbn [app places List.length]. apply in_or_app. right. replace (k + S (List.length a))%nat with (S k + List.length a)%nat by lia. apply IH.
Qed.
Lemma twice_check w t : (List.length (places w t 0) <= 2)%nat -> at_most_twice w t.
Proof.
  intros L a b c d e f E1 E2 E3.
  assert (I1 : In (List.length a) (places w t 0)) by (rewrite E1; apply (places_all w a d 0)).
  assert (I2 : In (List.length b) (places w t 0)) by (rewrite E2; apply (places_all w b e 0)).
  assert (I3 : In (List.length c) (places w t 0)) by (rewrite E3; apply (places_all w c f 0)).
  assert (Q : List.length a = List.length b \/ List.length a = List.length c \/ List.length b = List.length c).
  { destruct (places w t 0) as [|x [|y [|z l]]]; [destruct I1| | |cbn in L; lia].
    - destruct I1 as [<-|[]]; destruct I2 as [<-|[]]. auto.
    - destruct I1 as [<-|[<-|[]]]; destruct I2 as [<-|[<-|[]]]; destruct I3 as [<-|[<-|[]]]; auto. }
  assert (P : forall (x y u v : bytes), x ++ u = y ++ v -> List.length x = List.length y -> x = y).
  { intros x. induction x as [|c0 x IH]; intros [|c1 y] u v E Le; try discriminate Le; [reflexivity|]. injection E as -> E. f_equal. apply (IH y u v E). injection Le as Le. exact Le. }
  destruct Q as [Q|[Q|Q]]; [left|right; left|right; right].
  - exact (P a b _ _ (eq_trans (eq_sym E1) E2) Q).
  - exact (P a c _ _ (eq_trans (eq_sym E1) E3) Q).
  - exact (P b c _ _ (eq_trans (eq_sym E2) E3) Q).
Qed.
