(** The expansion of a rule with BY parts whose sets lie in successive intervals of time. *)
From Coq Require Import Lia ZifyBool ZifyNat Sorting.Sorted.
From Verif Require Import PyBase CalSpec CalProofs DateTimeModel DateTimeSpec DateTimeSpec2 DateTimeProofs DateTimeProofs2 DateTimeProofs4.
From Verif Require Import PeriodModel PeriodSpec PeriodProofs RecurModel RecurExpand RecurExpandSpec RecurSimpleProofs.
Ltac Zify.zify_post_hook ::= Z.div_mod_to_equations.

Lemma sorted_app {A} (R : A -> A -> Prop) l1 l2 : StronglySorted R l1 -> StronglySorted R l2 ->
  (forall x y, In x l1 -> In y l2 -> R x y) -> StronglySorted R (l1 ++ l2).
Proof.
  intros S1 S2 H. induction S1 as [|x l1 S1 IH F]; [exact S2|]. cbn. constructor.
  - apply IH. intros; apply H; [right|]; assumption.
  - apply Forall_app. split; [exact F|]. apply Forall_forall. intros y Hy. apply H; [left; reflexivity|exact Hy].
Qed.
Lemma sorted_keep {A} (R : A -> A -> Prop) (f : A -> bool) xs : StronglySorted R xs -> StronglySorted R (filter f xs).
Proof.
  induction 1 as [|x xs S IH F]; cbn; [constructor|]. destruct (f x); [|exact IH]. constructor; [exact IH|].
  apply Forall_forall. intros y Hy. apply filter_In in Hy as [Hy _]. rewrite Forall_forall in F. auto.
Qed.

Section Loop.
Variable tzo : tzid -> Z -> Z -> Z -> Z -> Z -> Z -> bool -> bool -> Z.
Variables (r : rule) (start e : dt) (range : period) (until : option dt) (lim : option Z) (sc : scale) (a b : Z).
Variable R : Z -> Z -> Prop.
Hypothesis R_lt : forall x y, x < y -> R x y.
Hypothesis R_le : forall x y, R x y -> x <= y.
Hypothesis no_count : rUseCount r = false.
Hypothesis start_at : instant sc start a.
Hypothesis end_of : snd (getEnd range) = Ok e.
Hypothesis end_at : instant sc e b.
Hypothesis until_some : forall u, until = Some u -> exists c, lim = Some c /\ forall d x, instant sc d x -> dt_gt tzo d u = Ok (c <? x).
Hypothesis until_none : until = None -> lim = None.

Definition past (x : Z) : bool := match lim with Some c => c <? x | None => false end.
Definition keep (x : Z) : bool := (a <=? x) && (x <? b) && negb (past x).

Lemma until_test d x : instant sc d x -> (match until with None => Ok false | Some u => dt_gt tzo d u end) = Ok (past x).
Proof.
  intro I. unfold past. destruct until as [u|] eqn:U.
  - destruct (until_some u eq_refl) as (c & -> & H). apply H, I.
  - rewrite (until_none eq_refl). reflexivity.
Qed.
Lemma past_mono x y : x <= y -> past x = true -> past y = true.
Proof. unfold past. destruct lim; [|discriminate]. lia. Qed.

(** One set. *)
Lemma one_set : forall set xs, Forall2 (instant sc) set xs -> StronglySorted R xs -> forall items, exists sel,
  Forall2 (instant sc) sel (filter keep xs) /\
  ((set_loop tzo r start range until None set 0 items = inr (0, items ++ sel) /\ forall x, In x xs -> a <= x -> x < b /\ past x = false) \/
   (exists full, set_loop tzo r start range until None set 0 items = inl (items ++ sel, Ok full) /\
      exists x, In x xs /\ a <= x /\ (if full then x < b /\ past x = true else b <= x))).
Proof.
  induction 1 as [|d x set xs Id F IH]; intros S items.
  - exists []. rewrite app_nil_r. cbn. split; [constructor|]. left. split; [reflexivity|]. intros x [].
  - inversion S as [|? ? S' G]; subst. cbn [set_loop].
    destruct (instant_ops tzo _ _ _ _ _ Id start_at) as (Lt & _). rewrite Lt.
    assert (Rest : forall y, In y xs -> x <= y) by (intros y Hy; rewrite Forall_forall in G; apply R_le, G, Hy).
    assert (Stop : (a <= x -> b <= x \/ past x = true) -> filter keep (x :: xs) = [] \/ x < a).
    { intro H. destruct (Z_lt_le_dec x a); [right; lia|left]. specialize (H l).
      assert (K : forall y, x <= y -> keep y = false).
      { intros y Hy. unfold keep. destruct H as [H|H]; [lia|]. rewrite (past_mono x y Hy H), andb_false_r. reflexivity. }
      cbn [filter]. rewrite K by lia. clear - K Rest. induction xs as [|y ys IHl]; [reflexivity|]. cbn. rewrite K by (apply Rest; left; reflexivity).
      apply IHl. intros; apply Rest; right; assumption. }
    replace (0 <? a - x) with (x <? a) by lia. destruct (Z.ltb_spec x a) as [L|L].
    + destruct (IH S' items) as (sel & Fs & H). exists sel. cbn [filter]. assert (keep x = false) as -> by (unfold keep; lia).
      split; [exact Fs|]. destruct H as [[H1 H2]|(full & H1 & y & Hy & H2)].
      * left. split; [exact H1|]. intros y [<-|Hy]; [lia|auto].
      * right. exists full. split; [exact H1|]. exists y. split; [right; exact Hy|exact H2].
    + rewrite (after_spec tzo sc range e b d x end_of end_at Id). destruct (Z.leb_spec b x) as [B|B].
      * exists []. destruct Stop as [->|?]; [auto|split; [constructor|]|lia]. right. exists false. rewrite app_nil_r. split; [reflexivity|].
        exists x. split; [left; reflexivity|]. auto.
      * rewrite (until_test d x Id). destruct (past x) eqn:P.
        -- exists []. destruct Stop as [->|?]; [auto|split; [constructor|]|lia]. right. exists true. rewrite app_nil_r. split; [reflexivity|].
           exists x. split; [left; reflexivity|]. auto.
        -- change (0 =? 1) with false. cbv iota. rewrite no_count. cbn [too_many].
           destruct (IH S' (items ++ [d])) as (sel & Fs & H). exists (d :: sel). cbn [filter].
           assert (keep x = true) as -> by (unfold keep; rewrite P; lia). split; [constructor; assumption|].
           replace (items ++ d :: sel) with ((items ++ [d]) ++ sel) by (rewrite <- app_assoc; reflexivity).
           destruct H as [[H1 H2]|(full & H1 & y & Hy & H2)].
           ++ left. split; [exact H1|]. intros y [<-|Hy]; auto.
           ++ right. exists full. split; [exact H1|]. exists y. split; [right; exact Hy|exact H2].
Qed.

Variables (v : nat -> dt) (sets : nat -> list dt) (xs : nat -> list Z) (B : nat -> Z) (aft : nat -> bool) (K : nat).
Hypothesis sets_ok : forall k, (k <= K)%nat -> generate_set tzo r (v k) = Ok (sets k) /\ Forall2 (instant sc) (sets k) (xs k) /\ StronglySorted R (xs k).
Hypothesis next : forall k, (k < K)%nat -> recur (v k) (rFreq r) (rInterval r) true = v (S k).
Hypothesis inside : forall k x, (k <= K)%nat -> In x (xs k) -> B k <= x < B (S k).
Hypothesis growing : forall k, (k <= K)%nat -> B k <= B (S k).
Hypothesis after_at : forall k, (k <= K)%nat -> isDateAfterPeriod tzo range (v k) = Ok (aft k).
Hypothesis after_in : forall k, (k <= K)%nat -> aft k = true -> b <= B (S k).
Hypothesis after_end : aft K = true.

Lemma grow i j : (i <= j)%nat -> (j <= S K)%nat -> B i <= B j.
Proof. intros H. induction H as [|j H IH]; intro; [lia|]. specialize (IH ltac:(lia)). specialize (growing j ltac:(lia)). lia. Qed.

Lemma loop_from : forall n k, (n + k = K)%nat -> forall items fuel, (n < fuel)%nat -> exists sel zs full,
  complex_loop tzo fuel r start range until None (v k) 0 items = Some (items ++ sel, Ok full) /\
  Forall2 (instant sc) sel zs /\ StronglySorted R zs /\ (forall x, In x zs -> B k <= x) /\
  (forall x, In x zs <-> (exists j, (k <= j <= K)%nat /\ In x (xs j)) /\ keep x = true) /\
  (full = true -> exists c, lim = Some c /\ c < b).
Proof.
  induction n as [|n IH]; intros k Hk items fuel Hf; (destruct fuel as [|fuel]; [lia|]); cbn [complex_loop];
  destruct (sets_ok k ltac:(lia)) as (Es & Fs & Ss); rewrite Es;
  destruct (one_set (sets k) (xs k) Fs Ss items) as (sel & Fsel & H).
  all: assert (Stop : (forall j x, (k < j <= K)%nat -> In x (xs j) -> keep x = false) ->
    Forall2 (instant sc) sel (filter keep (xs k)) /\ StronglySorted R (filter keep (xs k)) /\ (forall x, In x (filter keep (xs k)) -> B k <= x) /\
    (forall x, In x (filter keep (xs k)) <-> (exists j, (k <= j <= K)%nat /\ In x (xs j)) /\ keep x = true)) by
    (intro Z0; split; [exact Fsel|]; split; [apply sorted_keep, Ss|]; split;
     [intros x Hx; apply filter_In in Hx as [Hx _]; destruct (inside k x ltac:(lia) Hx); assumption|];
     intro x; rewrite filter_In; split;
     [intros [Hx Kx]; split; [exists k; split; [lia|exact Hx]|exact Kx]|
      intros [(j & Hj & Hx) Kx]; split; [|exact Kx]; destruct (Nat.eq_dec j k) as [->|Nj]; [exact Hx|];
      rewrite (Z0 j x) in Kx; [discriminate|lia|exact Hx]]).
  all: assert (Later : forall t, b <= t \/ past t = true -> t <= B (S k) -> forall j x, (k < j <= K)%nat -> In x (xs j) -> keep x = false) by
    (intros t Ht Le j x Hj Hx; destruct (inside j x ltac:(lia) Hx) as [L _]; pose proof (grow (S k) j ltac:(lia) ltac:(lia));
     unfold keep; destruct Ht as [Ht|Ht]; [lia|rewrite (past_mono t x ltac:(lia) Ht), andb_false_r; reflexivity]).
  all: destruct H as [[-> H]|(full & -> & x & Hx & Ax & Fx)].
  2,4: exists sel, (filter keep (xs k)), full; split; [reflexivity|];
    (destruct Stop as (S1 & S2 & S3 & S4);
      [destruct (inside k x ltac:(lia) Hx); apply (Later x); [destruct full; [right; tauto|left; tauto]|lia]|]);
    (split; [exact S1|]; split; [exact S2|]; split; [exact S3|]; split; [exact S4|]);
    intros ->; destruct Fx as [Fx1 Fx2]; unfold past in Fx2; destruct lim as [c|]; [|discriminate]; exists c; split; [reflexivity|lia].
  - rewrite (after_at k ltac:(lia)). replace k with K in * by lia. rewrite after_end.
    exists sel, (filter keep (xs K)), false. split; [reflexivity|].
    destruct Stop as (S1 & S2 & S3 & S4); [intros; lia|]. repeat (split; [assumption|]). discriminate.
  - rewrite (after_at k ltac:(lia)). destruct (aft k) eqn:Ak.
    + exists sel, (filter keep (xs k)), false. split; [reflexivity|].
      destruct Stop as (S1 & S2 & S3 & S4); [apply (Later (B (S k))); [left; apply after_in; [lia|exact Ak]|lia]|].
      repeat (split; [assumption|]). discriminate.
    + rewrite (next k) by lia. destruct (IH (S k) ltac:(lia) (items ++ sel) fuel ltac:(lia)) as (sel2 & zs & full & E & F2 & S2 & L2 & M2 & Fu).
      exists (sel ++ sel2), (filter keep (xs k) ++ zs), full. rewrite app_assoc. split; [exact E|]. split; [apply Forall2_app; assumption|].
      split; [apply sorted_app; [apply sorted_keep, Ss|exact S2|]|split; [|split; [|exact Fu]]].
      * intros x y Hx Hy. apply filter_In in Hx as [Hx _]. destruct (inside k x ltac:(lia) Hx). specialize (L2 y Hy). apply R_lt. lia.
      * intros x Hx. apply in_app_iff in Hx as [Hx|Hx].
        -- apply filter_In in Hx as [Hx _]. destruct (inside k x ltac:(lia) Hx). assumption.
        -- specialize (L2 x Hx). pose proof (growing k ltac:(lia)). lia.
      * intro x. rewrite in_app_iff, filter_In, M2. split.
        -- intros [[Hx Kx]|[(j & Hj & Hx) Kx]]; (split; [|exact Kx]); [exists k|exists j]; (split; [lia|exact Hx]).
        -- intros [(j & Hj & Hx) Kx]. destruct (Nat.eq_dec j k) as [->|Nj]; [left; auto|right]. split; [|exact Kx]. exists j. split; [lia|exact Hx].
Qed.
End Loop.
