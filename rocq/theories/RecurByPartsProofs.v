(** The expansion of rules with BY parts. *)
From Coq Require Import Lia ZifyBool ZifyNat Sorting.Sorted.
From Verif Require Import PyBase PyProofs CalModel CalSpec CalProofs DateTimeModel DateTimeSpec DateTimeSpec2 DateTimeProofs DateTimeProofs2 DateTimeProofs4 DateTimeOpsProofs.
From Verif Require Import PeriodModel PeriodSpec PeriodProofs RecurModel RecurSpec RecurExpand RecurExpandSpec RecurSimpleProofs
  RecurCacheProofs RecurComplexSpec RecurMiscProofs RecurSetSpec RecurSetProofs RecurSortProofs RecurSetProofs2 RecurSetProofs3
  RecurByPartsSpec RecurLoopProofs.
Ltac Zify.zify_post_hook ::= Z.div_mod_to_equations.

Lemma visible_scale sc d d' : visible d = visible d' -> on_scale sc d = on_scale sc d'.
Proof.
  intro V. apply visible_split in V as (D & h & m & s & _). unfold ymd in D. injection D as Y M Dd.
  unfold on_scale, civil, secs_of_day. rewrite Y, M, Dd, h, m, s. reflexivity.
Qed.
Lemma visible_instant sc d d' x : sc <> Offsets -> visible d = visible d' -> instant sc d x -> instant sc d' x.
Proof.
  intros NO V I. rewrite instant_iff in * by exact NO. rewrite (visible_scale sc _ _ V) in I. destruct I as (Vd & S & ->).
  apply visible_split in V as (D & h & m & s & DO & U & T). split; [|split; [|reflexivity]].
  - destruct Vd as (A & B & C). unfold valid_dt, secs_of_day in *. rewrite <- D, <- h, <- m, <- s, <- DO. auto.
  - destruct sc; cbn in *; rewrite <- ?DO, <- ?U, <- ?T; exact S.
Qed.
Lemma selects_visible r s s' e : visible s = visible s' -> selects r s e -> selects r s' e.
Proof.
  intro V. destruct s, s'. unfold visible, ymd in V. cbn in V. injection V as -> -> -> -> -> -> -> -> ->. intro H; exact H.
Qed.

Section Core.
Variable tzo : tzid -> Z -> Z -> Z -> Z -> Z -> Z -> bool -> bool -> Z.
Variables (sc : scale) (r : rule) (off : Z) (start e : dt) (range : period) (lim : option Z) (a b : Z) (R : Z -> Z -> Prop).
Hypothesis R_lt : forall x y, x < y -> R x y.
Hypothesis R_le : forall x y, R x y -> x <= y.
Hypothesis NO : sc <> Offsets.
Hypothesis HB : hasBy r = true.
Hypothesis no_count : rUseCount r = false.
Hypothesis start_at : instant sc start a.
Hypothesis end_of : snd (getEnd range) = Ok e.
Hypothesis end_at : instant sc e b.
Hypothesis until_is : until_at sc start off r lim.

Let v (k : nat) : dt := interval_start r (normalise start) k.
Let sets (k : nat) : list dt := match generate_set tzo r (v k) with Ok o => o | Raise _ => [] end.
Variables (B : nat -> Z) (K : nat).
Hypothesis made : forall k, (k <= K)%nat -> exists o, generate_set tzo r (v k) = Ok o /\ describes o (selects r (v k)) /\
  StronglySorted R (map (on_scale sc) o).
Hypothesis timed : forall k d, (k <= K)%nat -> selects r (v k) d -> instant sc d (on_scale sc d).
Hypothesis inside : forall k d, selects r (v k) d -> instant sc d (on_scale sc d) -> B k <= on_scale sc d < B (S k).
Hypothesis growing : forall k, B k <= B (S k).
Hypothesis after_ok : forall k, (k <= K)%nat -> exists c, isDateAfterPeriod tzo range (v k) = Ok c /\ (c = true -> b <= B (S k)).
Hypothesis after_end : isDateAfterPeriod tzo range (v K) = Ok true.

Lemma core : exists N, forall fuel, (N <= fuel)%nat -> exists recs full zs,
  compute tzo fuel r (normalise start) range off None = Some (recs, Ok full) /\
  Forall2 (instant sc) recs zs /\ StronglySorted R zs /\
  (forall x, In x zs <-> (a <= x /\ (forall c, lim = Some c -> x <= c) /\ exists k d, selects r (v k) d /\ instant sc d x) /\ x < b) /\
  (full = true -> forall x, a <= x -> (forall c, lim = Some c -> x <= c) -> (exists k d, selects r (v k) d /\ instant sc d x) -> x < b).
Proof.
  destruct (norm_same sc start a NO start_at) as [Ist Fst].
  pose proof (until_norm sc off r start a lim NO start_at until_is) as Un.
  destruct (until_zone TzNone sc (normalise start) off r lim a NO Ist eq_refl Un) as (fu & Ef & HfS & HfN).
  set (xs := fun k => map (on_scale sc) (sets k)).
  set (aft := fun k => match isDateAfterPeriod tzo range (v k) with Ok c => c | Raise _ => false end).
  assert (Fall : forall k, (k <= K)%nat -> Forall2 (instant sc) (sets k) (xs k)).
  { intros k Hk. destruct (made k Hk) as (o & E & D & _). unfold xs, sets. rewrite E. destruct D as [D _].
    assert (H : forall x, In x o -> instant sc x (on_scale sc x)) by (intros x Hx; apply (timed k); [exact Hk|apply D, Hx]).
    clear - H. induction o; cbn; constructor; [apply H; left; reflexivity|apply IHo; intros; apply H; right; assumption]. }
  assert (Mem : forall k x, (k <= K)%nat -> In x (xs k) <-> exists d, selects r (v k) d /\ instant sc d x).
  { intros k x Hk. destruct (made k Hk) as (o & E & [D1 D2] & _). unfold xs, sets. rewrite E, in_map_iff. split.
    - intros (d & <- & Hd). exists d. split; [apply D1, Hd|]. apply (timed k); auto.
    - intros (d & Hd & Id). destruct (D2 d Hd) as (d' & Hd' & V). exists d'. split; [|exact Hd'].
      rewrite (visible_scale sc _ _ V). apply instant_iff in Id; [|exact NO]. symmetry. apply Id. }
  destruct (loop_from tzo r (normalise start) e range fu lim sc a b R R_lt R_le no_count Ist end_of end_at) with
    (v := v) (sets := sets) (xs := xs) (B := B) (aft := aft) (K := K) (n := K) (k := O) (items := @nil dt) (fuel := S K)
    as (sel & zs & full & E & F & S & _ & M & Full).
  - intros u Hu. destruct (HfS u Hu) as (c & -> & H). exists c. split; [reflexivity|]. intros d x Id. apply H, Id.
  - exact HfN.
  - intros k Hk. destruct (made k Hk) as (o & Eo & _ & So). split; [|split; [apply Fall, Hk|]]; unfold xs, sets; rewrite Eo; [reflexivity|exact So].
  - reflexivity.
  - intros k x Hk Hx. apply Mem in Hx as (d & Hd & Id); [|exact Hk]. pose proof Id as Id2. apply instant_iff in Id2 as (_ & _ & ->); [|exact NO].
    apply inside; assumption.
  - intros. apply growing.
  - intros k Hk. destruct (after_ok k Hk) as (c & Ec & _). unfold aft. rewrite Ec. reflexivity.
  - intros k Hk. destruct (after_ok k Hk) as (c & Ec & Hc). unfold aft. rewrite Ec. exact Hc.
  - unfold aft. rewrite after_end. reflexivity.
  - lia.
  - lia.
  - cbn [app] in E. exists (Datatypes.S K). intros fuel Hf.
    assert (Ex : complexExpand tzo fuel r (normalise start) range off None = Some (sel, Ok full)).
    { unfold complexExpand. rewrite Ef, no_count. apply complex_more with (n := Datatypes.S K); [exact E|exact Hf]. }
    assert (After : forall k d, selects r (v k) d -> instant sc d (on_scale sc d) -> on_scale sc d < b -> (k <= K)%nat).
    { intros k d Hd Id Lt. destruct (Nat.le_gt_cases k K) as [|G]; [assumption|exfalso].
      destruct (inside k d Hd Id) as [L _]. assert (B (Datatypes.S K) <= B k).
      { clear - growing G. induction G; [lia|]. specialize (growing m). lia. }
      destruct (after_ok K ltac:(lia)) as (c & Ec & Hc). rewrite after_end in Ec. injection Ec as <-. specialize (Hc eq_refl). lia. }
    assert (MM : forall x, In x zs <-> a <= x /\ (forall c, lim = Some c -> x <= c) /\ (exists k d, selects r (v k) d /\ instant sc d x) /\ x < b).
    { intro x. rewrite M. unfold keep, past. split.
      - intros [(j & Hj & Hx) Kx]. apply Mem in Hx; [|lia]. split; [lia|]. split; [intros c Hc; rewrite Hc in Kx; lia|]. split; [|lia]. exists j. exact Hx.
      - intros (Ha & Hl & (k & d & Hd & Id) & Hb). pose proof Id as Id2. apply instant_iff in Id2 as (_ & _ & Ex2); [|exact NO].
        assert (k <= K)%nat by (apply (After k d); subst x; assumption). split; [exists k; split; [lia|]; apply Mem; [assumption|exists d; auto]|].
        destruct lim as [c|]; [specialize (Hl c eq_refl)|]; lia. }
    exists sel, full, zs. unfold compute. rewrite HB. cbn [negb]. split; [exact Ex|]. split; [exact F|]. split; [exact S|]. split.
    + intro x. rewrite MM. clear. tauto.
    + intros L x Ha Hl Hx. destruct (Full L) as (c & Hc & Lt). specialize (Hl c Hc). lia.
Qed.
End Core.
