(** Proofs about the offset lookup of time zone definitions: what the elements give. *)
From Coq Require Import Lia ZifyBool ZifyNat Sorting.Permutation Sorting.Sorted.
From Verif Require Import PyBase PyProofs CalModel CalSpec DateTimeModel DateTimeSpec DateTimeSpec2 DateTimeOps CalProofs DateTimeProofs DateTimeProofs2
  DateTimeProofs3 DateTimeProofs4 DateTimeOpsProofs PeriodModel PeriodSpec PeriodProofs RecurModel RecurTextProofs2 RecurExpand RecurExpandSpec RecurSetSpec RecurSortProofs
  RecurSimpleProofs RecurCacheProofs RecurMiscProofs RecurByPartsSpec RecurByPartsProofs3 RecurKeepProofs RecurSetModel RecurUnionSpec
  RecurAgainProofs RecurUnionProofs VTimezoneModel VTimezoneSpec VTimezoneProofs.
Ltac Zify.zify_post_hook ::= Z.div_mod_to_equations.

Section WithTz.
Variable tzo : tzid -> Z -> Z -> Z -> Z -> Z -> Z -> bool -> bool -> Z.
Variable order : list dt -> list dt.
Hypothesis Ord : permutes order.
Variable top : Z.
Hypothesis Top : top <= 2099.
Hypothesis CO : clock_ordered tzo local_time.

Definition at_local (d : dt) (x : Z) : Prop := instant local_time d x /\ coherent tzo d.

Notation fresh := (DateTimeProofs.fresh_posix tzo).
Lemma clock_le d e x y p q : at_local d x -> at_local e y -> 1901 <= mYear d <= 2100 -> 1901 <= mYear e <= 2100 -> fresh d = Ok p -> fresh e = Ok q -> p <= q -> x <= y.
Proof.
  intros [Id Cd] [Ie Ce] Yd Ye Pd Pe L. destruct (Z.le_gt_cases x y) as [|G]; [assumption|].
  assert (Q : forall d, snd (getPosixTime tzo (rebuilt d)) = fresh d).
  { intro z. rewrite getPosixTime_fresh by apply coh_rebuilt. apply visible_fresh. reflexivity. }
  assert (q < p); [|lia]. apply (CO e d y x q p); try assumption; try (rewrite Q; assumption); try lia.
  apply instant_civil in Id as (_ & _ & U & T & _). apply instant_civil in Ie as (_ & _ & U' & T' & _). split; congruence.
Qed.
Lemma in_order_times l xs : Forall2 at_local l xs -> in_order tzo l -> (forall d, In d l -> 1901 <= mYear d <= 2100) -> StronglySorted Z.le xs.
Proof.
  intros F S. revert xs F. induction S as [|d l S IH Fl]; intros xs F Y; inversion F as [|? x ? xs' A F']; subst; [constructor|].
  constructor; [apply IH; [exact F'|intros; apply Y; right; assumption]|]. apply Forall_forall. intros y Hy. apply In_nth_error in Hy as (i & Hi).
  destruct (forall2_nth (fun y e => at_local e y) xs' l) with (i := i) (r := y) as (e & He & Ae); [|exact Hi|].
  { clear - F'. induction F'; constructor; auto. }
  rewrite Forall_forall in Fl. destruct (Fl e (nth_error_In _ _ He)) as (p & q & P & Q & L).
  rewrite getPosixTime_fresh in P by apply A. rewrite getPosixTime_fresh in Q by apply Ae.
  apply (clock_le d e x y p q A Ae); auto; apply Y; [left; reflexivity|right; apply (nth_error_In _ _ He)].
Qed.

Definition same_elem (e0 e : elem) : Prop :=
  eTo e = eTo e0 /\ eFrom e = eFrom e0 /\ eName e = eName e0 /\ same_parts (eRec e0) (eRec e) /\
  visible (eStart e0) = visible (eStart e) /\ honest tzo (eStart e).
Definition gives_at (e0 : elem) (x : Z) : Prop := onset_of e0 x (eFrom e0) (eTo e0).
Definition items_ok (e0 : elem) (a : Z) (below : dt) (items : list dt) : Prop :=
  exists b xs, instant local_time below b /\ a <= b /\ Forall2 at_local items xs /\ StronglySorted Z.le xs /\ forall x, In x xs <-> gives_at e0 x /\ x < b.
Definition eok (e0 : elem) (a : Z) (e : elem) : Prop :=
  same_elem e0 e /\ set_known tzo local_time (eFrom e0) (eStart e0) (eRec e) /\
  match eBelow e, eItems e with
  | None, None => True
  | Some d, Some l => items_ok e0 a d l
  | _, _ => False
  end.

Section One.
Variables (e0 : elem) (a : Z).
Hypothesis HE : elem_ok tzo top e0.
Hypothesis Ia : instant local_time (eStart e0) a.

Lemma onset_iff x f o : onset_of e0 x f o <-> f = eFrom e0 /\ o = eTo e0 /\ gives_at e0 x.
Proof. unfold gives_at, onset_of. tauto. Qed.
Lemma gives_iff x : gives_at e0 x <-> a <= x /\ (x = a \/ (exists r c, In (r, c) (sRrules (eRec e0)) /\ rule_gives local_time (eFrom e0) (eStart e0) a r x) \/ date_gives local_time (sRdates (eRec e0)) x).
Proof.
  unfold gives_at, onset_of. split.
  - intros (_ & _ & a' & I & H). rewrite <- (instant_fun local_time _ _ _ ltac:(discriminate) I Ia). exact H.
  - intro H. split; [reflexivity|]. split; [reflexivity|]. exists a. split; [exact Ia|exact H].
Qed.
Lemma at_start e : eok e0 a e -> at_local (eStart e) a.
Proof.
  intros ((_ & _ & _ & _ & V & H) & _). split; [|apply honest_coherent, H]. apply (visible_instant (eStart e0)); [discriminate|exact V|exact Ia].
Qed.
Lemma rules_at s x : same_parts (eRec e0) s -> (exists r c, In (r, c) (sRrules (eRec e0)) /\ rule_gives local_time (eFrom e0) (eStart e0) a r x) <->
  (exists r c, In (r, c) (sRrules s) /\ rule_gives local_time (eFrom e0) (eStart e0) a r x).
Proof.
  intros (M & _). assert (H : forall r, (exists c, In (r, c) (sRrules (eRec e0))) <-> exists c, In (r, c) (sRrules s)).
  { intro r. assert (K : forall l : list (rule * rcache), (exists c, In (r, c) l) <-> In r (map fst l)).
    { intro l. rewrite in_map_iff. split; [intros (c & H); exists (r, c); auto|intros ([r' c] & <- & H); exists c; auto]. }
    rewrite !K, M. tauto. }
  split; intros (r & c & I & G); destruct (H r) as [H1 H2]; [destruct (H1 (ex_intro _ c I)) as (c' & I')|destruct (H2 (ex_intro _ c I)) as (c' & I')]; eauto.
Qed.

(** The call of expand that is made for an element. *)
Lemma elem_call e upto t : eok e0 a e -> instant local_time upto t -> (mMonth upto, mDay upto) = (1, 1) -> mYear upto <= top -> a < t ->
  set_call tzo local_time (eFrom e) (eRec e) (eStart e) (newPeriodEnd (eStart e) upto) a a t.
Proof.
  intros Ek Iu M Y L. pose proof (at_start e Ek) as [Is Cs]. destruct Ek as ((T & F & N & (P1 & P2 & P3 & P4 & P5 & P6) & V & H) & K & _).
  destruct HE as (_ & _ & _ & _ & X1 & X2 & X3 & X4 & _ & Ds & a' & Ia' & Rs).
  rewrite (instant_fun local_time _ _ _ ltac:(discriminate) Ia' Ia) in Rs. specialize (Rs upto t M Y Iu L).
  rewrite X1 in P2. cbn in P2. symmetry in P2. apply map_eq_nil in P2.
  split; [discriminate|]. split; [exact Is|]. split; [exact H|]. split; [exact Is|]. split; [exists upto; auto|].
  rewrite P2, <- P3, <- P4, <- P5, <- P6, X2, X3, X4, !app_nil_r. split; [|split; [|constructor]].
  - rewrite <- P1, F. eapply Forall_impl; [|exact Rs]. intros r Hr. eapply call_visible; [exact V|exact Hr].
  - eapply Forall_impl; [|exact Ds]. intros d (D1 & [D2 D3] & D4). split; [exact D1|]. split; [|exact D4].
    unfold visible in V. injection V as _ _ _ _ _ _ _ U' T'. split; congruence.
Qed.
Lemma known_at s s' off rules : visible s = visible s' -> all_known tzo local_time s off rules -> all_known tzo local_time s' off rules.
Proof.
  intros V K. eapply Forall_impl; [|exact K]. intros [r c] H Hc. destruct (H Hc) as (s0 & a0 & I0 & [Z1 Z2] & K0).
  exists s0, a0. split; [exact I0|]. split; [|exact K0]. unfold visible in V. injection V as _ _ _ _ _ _ _ U' T'. split; congruence.
Qed.

Lemma fill_spec e temp upto t : eok e0 a e -> instant local_time temp t -> instant local_time upto t -> (mMonth upto, mDay upto) = (1, 1) -> mYear upto <= top ->
  exists e' d l b, runs (fun n => fill tzo order n e temp upto) (e', Ok tt) /\ eok e0 a e' /\
    eBelow e' = Some d /\ eItems e' = Some l /\ instant local_time d b /\ t <= b.
Proof.
  intros Ek It Iu M Y. pose proof (at_start e Ek) as [Is Cs].
  set (below := match eBelow e with None => eStart e | Some d => d end). set (items := match eItems e with None => [] | Some l => l end).
  assert (B0 : items_ok e0 a below items).
  { destruct Ek as (_ & _ & H). unfold below, items. destruct (eBelow e) as [d|], (eItems e) as [l|]; try contradiction; [exact H|].
    exists a, []. split; [exact Is|]. split; [lia|]. split; [constructor|]. split; [constructor|]. intro x. rewrite gives_iff. cbn. split; [tauto|]. intros [[A _] B]. lia. }
  pose proof B0 as (b & xs & Ib & Lab & Fi & _ & Mi).
  destruct (instant_ops tzo local_time temp below t b It Ib) as (_ & _ & Gt & _).
  destruct (Z.ltb_spec b t) as [L|L].
  - replace (b - t <? 0) with true in Gt by lia.
    pose proof (elem_call e upto t Ek Iu M Y ltac:(lia)) as Call.
    destruct Ek as ((T & F & N & P & V & H) & [K1 K2] & _). rewrite F in Call.
    destruct (set_again tzo local_time (eFrom e0) (eRec e) (eStart e) (newPeriodEnd (eStart e) upto) a a t order Ord) as (N0 & HN); [split; eapply known_at; eauto|exact Call|].
    destruct (HN N0 (le_n _)) as (s' & its & limited & E & U & _ & Io & [K1' K2'] & P').
    assert (R : runs (fun n => rset_expand tzo order n (eRec e) (eStart e) (newPeriodEnd (eStart e) upto) (eFrom e) None) (s', (its, Ok limited))).
    { rewrite F. eapply runs_more; [|exact E]. intros n m y. apply rset_more. }
    set (start := match sRrules (eRec e) with [] => eStart e | _ => normalise (eStart e) end).
    assert (St : visible (eStart e) = visible start /\ honest tzo start).
    { unfold start. destruct (sRrules (eRec e)); [auto|]. split; [apply visible_norm, Is|apply honest_norm]. }
    destruct St as [Sv Sh].
    assert (PP : same_parts (eRec e0) s').
    { destruct P as (A1 & A2 & A3 & A4 & A5 & A6), P' as (B1 & B2 & B3 & B4 & B5 & B6). unfold same_parts. repeat split; congruence. }
    exists (mkElem start (eTo e) (eFrom e) (eName e) s' (Some temp) (Some its)), temp, its, t.
    split; [|split; [|split; [reflexivity|split; [reflexivity|split; [exact It|lia]]]]].
    + unfold fill. fold below items start. rewrite Gt.
      apply (runs_bind (fun n => rset_expand tzo order n (eRec e) (eStart e) (newPeriodEnd (eStart e) upto) (eFrom e) None)
        (fun z _ => match z with (s, (items0, Ok _)) => Some (mkElem start (eTo e) (eFrom e) (eName e) s (Some temp) (Some items0), Ok tt)
          | (s, (items0, Raise x)) => Some (mkElem start (eTo e) (eFrom e) (eName e) s (Some below) (Some items0), Raise x) end) _ _ R).
      apply runs_ret.
    + split; [|split].
      * split; [exact T|]. split; [exact F|]. split; [exact N|]. split; [exact PP|]. split; [|exact Sh]. cbn [eStart]. congruence.
      * cbn [eRec]. split; (eapply known_at; [symmetry; exact V|]; assumption).
      * cbn [eBelow eItems].
        assert (X : forall x, included local_time (eFrom e0) (eStart e) a a t (eRec e) x /\ ~ excluded local_time (eFrom e0) (eStart e) a a t (eRec e) x <-> gives_at e0 x /\ x < t).
        { intro x. destruct HE as (_ & _ & _ & _ & X1 & X2 & X3 & X4 & _).
           destruct P as (A1 & A2 & A3 & A4 & A5 & A6). rewrite X1 in A2. cbn in A2. symmetry in A2. apply map_eq_nil in A2.
           unfold included, excluded, gives, period_gives. rewrite A2, <- A3, <- A4, <- A5, <- A6, X2, X3, X4.
           rewrite gives_iff.
           assert (Q : (exists r c, In (r, c) (sRrules (eRec e)) /\ rule_gives local_time (eFrom e0) (eStart e) a r x) <->
                       (exists r c, In (r, c) (sRrules (eRec e0)) /\ rule_gives local_time (eFrom e0) (eStart e0) a r x)).
           { rewrite (rules_at (eRec e) x) by (repeat split; try assumption; congruence).
             split; intros (r & c & I & G); exists r, c; (split; [exact I|]); eapply gives_visible; try exact G; auto; discriminate. }
           rewrite Q. assert (Nd : ~ date_gives local_time [] x) by (intros (d & [] & _)).
           split.
           - intros [[[A B]|[[A B]|(p & e' & y & [] & _)]] _]; (split; [|lia]); (split; [lia|]); tauto.
           - intros [[A B] C]. split; [tauto|]. intros [[_ [(r & c & [] & _)|D]]|(p & e' & y & [] & _)]. exact (Nd D). }
        assert (Nx : forall x, ~ excluded local_time (eFrom e0) (eStart e) a a t (eRec e) x).
        { intro x. destruct HE as (_ & _ & _ & _ & X1 & X2 & X3 & X4 & _).
          destruct P as (A1 & A2 & A3 & A4 & A5 & A6). rewrite X1 in A2. cbn in A2. symmetry in A2. apply map_eq_nil in A2.
          unfold excluded, gives, period_gives. rewrite A2, <- A4, <- A6, X2, X4.
          intros [[_ [(r & c & [] & _)|(d & [] & _)]]|(p & e' & y & [] & _)]. }
        destruct U as (zs & Fz & _ & Mz). exists t, zs. split; [exact It|]. split; [lia|].
        assert (Fa : Forall2 at_local its zs).
        { clear - Fz. induction Fz as [|d x l xs (I & _ & C) Fz IH]; constructor; [split; assumption|assumption]. }
        split; [exact Fa|]. split; [|intro x; rewrite Mz; apply X].
        apply (in_order_times its zs Fa (Io Nx)). intros d Hd. apply In_nth_error in Hd as (i & Hi). destruct (forall2_nth _ _ _ Fa i d Hi) as (x & Hx & [Ix _]).
        apply nth_error_In in Hx. apply Mz, X in Hx as [Gx Lx]. apply gives_iff in Gx as [Gx _].
        destruct HE as (_ & _ & Y0 & _). apply instant_civil in Ix as (Vd & _ & _ & _ & ->).
        pose proof Ia as Ia2. apply instant_civil in Ia2 as (Va & _ & _ & _ & ->). pose proof Iu as Iu2. apply instant_civil in Iu2 as (Vu & _ & _ & _ & ->).
        pose proof (scale_year local_time (eStart e0) d ltac:(discriminate) Va Vd Gx).
        pose proof (scale_year local_time d upto ltac:(discriminate) Vd Vu (Z.lt_le_incl _ _ Lx)). lia.
  - replace (b - t <? 0) with false in Gt by lia.
    exists (mkElem (eStart e) (eTo e) (eFrom e) (eName e) (eRec e) (Some below) (Some items)), below, items, b.
    split; [|split; [|split; [reflexivity|split; [reflexivity|split; [exact Ib|lia]]]]].
    + unfold fill. fold below items. rewrite Gt. apply runs_ret.
    + destruct Ek as (A & B & _). split; [exact A|]. split; [exact B|]. exact B0.
Qed.

Lemma eok_init : eok e0 a e0.
Proof.
  destruct HE as (H1 & H2 & _ & H4 & X1 & _ & _ & _ & C & _). split; [|split].
  - repeat (split; [reflexivity|]). split; [repeat split|]. split; [reflexivity|exact H4].
  - apply new_known. rewrite X1, app_nil_r. exact C.
  - rewrite H1, H2. exact I.
Qed.

(** A row of the table with its time and its offsets. *)
Definition change : Set := (Z * Z * Z)%type.
Definition row_ok (r : onset_row) (c : change) : Prop :=
  let '(x, f, o) := c in at_local (oAt r) x /\ oFrom r = f /\ oTo r = o /\ oName r = None.

Lemma rows_within_spec e start stop w b items xs : same_elem e0 e -> instant local_time start w -> instant local_time stop b -> Forall2 at_local items xs ->
  exists rows cs, rows_within tzo e start stop false items = Ok rows /\ Forall2 row_ok rows cs /\
  forall x f o, In (x, f, o) cs <-> In x xs /\ w <= x < b /\ f = eFrom e0 /\ o = eTo e0.
Proof.
  intros (T & F & _) Iw Ib. induction 1 as [|d x l xs [I C] Fl (rows & cs & E & Fr & Mr)].
  - exists [], []. split; [reflexivity|]. split; [constructor|]. intros x f o. cbn. tauto.
  - cbn [rows_within]. destruct (instant_ops tzo local_time d start x w I Iw) as (_ & _ & _ & -> & _). cbn [rbind].
    destruct (instant_ops tzo local_time d stop x b I Ib) as (Lt & _).
    assert (Q : (if w - x <=? 0 then dt_lt tzo d stop else Ok false) = Ok ((w <=? x) && (x <? b))).
    { destruct (Z.leb_spec (w - x) 0); [rewrite Lt; f_equal; lia|f_equal; lia]. }
    rewrite Q. cbn [rbind]. rewrite E. cbn [rbind].
    destruct ((w <=? x) && (x <? b)) eqn:W.
    + exists (mkOnset d (eFrom e) (eTo e) None :: rows), ((x, eFrom e0, eTo e0) :: cs). split; [reflexivity|]. split.
      * constructor; [|exact Fr]. split; [split; [exact I|exact C]|]. auto.
      * intros y f o. cbn [In]. rewrite Mr. split.
        -- intros [Eq|H]; [injection Eq as <- <- <-|tauto]. split; [tauto|]. split; [lia|auto].
        -- intros ([->|H] & H1 & -> & ->); [auto|tauto].
    + exists rows, cs. split; [reflexivity|]. split; [exact Fr|]. intros y f o. cbn [In]. rewrite Mr. split; [tauto|].
      intros ([->|H] & H1 & H2); [lia|tauto].
Qed.

Lemma no_recurrence e x : eok e0 a e -> hasRecurrence (eRec e) = false -> gives_at e0 x -> x = a.
Proof.
  intros Ek HR H. apply gives_iff in H as [_ H].
  destruct Ek as ((_ & _ & _ & P & _) & _). rewrite (rules_at (eRec e) x P) in H. destruct P as (_ & _ & P3 & _). rewrite P3 in H.
  unfold hasRecurrence in HR. destruct (sRrules (eRec e)); [|discriminate HR]. destruct (sRdates (eRec e)); [|discriminate HR].
  destruct H as [H|[(r & c & [] & _)|(d & [] & _)]]. exact H.
Qed.

Lemma elem_expandAll_spec e stop b : eok e0 a e -> instant local_time stop b -> instant local_time (jan1 stop) b -> (mMonth stop, mDay stop) = (1, 1) -> mYear stop <= top ->
  exists e' rows cs, runs (fun n => elem_expandAll tzo order n e None stop false) (e', Ok rows) /\ eok e0 a e' /\ Forall2 row_ok rows cs /\
  (forall x f o, In (x, f, o) cs -> onset_of e0 x f o /\ x <= b) /\
  (forall x f o, onset_of e0 x f o -> x < b -> In (x, f, o) cs).
Proof.
  intros Ek Ib Ij M Y. pose proof (at_start e Ek) as [Is Cs]. unfold elem_expandAll.
  destruct (instant_ops tzo local_time (eStart e) stop a b Is Ib) as (_ & _ & -> & _).
  destruct (Z.ltb_spec (b - a) 0) as [L|L].
  - exists e, [], []. split; [apply runs_ret|]. split; [exact Ek|]. split; [constructor|]. split; [intros x f o []|].
    intros x f o H Lx. apply onset_iff in H as (_ & _ & H). apply gives_iff in H as [H _]. lia.
  - destruct (hasRecurrence (eRec e)) eqn:HR; cbn [negb].
    + destruct (fill_spec e (jan1 stop) stop b Ek Ij Ib M Y) as (e' & d & l & b' & R & Ek' & Eb & El & Id & Lb).
      pose proof (at_start e' Ek') as [Is' _]. pose proof Ek' as (Se & _ & It). rewrite Eb, El in It. destruct It as (b2 & xs & Id2 & _ & Fx & _ & Mx).
      rewrite (instant_fun local_time _ _ _ ltac:(discriminate) Id2 Id) in Mx.
      destruct (rows_within_spec e' (eStart e') stop a b l xs Se Is' Ib Fx) as (rows & cs & Er & Fr & Mr).
      exists e', rows, cs. split; [|split; [exact Ek'|split; [exact Fr|split]]].
      * refine (runs_bind (fun n => fill tzo order n e (jan1 stop) stop)
          (fun z _ => match z with (e, Raise x) => Some (e, Raise x) | (e, Ok _) => Some (e, rows_within tzo e (eStart e) stop false (match eItems e with None => [] | Some l => l end)) end) _ _ R _).
        rewrite El, Er. apply runs_ret.
      * intros x f o H. apply Mr in H as (H1 & H2 & -> & ->). apply Mx in H1 as [H1 _]. split; [apply onset_iff; auto|lia].
      * intros x f o H Lx. apply onset_iff in H as (-> & -> & H). apply Mr. rewrite Mx. split; [split; [exact H|lia]|].
        apply gives_iff in H as [H _]. auto.
    + exists e, [mkOnset (eStart e) (eFrom e) (eTo e) None], [(a, eFrom e0, eTo e0)].
      destruct (instant_ops tzo local_time (eStart e) (eStart e) a a Is Is) as (_ & _ & _ & -> & _). replace (a - a <=? 0) with true by lia. cbn [rbind].
      split; [apply runs_ret|]. split; [exact Ek|]. split; [|split].
      * destruct Ek as ((T & F & _) & _). constructor; [|constructor]. split; [split; [exact Is|exact Cs]|]. auto.
      * intros x f o [H|[]]. injection H as <- <- <-. split; [|lia]. apply onset_iff. rewrite gives_iff. repeat split; auto. lia.
      * intros x f o H _. apply onset_iff in H as (-> & -> & H). left. rewrite (no_recurrence e x Ek HR H). reflexivity.
Qed.

Lemma gives_start : gives_at e0 a.
Proof. apply gives_iff. split; [lia|auto]. Qed.
Lemma expandBelow_spec e below t : eok e0 a e -> instant local_time below t -> mYear below <= top ->
  exists e' d x, runs (fun n => expandBelow tzo order n e below) (e', Ok d) /\ eok e0 a e' /\ instant local_time d x /\ gives_at e0 x /\ (a <= t -> x <= t) /\
  forall y, gives_at e0 y -> y <= t -> y < civil (new_year (mYear below)) \/ y = a -> y <= x.
Proof.
  intros Ek Ib Y. pose proof (at_start e Ek) as [Is Cs]. unfold expandBelow.
  destruct (hasRecurrence (eRec e)) eqn:HR; cbn [negb].
  2: { exists e, (eStart e), a. split; [apply runs_ret|]. split; [exact Ek|]. split; [exact Is|]. split; [apply gives_start|]. split; [auto|].
       intros y G _ _. rewrite (no_recurrence e y Ek HR G). lia. }
  destruct (instant_ops tzo local_time (eStart e) below a t Is Ib) as (_ & _ & -> & _). destruct (Z.ltb_spec (t - a) 0) as [L|L].
  { exists e, (eStart e), a. split; [apply runs_ret|]. split; [exact Ek|]. split; [exact Is|]. split; [apply gives_start|]. split; [auto|].
    intros y G Ly _. apply gives_iff in G as [G _]. lia. }
  destruct (fill_spec e (jan1 below) (jan1 below) (civil (new_year (mYear below))) Ek (new_year_instant _) (new_year_instant _) eq_refl Y)
    as (e' & d & l & b & R & Ek' & Eb & El & Id & Lb).
  pose proof (at_start e' Ek') as [Is' _]. pose proof Ek' as (_ & _ & It). rewrite Eb, El in It. destruct It as (b2 & xs & Id2 & Lab & Fx & Sx & Mx).
  rewrite (instant_fun local_time _ _ _ ltac:(discriminate) Id2 Id) in Mx, Lab. clear Id2 b2.
  set (G := fun (z : elem * res unit) (_ : nat) => match z with (e, Raise x) => Some (e, Raise x) | (e, Ok _) =>
             let items := match eItems e with None => [] | Some l => l end in
             match items with
             | [] => Some (e, Ok (eStart e))
             | first :: _ =>
               match bisect_right tzo (fun d => d) items below with
               | Raise x => Some (e, Raise x)
               | Ok O => Some (e, Ok first)
               | Ok (S i) => Some (e, match nth_error items i with None => Raise IndexError | Some d => Ok d end)
               end
             end end).
  assert (HG : exists d x, runs (G (e', Ok tt)) (e', Ok d) /\ instant local_time d x /\ gives_at e0 x /\ (a <= t -> x <= t) /\
    forall y, gives_at e0 y -> y <= t -> y < civil (new_year (mYear below)) \/ y = a -> y <= x).
  { unfold G. rewrite El. cbv zeta. destruct l as [|first rest].
    - exists (eStart e'), a. split; [apply runs_ret|]. split; [exact Is'|]. split; [apply gives_start|]. split; [auto|].
      intros y Gy _ [Ly| ->]; [|lia]. inversion Fx; subst. destruct (proj2 (Mx y)). split; [exact Gy|lia].
    - assert (In_a : In a xs).
      { destruct xs as [|x xs']; [inversion Fx|]. destruct (proj1 (Mx x) (or_introl eq_refl)) as [Gx Lx]. apply gives_iff in Gx as [Gx _].
        apply Mx. split; [apply gives_start|lia]. }
      destruct (bisect_instants tzo (fun d => d) (first :: rest) below t xs) as (k & Ek2 & Lk & H1 & H2); [|exact Sx|].
      { clear - Fx Ib. induction Fx as [|d x l xs [I C] F IH]; constructor; [|exact IH]. destruct (instant_ops tzo local_time below d t x Ib I) as (-> & _). f_equal. lia. }
      rewrite Ek2. rewrite Forall_forall in H1, H2. destruct k as [|i].
      + specialize (H2 a). cbn [skipn] in H2. specialize (H2 In_a). lia.
      + destruct (nth_error (first :: rest) i) as [d0|] eqn:Ei; [|apply nth_error_None in Ei; lia].
        destruct (forall2_nth _ _ _ Fx i d0 Ei) as (x & Ex & [Ix _]). exists d0, x. split; [apply runs_ret|]. split; [exact Ix|].
        assert (Hn : forall k, (k < S i)%nat -> nth_error xs k = nth_error (firstn (S i) xs) k).
        { intros k Lk'. pose proof (nth_error_app1 (firstn (S i) xs) (skipn (S i) xs) (n := k)) as Q. rewrite firstn_skipn, firstn_length in Q.
          pose proof (f2_len _ _ _ Fx). apply Q. lia. }
        assert (Ix1 : In x (firstn (S i) xs)) by (apply (nth_error_In _ i); rewrite <- Hn by lia; exact Ex).
        split; [apply (proj1 (Mx x) (nth_error_In _ _ Ex))|]. split; [intros _; apply (H1 _ Ix1)|].
        intros y Gy Ly Hy. assert (Iy : In y xs).
        { apply Mx. split; [exact Gy|]. destruct Hy as [Hy| ->]; [lia|]. apply Mx in In_a. tauto. }
        rewrite <- (firstn_skipn (S i) xs) in Iy. apply in_app_or in Iy as [Iy|Iy]; [|specialize (H2 y Iy); lia].
        apply In_nth_error in Iy as (k & Hk). assert (Lk' : (k < S i)%nat).
        { match type of Hk with ?l = _ => assert (Q : l <> None) by (rewrite Hk; discriminate) end. apply nth_error_Some in Q. rewrite firstn_length in Q. lia. }
        rewrite <- Hn in Hk by exact Lk'. apply (sorted_nth xs Sx k i y x ltac:(lia) Hk Ex). }
  destruct HG as (d0 & x & HG & Ix & Gx & Lx & Mx'). exists e', d0, x. split; [|auto].
  exact (runs_bind (fun n => fill tzo order n e (jan1 below) (jan1 below)) G _ _ R HG).
Qed.
End One.

(** ** All elements *)
Definition eoks (es es' : list elem) : Prop := Forall2 (fun e0 e => exists a, instant local_time (eStart e0) a /\ eok e0 a e) es es'.

Lemma eoks_init es : Forall (elem_ok tzo top) es -> eoks es es.
Proof.
  induction 1 as [|e es H F IH]; constructor; [|exact IH]. pose proof H as (_ & _ & _ & _ & _ & _ & _ & _ & _ & _ & a & Ia & _). exists a. split; [exact Ia|].
  apply eok_init; assumption.
Qed.
Lemma expand_elems_spec es stop b : Forall (elem_ok tzo top) es -> instant local_time stop b -> instant local_time (jan1 stop) b -> (mMonth stop, mDay stop) = (1, 1) -> mYear stop <= top ->
  forall es', eoks es es' -> exists es2 rows cs, runs (fun n => expand_elems tzo order n es' None stop false) (es2, Ok rows) /\ eoks es es2 /\ Forall2 row_ok rows cs /\
  (forall x f o, In (x, f, o) cs -> onset es x f o /\ x <= b) /\
  (forall x f o, onset es x f o -> x < b -> In (x, f, o) cs).
Proof.
  intros HE Ib Ij M Y. induction HE as [|e0 es H0 HE IH]; intros es' K; inversion K as [|? e ? t (a & Ia & Ke) Kt]; subst.
  - exists [], [], []. split; [apply runs_ret|]. split; [constructor|]. split; [constructor|]. split; [intros x f o []|]. intros x f o (e & [] & _).
  - destruct (elem_expandAll_spec e0 a H0 Ia e stop b Ke Ib Ij M Y) as (e' & r1 & c1 & R1 & Ke' & F1 & A1 & B1).
    destruct (IH t Kt) as (t' & r2 & c2 & R2 & Kt' & F2 & A2 & B2).
    exists (e' :: t'), (r1 ++ r2), (c1 ++ c2). split; [|split; [constructor; eauto|split; [apply Forall2_app; assumption|split]]].
    + cbn [expand_elems].
      refine (runs_bind (fun n => elem_expandAll tzo order n e None stop false)
        (fun z n => match z with (e', Raise x) => Some (e' :: t, Raise x) | (e', Ok rows) =>
           match expand_elems tzo order n t None stop false with
           | None => None | Some (t', Raise x) => Some (e' :: t', Raise x) | Some (t', Ok rows') => Some (e' :: t', Ok (rows ++ rows')) end end) _ _ R1 _).
      refine (runs_bind (fun n => expand_elems tzo order n t None stop false)
        (fun z _ => match z with (t', Raise x) => Some (e' :: t', Raise x) | (t', Ok rows') => Some (e' :: t', Ok (r1 ++ rows')) end) _ _ R2 _).
      apply runs_ret.
    + intros x f o Hx. apply in_app_or in Hx as [Hx|Hx]; [apply A1 in Hx as [Hx L]|apply A2 in Hx as [(e1 & I1 & Hx) L]]; (split; [|exact L]).
      * exists e0. split; [left; reflexivity|exact Hx].
      * exists e1. split; [right; exact I1|exact Hx].
    + intros x f o (e1 & [<-|I1] & Hx) L; apply in_or_app; [left; auto|right; apply B2; [exists e1; auto|exact L]].
Qed.
(** What has been found among the elements before. *)
Definition found_ok (done : list elem) (t : Z) (f : option (elem * dt)) : Prop :=
  match f with
  | None => forall x g o, onset done x g o -> t < x
  | Some (e, d) => exists e0 a x, In e0 done /\ same_elem e0 e /\ instant local_time (eStart e0) a /\ instant local_time d x /\ gives_at e0 x /\ x <= t /\
      forall y g o, onset done y g o -> y <= t -> y <= x
  end.
Definition found_any (f : option (elem * dt)) : Prop := match f with None => True | Some (_, d) => exists x, instant local_time d x end.
Lemma find_elem_spec temp t : instant local_time temp t -> mYear temp <= top -> forall es, Forall (elem_ok tzo top) es ->
  forall es' done found, eoks es es' -> found_any found -> (quiet (done ++ es) temp t -> found_ok done t found) -> exists es2 f, runs (fun n => find_elem tzo order n es' temp found) (es2, Ok f) /\ eoks es es2 /\
    (quiet (done ++ es) temp t -> found_ok (done ++ es) t f).
Proof.
  intros It Y es HE. induction HE as [|e0 es H0 HE IH]; intros es' done found K Fa Fo; inversion K as [|? e ? l (a & Ia & Ke) Kt]; subst.
  - exists [], found. split; [apply runs_ret|]. split; [constructor|]. rewrite app_nil_r in *. exact Fo.
  - destruct (expandBelow_spec e0 a H0 Ia e temp t Ke It Y) as (e' & d & x & R & Ke' & Ix & Gx & Lx & Mx).
    assert (Mx' : quiet (done ++ e0 :: es) temp t -> forall y g o, onset_of e0 y g o -> y <= t -> y <= x).
    { intros Q y g o O Ly. destruct (Q e0 y g o (new_year (mYear temp)) _ ltac:(apply in_or_app; right; left; reflexivity) O Ly (new_year_instant _) eq_refl eq_refl) as [H|H].
      - apply onset_iff in O as (_ & _ & O). apply Mx; auto.
      - apply onset_iff in O as (_ & _ & O). apply Mx; auto. right. apply (instant_fun local_time _ _ _ ltac:(discriminate) H Ia). }
    assert (Sp : forall y g o, onset (done ++ [e0]) y g o <-> onset done y g o \/ onset_of e0 y g o).
    { intros y g o. split.
      - intros (e1 & I1 & O). apply in_app_or in I1 as [I1|[<-|[]]]; [left; exists e1; auto|auto].
      - intros [(e1 & I1 & O)|O]; [exists e1; split; [apply in_or_app; auto|exact O]|exists e0; split; [apply in_or_app; right; left; reflexivity|exact O]]. }
    assert (St : exists found', (do ge <- dt_ge tzo temp d;
             if ge then
               match found with
               | None => Ok (Some (e', d))
               | Some (_, df) => do gt <- dt_gt tzo d df; Ok (if gt then Some (e', d) else found)
               end
             else Ok found) = Ok found' /\ found_any found' /\ (quiet (done ++ e0 :: es) temp t -> found_ok (done ++ [e0]) t found')).
    { destruct (instant_ops tzo local_time temp d t x It Ix) as (_ & _ & _ & -> & _). cbn [rbind].
      destruct (Z.leb_spec (x - t) 0) as [L|L].
      - assert (New : quiet (done ++ e0 :: es) temp t -> (forall y g o, onset done y g o -> y <= t -> y <= x) -> found_ok (done ++ [e0]) t (Some (e', d))).
        { intros Q Old. exists e0, a, x. split; [apply in_or_app; right; left; reflexivity|]. split; [apply Ke'|]. split; [exact Ia|]. split; [exact Ix|]. split; [exact Gx|].
          split; [lia|]. intros y g o O Ly. apply Sp in O as [O|O]; [apply (Old y g o O Ly)|apply (Mx' Q y g o O Ly)]. }
        destruct found as [[ef df]|].
        + destruct Fa as (x1 & Ix1). destruct (instant_ops tzo local_time d df x x1 Ix Ix1) as (_ & _ & -> & _). cbn [rbind].
          destruct (Z.ltb_spec (x1 - x) 0) as [C|C]; eexists; (split; [reflexivity|]); (split; [eexists; eassumption|]); intro Q;
            destruct (Fo Q) as (e1 & a1 & x2 & I1 & S1 & Ia1 & Ix2 & G1 & L1 & M1); rewrite <- (instant_fun local_time _ _ _ ltac:(discriminate) Ix1 Ix2) in *.
          * apply (New Q). intros y g o O Ly. specialize (M1 y g o O Ly). lia.
          * exists e1, a1, x1. split; [apply in_or_app; auto|]. split; [exact S1|]. split; [exact Ia1|]. split; [exact Ix1|]. split; [exact G1|]. split; [exact L1|].
            intros y g o O Ly. apply Sp in O as [O|O]; [apply (M1 y g o O Ly)|specialize (Mx' Q y g o O Ly); lia].
        + eexists. split; [reflexivity|]. split; [exists x; exact Ix|]. intro Q. apply (New Q). intros y g o O Ly. specialize (Fo Q y g o O). lia.
      - exists found. split; [reflexivity|]. split; [exact Fa|]. intro Q. assert (No : forall y g o, onset_of e0 y g o -> t < y).
        { intros y g o O. apply onset_iff in O as (_ & _ & O). apply (gives_iff e0 a Ia) in O as [O _]. destruct (Z.le_gt_cases a t); [specialize (Lx H); lia|lia]. }
        specialize (Fo Q). destruct found as [[ef df]|].
        + destruct Fo as (e1 & a1 & x1 & I1 & S1 & Ia1 & Ix1 & G1 & L1 & M1).
          exists e1, a1, x1. split; [apply in_or_app; auto|]. split; [exact S1|]. split; [exact Ia1|]. split; [exact Ix1|]. split; [exact G1|]. split; [exact L1|].
          intros y g o O Ly. apply Sp in O as [O|O]; [apply (M1 y g o O Ly)|specialize (No y g o O); lia].
        + intros y g o O. apply Sp in O as [O|O]; [apply (Fo y g o O)|apply (No y g o O)]. }
    destruct St as (found' & Ef & Fa' & Fo').
    destruct (IH l (done ++ [e0]) found' Kt) as (l2 & f & R2 & K2 & F2); [exact Fa'|rewrite <- app_assoc; exact Fo'|].
    exists (e' :: l2), f. split; [|split; [constructor; eauto|rewrite <- app_assoc in F2; exact F2]]. cbn [find_elem].
    refine (runs_bind (fun n => expandBelow tzo order n e temp) (fun z n => match z with (e, Raise x) => Some (e :: l, Raise x) | (e, Ok d) =>
      match (do ge <- dt_ge tzo temp d;
             if ge then
               match found with
               | None => Ok (Some (e, d))
               | Some (_, df) => do gt <- dt_gt tzo d df; Ok (if gt then Some (e, d) else found)
               end
             else Ok found) with
      | Raise x => Some (e :: l, Raise x)
      | Ok found =>
        match find_elem tzo order n l temp found with
        | None => None
        | Some (t, r) => Some (e :: t, r)
        end
      end end) _ _ R _).
    rewrite Ef. exact (runs_bind (fun n => find_elem tzo order n l temp found') (fun z _ => match z with (t, r) => Some (e' :: t, r) end) _ _ R2 (runs_ret _)).
Qed.
End WithTz.
