(** Proofs about the VTIMEZONE components written by the tz compiler: what is announced. *)
From Coq Require Import Lia ZifyBool ZifyNat Sorting.Permutation Sorting.Sorted.
From Verif Require Import PyBase PyProofs CalModel CalSpec DateTimeModel DateTimeSpec DateTimeSpec2 CalProofs DateTimeProofs DateTimeProofs2
  DateTimeProofs3 DateTimeProofs4 PeriodSpec PeriodProofs RecurModel RecurSpec RecurExpand RecurExpandSpec RecurSetSpec RecurTextProofs2 RecurSimpleProofs RecurByPartsSpec RecurByPartsProofs3
  RecurSetModel RecurUnionSpec VTimezoneModel VTimezoneSpec
  ZonalModel ZonalProofs ZonalProofs2 ZonalProofs4 ZoneTzModel ZoneTzSpec ZoneProofs ZoneProofs2 ZoneTzProofs ZoneTzProofs2 ZoneTzProofs3 ZoneTzProofs4 ZoneTzProofs5 ZoneTzProofs6.
Ltac Zify.zify_post_hook ::= Z.div_mod_to_equations.

(** ** Order *)
Definition T (c : change) : Z := civil (chAt c).
Definition timely (cs : list change) : Prop := Forall (fun c => instant local_time (chAt c) (T c)) cs /\ StronglySorted (fun c d => T c < T d) cs.
Lemma instant_T d x : instant local_time d x -> x = civil d.
Proof. intro I. apply instant_civil in I. tauto. Qed.
Lemma order_timely cs : in_order cs -> timely cs.
Proof.
  intros (xs & F & S). assert (E : xs = map T cs). { clear S. induction F as [|c x cs xs I F IH]; [reflexivity|]. cbn [map]. unfold T at 1. rewrite <- (instant_T _ _ I), IH. reflexivity. }
  split.
  - clear S E. induction F as [|c x cs xs I F IH]; constructor; [|exact IH]. unfold T. rewrite <- (instant_T _ _ I). exact I.
  - subst xs. clear F. induction cs as [|c cs IH]; constructor; inversion S as [|? ? S' F]; subst; [apply IH; exact S'|]. rewrite Forall_map in F. exact F.
Qed.
Lemma sorted_app {A} (R : A -> A -> Prop) a b : StronglySorted R (a ++ b) -> StronglySorted R a /\ StronglySorted R b /\ forall x y, In x a -> In y b -> R x y.
Proof.
  induction a as [|c a IH]; cbn [app]; intro S; [split; [constructor|]; split; [exact S|intros x y []]|]. inversion S as [|? ? S' F]; subst. destruct (IH S') as (Sa & Sb & H).
  rewrite Forall_forall in F. split; [constructor; [exact Sa|apply Forall_forall; intros x Hx; apply F, in_or_app; auto]|]. split; [exact Sb|].
  intros x y [<-|Hx] Hy; [apply F, in_or_app; auto|auto].
Qed.
Lemma sorted_filter {A} (R : A -> A -> Prop) p l : StronglySorted R l -> StronglySorted R (filter p l).
Proof.
  intro S. induction S as [|c l S IH F]; [constructor|]. cbn [filter]. destruct (p c); [|exact IH]. constructor; [exact IH|]. apply Forall_forall. intros x Hx. apply filter_In in Hx as [Hx _].
  rewrite Forall_forall in F. auto.
Qed.
Lemma before cs c d : StronglySorted (fun c d => T c < T d) cs -> In c cs -> In d cs -> T c < T d ->
  exists a b e, cs = a ++ c :: b ++ d :: e /\ forall x, In x cs -> T x < T c -> In x a.
Proof.
  intros S Hc Hd L. apply in_split in Hc as (a & r & ->). destruct (sorted_app _ a (c :: r) S) as (Sa & Sr & H). inversion Sr as [|? ? Sr' Fr]; subst.
  rewrite Forall_forall in Fr. apply in_app_or in Hd as [Hd|[<-|Hd]]; [specialize (H d c Hd (or_introl eq_refl)); cbv beta in H; lia|lia|].
  apply in_split in Hd as (b & e & ->). exists a, b, e. split; [reflexivity|]. intros x Hx Lx. apply in_app_or in Hx as [Hx|[<-|Hx]]; [exact Hx|lia|].
  specialize (Fr x Hx). cbv beta in Fr. lia.
Qed.
Lemma fop_app {A} (R : A -> A -> Prop) a b : ForallOrdPairs R a -> ForallOrdPairs R b -> (forall x y, In x a -> In y b -> R x y) -> ForallOrdPairs R (a ++ b).
Proof.
  intros Fa Fb H. induction Fa as [|x a Fx Fa IH]; [exact Fb|]. cbn [app]. constructor; [|apply IH; intros u v Hu Hv; apply H; [right; exact Hu|exact Hv]].
  apply Forall_app. split; [exact Fx|]. apply Forall_forall. intros y Hy. apply H; [left; reflexivity|exact Hy].
Qed.
Lemma fop_flat {A B} (R : B -> B -> Prop) (Q : A -> A -> Prop) (g : A -> list B) l : ForallOrdPairs Q l -> (forall x, In x l -> ForallOrdPairs R (g x)) ->
  (forall x y u v, In x l -> In y l -> Q x y -> In u (g x) -> In v (g y) -> R u v) -> ForallOrdPairs R (flat_map g l).
Proof.
  intros F G H. induction F as [|x l Fx F IH]; [constructor|]. cbn [flat_map]. apply fop_app.
  - apply G. left; reflexivity.
  - apply IH; [intros y Hy; apply G; right; exact Hy|]. intros y z u v Hy Hz. apply H; right; assumption.
  - intros u v Hu Hv. apply in_flat_map in Hv as (y & Hy & Hv). rewrite Forall_forall in Fx. apply (H x y); auto; [left; reflexivity|right; exact Hy].
Qed.
Lemma keys_order b : StronglySorted (fun c d => T c < T d) b ->
  ForallOrdPairs (fun k k' => k <> k' /\ forall d, In d b -> chRule d = k' -> exists x, In x b /\ chRule x = k /\ T x < T d) (keys b).
Proof.
  intro S. induction S as [|c l S IH F]; [constructor|]. rewrite Forall_forall in F. cbn [keys]. constructor.
  - apply Forall_forall. intros k Hk. apply filter_In in Hk as [Hk N]. assert (N' : chRule c <> k) by (intros <-; rewrite (proj2 (key_eqb_iff _ _) eq_refl) in N; discriminate N).
    split; [exact N'|]. intros d [<-|Hd] Ed; [contradiction|]. exists c. split; [left; reflexivity|]. split; [reflexivity|apply F; exact Hd].
  - assert (G : forall ks, ForallOrdPairs (fun k k' => k <> k' /\ forall d, In d l -> chRule d = k' -> exists x, In x l /\ chRule x = k /\ T x < T d) ks ->
      ForallOrdPairs (fun k k' => k <> k' /\ forall d, In d (c :: l) -> chRule d = k' -> exists x, In x (c :: l) /\ chRule x = k /\ T x < T d) (filter (fun k => negb (key_eqb k (chRule c))) ks)).
    { intros ks H. induction H as [|k ks Hk H IHk]; [constructor|]. cbn [filter]. destruct (negb (key_eqb k (chRule c))) eqn:N; [|exact IHk]. constructor; [|exact IHk].
      apply Forall_forall. intros k' Hk'. apply filter_In in Hk' as [Hk' N']. rewrite Forall_forall in Hk. destruct (Hk k' Hk') as [Ne X]. split; [exact Ne|].
      intros d [<-|Hd] Ed; [subst k'; rewrite (proj2 (key_eqb_iff _ _) eq_refl) in N'; discriminate N'|]. destruct (X d Hd Ed) as (x & Hx & Ex & Lx). exists x. split; [right; exact Hx|auto]. }
    apply G. exact IH.
Qed.
Lemma cut_order l : StronglySorted (fun c d => T c < T d) l -> ForallOrdPairs (fun r r' => forall c d, In c r -> In d r' -> T c < T d) (cut l).
Proof.
  intro S. rewrite <- (cut_concat l) in S. induction (cut l) as [|r rs IH]; [constructor|]. cbn [List.concat] in S. apply sorted_app in S as (_ & S & H). constructor; [|apply IH; exact S].
  apply Forall_forall. intros r' Hr c d Hc Hd. apply H; [exact Hc|]. apply in_concat. eauto.
Qed.

(** ** Blocks *)
Lemma block_place cs bs z b : blocked cs bs -> In (z, b) bs -> exists a e, cs = a ++ b ++ e /\ b <> [] /\ Forall (fun c => chZone c = z) b /\
  (a = [] \/ exists a' c, a = a' ++ [c] /\ chZone c <> z) /\ match e with c :: _ => chZone c <> z | [] => True end.
Proof.
  intro B. induction B as [|z0 b0 rest bs N F H B IH]; [intros []|]. intros [E|Hin].
  - injection E as -> ->. exists [], rest. cbn [app]. split; [reflexivity|]. split; [exact N|]. split; [exact F|]. split; [left; reflexivity|exact H].
  - destruct (IH Hin) as (a & e & -> & Nb & Fb & Ha & He). exists (b0 ++ a), e. split; [rewrite <- app_assoc; reflexivity|]. split; [exact Nb|]. split; [exact Fb|]. split; [|exact He].
    right. destruct Ha as [->|(a' & c & -> & Nc)]; [|exists (b0 ++ a'), c; split; [apply app_assoc|exact Nc]].
    cbn [app] in *. rewrite app_nil_r. destruct (exists_last N) as (b' & c & ->). exists b', c. split; [reflexivity|]. apply Forall_app in F as [_ F]. apply Forall_inv in F. cbv beta in F.
    destruct b as [|d b]; [congruence|]. apply Forall_inv in Fb. cbv beta in Fb. cbn [app] in H. congruence.
Qed.
Lemma block_only cs bs z b : blocked cs bs -> together cs -> In (z, b) bs -> exists a e, cs = a ++ b ++ e /\ b <> [] /\ Forall (fun c => chZone c = z) b /\
  Forall (fun c => chZone c <> z) a /\ Forall (fun c => chZone c <> z) e.
Proof.
  intros B Tg H. destruct (block_place cs bs z b B H) as (a & e & E & N & F & Ha & He). exists a, e. split; [exact E|]. split; [exact N|]. split; [exact F|].
  destruct b as [|c0 b]; [congruence|]. pose proof (Forall_inv F) as E0. cbv beta in E0. split.
  - apply Forall_forall. intros c Hc Ec. destruct Ha as [->|(a' & d & -> & Nd)]; [destruct Hc|]. apply in_app_or in Hc as [Hc|[<-|[]]]; [|contradiction].
    apply in_split in Hc as (a1 & a2 & ->). assert (E' : cs = a1 ++ c :: (a2 ++ [d]) ++ c0 :: (b ++ e)) by (rewrite E; repeat (rewrite <- app_assoc; cbn [app]); reflexivity).
    specialize (Tg _ _ _ _ _ E' ltac:(congruence)). apply Forall_app in Tg as [_ Tg]. apply Forall_inv in Tg. cbv beta in Tg. congruence.
  - apply Forall_forall. intros c Hc Ec. destruct e as [|d e]; [destruct Hc|]. destruct Hc as [<-|Hc]; [contradiction|]. apply in_split in Hc as (e1 & e2 & ->).
    assert (E' : cs = a ++ c0 :: (b ++ d :: e1) ++ c :: e2) by (rewrite E; repeat (rewrite <- app_assoc; cbn [app]); reflexivity).
    specialize (Tg _ _ _ _ _ E' ltac:(congruence)).
    apply Forall_app in Tg as [_ Tg]. apply Forall_inv in Tg. cbv beta in Tg. congruence.
Qed.
Lemma filter_none {A} (p : A -> bool) l : Forall (fun x => p x = false) l -> filter p l = [].
Proof. intro F. induction F as [|x l H F IH]; [reflexivity|]. cbn [filter]. rewrite H. exact IH. Qed.
Lemma block_changes cs bs z b k : blocked cs bs -> together cs -> In (z, b) bs -> changes_of z k cs = filter (has_key k) b.
Proof.
  intros B Tg H. destruct (block_only cs bs z b B Tg H) as (a & e & -> & _ & F & Fa & Fe). unfold changes_of. rewrite !filter_app.
  rewrite (filter_none _ a), (filter_none _ e).
  - rewrite app_nil_r. cbn [app]. apply filter_ext_in. intros c Hc. rewrite Forall_forall in F. destruct (line_dec (chZone c) z) as [_|N]; [|exfalso; apply N, F, Hc].
    unfold has_key. destruct (key_dec (chRule c) k) as [->|N]; [symmetry; apply key_eqb_iff; reflexivity|]. destruct (key_eqb (chRule c) k) eqn:E; [apply key_eqb_iff in E; contradiction|reflexivity].
  - eapply Forall_impl; [|exact Fe]. intros c N. cbv beta in N. destruct (line_dec (chZone c) z); [contradiction|reflexivity].
  - eapply Forall_impl; [|exact Fa]. intros c N. cbv beta in N. destruct (line_dec (chZone c) z); [contradiction|reflexivity].
Qed.
Lemma blocks_concat cs bs : blocked cs bs -> cs = flat_map snd bs.
Proof. intro B. induction B as [|z b rest bs _ _ _ _ IH]; [reflexivity|]. cbn [flat_map snd]. rewrite <- IH. reflexivity. Qed.
Lemma blocks_in cs bs c : blocked cs bs -> (In c cs <-> exists run, In run (flat_map (fun p => block_runs (snd p)) bs) /\ In c run).
Proof.
  intro B. rewrite (blocks_concat cs bs B). rewrite in_flat_map. split.
  - intros ((z & b) & Hb & Hc). cbn [snd] in Hc. apply block_in in Hc as (run & Hr & Hc). exists run. split; [|exact Hc]. apply in_flat_map. exists (z, b). auto.
  - intros (run & Hr & Hc). apply in_flat_map in Hr as ((z & b) & Hb & Hr). exists (z, b). split; [exact Hb|]. apply block_in. eauto.
Qed.
Lemma line_oks maxYear cs bs : blocked cs bs -> in_order cs -> together cs -> regular maxYear cs -> Forall (fun c => exists day name, called c day name) cs ->
  forall z b, In (z, b) bs -> line_ok maxYear z b.
Proof.
  intros B O Tg R C z b H. pose proof (fun k => block_changes cs bs z b k B Tg H) as E. destruct (block_only cs bs z b B Tg H) as (a & e & Ecs & _ & F & _).
  destruct (order_timely cs O) as [Ti _]. rewrite Forall_forall in F, Ti, C. split; [|split].
  - intros c Hc. assert (Hcs : In c cs) by (rewrite Ecs; apply in_or_app; right; apply in_or_app; left; exact Hc). split; [apply F; exact Hc|]. split; [apply C; exact Hcs|]. eexists. apply Ti. exact Hcs.
  - intros r run. rewrite <- E. apply R.
  - rewrite <- E. apply R.
Qed.
(** The single changes that can be put in one component come in order. *)
Definition follows (r r' : list change) : Prop :=
  forall c d day name, r = [c] -> r' = [d] -> chFrom c = chFrom d -> chTo c = chTo d -> called c day name -> called d day name -> T c <= T d.
Lemma runs_order cs bs : blocked cs bs -> in_order cs -> together cs -> in_turn cs -> ForallOrdPairs follows (flat_map (fun p => block_runs (snd p)) bs).
Proof.
  intros B O Tg It. destruct (order_timely cs O) as [_ S]. pose proof (blocks_concat cs bs B) as Ecs.
  apply (fop_flat follows (fun p q => forall c d, In c (snd p) -> In d (snd q) -> T c < T d)).
  - rewrite Ecs in S. clear -S. induction bs as [|p bs IH]; [constructor|]. cbn [flat_map] in S. apply sorted_app in S as (_ & S & H). constructor; [|apply IH; exact S].
    apply Forall_forall. intros q Hq c d Hc Hd. apply H; [exact Hc|]. apply in_flat_map. eauto.
  - intros (z & b) H. cbn [snd]. pose proof (fun k => block_changes cs bs z b k B Tg H) as Ek. destruct (block_only cs bs z b B Tg H) as (a & e & E & _ & F & _). rewrite Forall_forall in F.
    assert (Hb : forall c, In c b -> In c cs) by (intros c Hc; rewrite E; apply in_or_app; right; apply in_or_app; left; exact Hc).
    assert (Sb : StronglySorted (fun c d => T c < T d) b) by (rewrite E in S; apply sorted_app in S as (_ & S & _); apply sorted_app in S; apply S).
    unfold block_runs. eapply fop_flat; [apply (keys_order b Sb)| |].
    + intros k _. pose proof (cut_order _ (sorted_filter _ (has_key k) b Sb)) as Oc. clear -Oc. induction Oc as [|r rs Fr Oc IH]; constructor; [|exact IH].
      eapply Forall_impl; [|exact Fr]. intros r' H c d day name -> -> _ _ _ _. apply Z.lt_le_incl, H; left; reflexivity.
    + intros k k' r r' Hk Hk' (Ne & Q) Hr Hr' c d day name Er Er' Ef Et Cc Cd. subst r r'.
      assert (Mc : In c b /\ chRule c = k) by (pose proof (in_cut_in _ _ c Hr (or_introl eq_refl)) as M; apply filter_In in M as [M1 M2]; split; [exact M1|apply key_eqb_iff; exact M2]).
      assert (Md : In d b /\ chRule d = k') by (pose proof (in_cut_in _ _ d Hr' (or_introl eq_refl)) as M; apply filter_In in M as [M1 M2]; split; [exact M1|apply key_eqb_iff; exact M2]).
      destruct Mc as [Mc Kc], Md as [Md Kd]. destruct (Z.le_gt_cases (T c) (T d)) as [|G]; [assumption|exfalso].
      destruct (before cs d c S (Hb d Md) (Hb c Mc) ltac:(lia)) as (a0 & b0 & e0 & E0 & Ha). destruct (Q d Md Kd) as (x & Mx & Kx & Lx).
      apply Ne. rewrite <- Kc, <- Kd. symmetry. apply (It a0 d b0 c e0 day name E0) with (x := x); auto.
      * rewrite (F d Md), (F c Mc). reflexivity.
      * unfold alone. rewrite (F d Md), Kd, Ek. exact Hr'.
      * unfold alone. rewrite (F c Mc), Kc, Ek. exact Hr.
      * rewrite (F x Mx), (F c Mc). reflexivity.
      * congruence.
  - intros p q r r' Hp Hq H Hr Hr' c d day name -> -> _ _ _ _. apply Z.lt_le_incl, H; apply block_in; eexists; (split; [eassumption|left; reflexivity]).
Qed.
