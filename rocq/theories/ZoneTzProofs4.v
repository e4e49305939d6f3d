(** Proofs about the VTIMEZONE components written by the tz compiler: the changes of a line. *)
From Coq Require Import Lia ZifyBool ZifyNat Sorting.Permutation Sorting.Sorted.
From Verif Require Import PyBase PyProofs CalModel CalSpec DateTimeModel DateTimeSpec DateTimeSpec2 CalProofs DateTimeProofs DateTimeProofs2
  DateTimeProofs3 DateTimeProofs4 PeriodSpec PeriodProofs RecurModel RecurSpec RecurExpand RecurExpandSpec RecurSetSpec RecurTextProofs2 RecurSimpleProofs RecurByPartsSpec RecurByPartsProofs3
  RecurSetModel RecurUnionSpec VTimezoneModel VTimezoneSpec
  ZonalModel ZonalProofs ZonalProofs2 ZonalProofs4 ZoneTzModel ZoneTzSpec ZoneProofs ZoneProofs2 ZoneTzProofs ZoneTzProofs2 ZoneTzProofs3.
Ltac Zify.zify_post_hook ::= Z.div_mod_to_equations.

(** ** Keys *)
Lemma beq_refl a : beq a a = true.
Proof. apply beq_eq. reflexivity. Qed.
Lemma zrule_eqb_iff a b : zrule_eqb a b = true <-> a = b.
Proof.
  unfold zrule_eqb. rewrite !andb_true_iff, !beq_eq. destruct a, b; cbn. split; [intros ((((((((-> & ->) & ->) & ->) & ->) & ->) & ->) & ->) & ->); reflexivity|].
  intro E. injection E as -> -> -> -> -> -> -> -> ->. tauto.
Qed.
Lemma key_eqb_iff a b : key_eqb a b = true <-> a = b.
Proof.
  destruct a as [a|], b as [b|]; cbn; try (split; [discriminate|discriminate || reflexivity]); [|tauto]. rewrite zrule_eqb_iff. split; [intros ->; reflexivity|congruence].
Qed.
Lemma zonerule_eqb_iff a b : zonerule_eqb a b = true <-> a = b.
Proof.
  unfold zonerule_eqb. rewrite !andb_true_iff, !beq_eq. destruct a as [g r f u], b as [g' r' f' u']; cbn. destruct u as [u|], u' as [u'|]; rewrite ?beq_eq; split;
    try (intros (((-> & ->) & ->) & ->); reflexivity); try (intros (((-> & ->) & ->) & H); try discriminate H; reflexivity); intro E; try discriminate E; injection E; intros; subst; tauto.
Qed.

(** ** Groups *)
Definition entry_of (c : change) : entry := (chAt c, chFrom c, chTo c).
Definition has_key (k : option zrule) (c : change) : bool := key_eqb (chRule c) k.
Fixpoint keys (l : list change) : list (option zrule) :=
  match l with
  | [] => []
  | c :: l => chRule c :: filter (fun k => negb (key_eqb k (chRule c))) (keys l)
  end.
Definition groups_of (l : list change) : groups := map (fun k => (k, map entry_of (filter (has_key k) l))) (keys l).
Lemma keys_in l k : In k (keys l) <-> exists c, In c l /\ chRule c = k.
Proof.
  induction l as [|c l IH]; cbn [keys In]; [split; [intros []|intros (c & [] & _)]|]. rewrite filter_In, IH. split.
  - intros [<-|((d & H & E) & _)]; [exists c; auto|exists d; auto].
  - intros (d & [<-|H] & E); [left; exact E|]. destruct (key_eqb k (chRule c)) eqn:B; [left; symmetry; apply key_eqb_iff; exact B|right]. split; [eauto|reflexivity].
Qed.
Lemma keys_snoc l c : keys (l ++ [c]) = if existsb (fun k => key_eqb k (chRule c)) (keys l) then keys l else keys l ++ [chRule c].
Proof.
  induction l as [|d l IH]; [reflexivity|]. cbn [app keys existsb]. rewrite IH. destruct (key_eqb (chRule d) (chRule c)) eqn:B; cbn [orb].
  - apply key_eqb_iff in B. rewrite B. f_equal. destruct (existsb (fun k => key_eqb k (chRule c)) (keys l)) eqn:E; [reflexivity|].
    rewrite filter_app. cbn [filter]. rewrite (proj2 (key_eqb_iff _ _) eq_refl). cbn [negb]. apply app_nil_r.
  - assert (X : existsb (fun k => key_eqb k (chRule c)) (filter (fun k => negb (key_eqb k (chRule d))) (keys l)) = existsb (fun k => key_eqb k (chRule c)) (keys l)).
    { generalize (keys l) as ks. induction ks as [|k ks IHk]; [reflexivity|]. cbn [filter existsb]. destruct (key_eqb k (chRule d)) eqn:E; cbn [negb existsb]; [|rewrite IHk; reflexivity].
      apply key_eqb_iff in E. subst k. rewrite B. exact IHk. }
    rewrite X. destruct (existsb _ (keys l)); [reflexivity|]. rewrite filter_app. cbn [filter].
    replace (key_eqb (chRule c) (chRule d)) with false; [reflexivity|]. symmetry. destruct (key_eqb (chRule c) (chRule d)) eqn:E; [|reflexivity]. apply key_eqb_iff in E. rewrite E in B.
    rewrite (proj2 (key_eqb_iff _ _) eq_refl) in B. discriminate B.
Qed.
Lemma keys_nodup l : NoDup (keys l).
Proof.
  induction l as [|c l IH]; cbn [keys]; constructor; [|apply NoDup_filter; exact IH]. intro H. apply filter_In in H as [_ H]. rewrite (proj2 (key_eqb_iff _ _) eq_refl) in H. discriminate H.
Qed.
Lemma add_groups l c : add_entry (chRule c) (entry_of c) (groups_of l) = groups_of (l ++ [c]).
Proof.
  unfold groups_of. rewrite keys_snoc.
  assert (G : forall ks, NoDup ks -> (forall k, ~ In k (keys l) -> filter (has_key k) l = []) ->
     (forall k, In k ks -> In k (keys l)) ->
     add_entry (chRule c) (entry_of c) (map (fun k => (k, map entry_of (filter (has_key k) l))) ks) =
     map (fun k => (k, map entry_of (filter (has_key k) (l ++ [c])))) ks ++
       if existsb (fun k => key_eqb k (chRule c)) ks then [] else [(chRule c, [entry_of c])]).
  { intros ks N Z. induction N as [|k ks Hk N IH]; intro Sub; [reflexivity|]. cbn [map add_entry existsb]. rewrite filter_app, map_app. cbn [filter].
    change (has_key k c) with (key_eqb (chRule c) k). destruct (key_eqb k (chRule c)) eqn:B.
    - apply key_eqb_iff in B. subst k. rewrite (proj2 (key_eqb_iff _ _) eq_refl). cbn [orb map app]. rewrite app_nil_r. f_equal.
      apply map_ext_in. intros k Ik. f_equal. rewrite filter_app. cbn [filter]. change (has_key k c) with (key_eqb (chRule c) k). destruct (key_eqb (chRule c) k) eqn:E; [apply key_eqb_iff in E; subst k; contradiction|]. rewrite app_nil_r. reflexivity.
    - replace (key_eqb (chRule c) k) with false.
      2:{ symmetry. destruct (key_eqb (chRule c) k) eqn:E; [|reflexivity]. apply key_eqb_iff in E. subst k. rewrite (proj2 (key_eqb_iff _ _) eq_refl) in B. discriminate B. }
      cbn [orb map app]. rewrite app_nil_r. f_equal. apply IH. intros k' H. apply Sub. right. exact H. }
  assert (Z : forall k, ~ In k (keys l) -> filter (has_key k) l = []).
  { intros k N. destruct (filter (has_key k) l) as [|x t] eqn:E; [reflexivity|]. exfalso. apply N. apply keys_in. exists x.
    assert (H : In x (filter (has_key k) l)) by (rewrite E; left; reflexivity). apply filter_In in H as [H1 H2]. split; [exact H1|]. apply key_eqb_iff. exact H2. }
  rewrite (G (keys l) (keys_nodup l) Z ltac:(auto)). destruct (existsb _ (keys l)) eqn:E; [apply app_nil_r|]. rewrite map_app. f_equal. cbn [map]. f_equal. f_equal.
  rewrite filter_app, (Z (chRule c)).
  - cbn [filter app]. unfold has_key. rewrite (proj2 (key_eqb_iff _ _) eq_refl). reflexivity.
  - intro H. rewrite <- not_true_iff_false in E. apply E. apply existsb_exists. exists (chRule c). split; [exact H|]. apply key_eqb_iff. reflexivity.
Qed.

(** ** Runs *)
Definition same_as (c d : change) : bool := (chFrom c =? chFrom d) && (chTo c =? chTo d).
Lemma same_as_trans a b c : same_as a b = true -> same_as b c = same_as a c.
Proof. unfold same_as. lia. Qed.
Lemma cut_cons c l : cut (c :: l) = match l with [] => [[c]] | d :: _ => match cut l with run :: runs => if same_as c d then (c :: run) :: runs else [c] :: run :: runs | [] => [] end end.
Proof.
  cbn [cut]. destruct l as [|d l]; [reflexivity|]. cbn [cut]. destruct (cut l) as [|[|e run] runs]; [reflexivity|reflexivity|].
  destruct ((chFrom d =? chFrom e) && (chTo d =? chTo e)); reflexivity.
Qed.
Lemma cut_head d l : exists run runs, cut (d :: l) = (d :: run) :: runs.
Proof. rewrite cut_cons. destruct l as [|e l]; [eauto|]. destruct (cut (e :: l)) as [|run runs] eqn:E; [cbn [cut] in E; destruct (cut l) as [|[|? ?] ?]; try discriminate E; destruct (_ && _); discriminate E|].
  destruct (same_as d e); eauto. Qed.
Lemma cut_one s l : Forall (fun c => same_as s c = true) (s :: l) -> cut (s :: l) = [s :: l].
Proof.
  revert s. induction l as [|c l IH]; intros s F; [reflexivity|]. rewrite cut_cons. inversion F as [|? ? _ F']; subst. inversion F' as [|? ? Hc F2]; subst.
  rewrite (IH c). - rewrite Hc. reflexivity.
  - constructor; [unfold same_as; lia|]. eapply Forall_impl; [|exact F2]. intros x Hx. cbv beta in Hx. rewrite <- Hx. rewrite (same_as_trans s c x Hc). reflexivity.
Qed.
Lemma cut_split s l c r : Forall (fun d => same_as s d = true) (s :: l) -> same_as s c = false -> cut ((s :: l) ++ c :: r) = (s :: l) :: cut (c :: r).
Proof.
  revert s. induction l as [|d l IH]; intros s F N.
  - cbn [app]. rewrite cut_cons. destruct (cut_head c r) as (run & runs & E). rewrite E, N. reflexivity.
  - inversion F as [|? ? _ F']; subst. inversion F' as [|? ? Hd F2]; subst. change ((s :: d :: l) ++ c :: r) with (s :: ((d :: l) ++ c :: r)). rewrite cut_cons.
    cbn [app]. change (d :: l ++ c :: r) with ((d :: l) ++ c :: r). rewrite (IH d).
    + rewrite Hd. reflexivity.
    + constructor; [unfold same_as; lia|]. eapply Forall_impl; [|exact F2]. intros x Hx. cbv beta in Hx. rewrite <- Hx. rewrite (same_as_trans s d x Hd). reflexivity.
    + rewrite <- N. rewrite (same_as_trans s d c Hd). reflexivity.
Qed.
Lemma cut_concat l : List.concat (cut l) = l.
Proof.
  induction l as [|c l IH]; [reflexivity|]. rewrite cut_cons. destruct l as [|d l]; [reflexivity|]. destruct (cut_head d l) as (run & runs & E). rewrite E in *.
  destruct (same_as c d); cbn [List.concat app] in *; rewrite IH; reflexivity.
Qed.
Lemma cut_nonempty l run : In run (cut l) -> run <> [].
Proof.
  revert run. induction l as [|c l IH]; intros run H; [destruct H|]. rewrite cut_cons in H. destruct l as [|d l]; [destruct H as [<-|[]]; discriminate|].
  destruct (cut_head d l) as (r0 & runs & E). rewrite E in *. destruct (same_as c d); [destruct H as [<-|H]; [discriminate|apply IH; right; exact H]|].
  destruct H as [<-|H]; [discriminate|apply IH; exact H].
Qed.
Lemma cut_same l run : In run (cut l) -> forall c d, In c run -> In d run -> same_as c d = true.
Proof.
  revert run. induction l as [|c l IH]; intros run H; [destruct H|]. rewrite cut_cons in H. destruct l as [|d l].
  { destruct H as [<-|[]]. intros a b [<-|[]] [<-|[]]. unfold same_as; lia. }
  destruct (cut_head d l) as (r0 & runs & E). rewrite E in *. destruct (same_as c d) eqn:S.
  - destruct H as [<-|H]; [|apply IH; right; exact H]. specialize (IH _ (or_introl eq_refl)).
    assert (G : forall x, In x (d :: r0) -> same_as c x = true) by (intros x Hx; specialize (IH d x (or_introl eq_refl) Hx); unfold same_as in *; lia).
    intros a b [<-|Ha] [<-|Hb]; [unfold same_as; lia|apply G; exact Hb|specialize (G a Ha); unfold same_as in *; lia|apply IH; assumption].
  - destruct H as [<-|H]; [|apply IH; exact H]. intros a b [<-|[]] [<-|[]]. unfold same_as; lia.
Qed.
Lemma same_pair_entry c d : same_pair (entry_of c) (entry_of d) = same_as d c.
Proof. unfold same_pair, entry_of, same_as. cbn [fst snd]. lia. Qed.

Section WithTz.
Variable tzo : tzid -> Z -> Z -> Z -> Z -> Z -> Z -> bool -> bool -> Z.
Lemma runs_spec (P : list change -> sub -> Prop) r z total l : forall s mid,
  Forall (fun c => same_as s c = true) (s :: mid) ->
  (forall run c t, In run (cut ((s :: mid) ++ l)) -> run = c :: t -> forall n, n = Z.of_nat (List.length run) \/ (n = total) ->
     exists x, rule_vtimezone tzo r z (chAt c) (chAt (last run c)) (chFrom c) (chTo c) n = Ok x /\ P run x) ->
  exists xs, rule_runs tzo r z total (entry_of s) (entry_of (last (s :: mid) s)) (Z.of_nat (List.length (s :: mid))) (map entry_of l) = Ok xs /\ Forall2 P (cut ((s :: mid) ++ l)) xs.
Proof.
  induction l as [|e l IH]; intros s mid F H; cbn [map rule_runs].
  - rewrite app_nil_r in *. rewrite (cut_one s mid F) in *. destruct (H _ s mid (or_introl eq_refl) eq_refl total (or_intror eq_refl)) as (x & E & Px).
    unfold entry_of. cbn [fst snd]. rewrite E. cbn [rbind]. eexists. split; [reflexivity|]. repeat constructor. exact Px.
  - rewrite same_pair_entry. destruct (same_as s e) eqn:S.
    + specialize (IH s (mid ++ [e])). cbn [app] in IH, H |- *. rewrite <- app_assoc in IH. cbn [app] in IH.
      assert (L : last (s :: mid ++ [e]) s = e) by (change (s :: mid ++ [e]) with ((s :: mid) ++ [e]); apply last_last). rewrite L in IH.
      replace (Z.of_nat (List.length (s :: mid)) + 1) with (Z.of_nat (List.length (s :: mid ++ [e]))) by (cbn [List.length]; rewrite app_length; cbn [List.length]; lia).
      apply IH; [|exact H]. change (s :: mid ++ [e]) with ((s :: mid) ++ [e]). apply Forall_app. split; [exact F|]. constructor; [exact S|constructor].
    + rewrite (cut_split s mid e l F S) in *. destruct (H _ s mid (or_introl eq_refl) eq_refl _ (or_introl eq_refl)) as (x & E & Px).
      unfold entry_of at 1 2 3 4. cbn [fst snd]. rewrite E. cbn [rbind].
      destruct (IH e []) as (xs & Ex & Fx).
      * constructor; [unfold same_as; lia|constructor].
      * intros run c t Hr Ec n Hn. apply (H run c t); [right; exact Hr|exact Ec|exact Hn].
      * cbn [last List.length] in Ex. change (Z.of_nat 1) with 1 in Ex. rewrite Ex. cbn [rbind]. eexists. split; [reflexivity|]. constructor; assumption.
Qed.
End WithTz.
