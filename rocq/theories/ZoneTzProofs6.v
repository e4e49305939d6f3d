(** Proofs about the VTIMEZONE components written by the tz compiler: all lines. *)
From Coq Require Import Lia ZifyBool ZifyNat Sorting.Permutation Sorting.Sorted.
From Verif Require Import PyBase PyProofs CalModel CalSpec DateTimeModel DateTimeSpec DateTimeSpec2 CalProofs DateTimeProofs DateTimeProofs2
  DateTimeProofs3 DateTimeProofs4 PeriodSpec PeriodProofs RecurModel RecurSpec RecurExpand RecurExpandSpec RecurSetSpec RecurTextProofs2 RecurSimpleProofs RecurByPartsSpec RecurByPartsProofs3
  RecurSetModel RecurUnionSpec VTimezoneModel VTimezoneSpec
  ZonalModel ZonalProofs ZonalProofs2 ZonalProofs4 ZoneTzModel ZoneTzSpec ZoneProofs ZoneProofs2 ZoneTzProofs ZoneTzProofs2 ZoneTzProofs3 ZoneTzProofs4 ZoneTzProofs5.
Ltac Zify.zify_post_hook ::= Z.div_mod_to_equations.

(** ** The changes of one line *)
Definition block_runs (b : list change) : list (list change) := flat_map (fun k => cut (filter (has_key k) b)) (keys b).
Lemma block_in b c : (exists run, In run (block_runs b) /\ In c run) <-> In c b.
Proof.
  unfold block_runs. split.
  - intros (run & H & Hc). apply in_flat_map in H as (k & _ & H). assert (G : In c (List.concat (cut (filter (has_key k) b)))) by (apply in_concat; eauto).
    rewrite cut_concat in G. apply filter_In in G. apply G.
  - intro H. assert (G : In c (List.concat (cut (filter (has_key (chRule c)) b)))) by (rewrite cut_concat; apply filter_In; split; [exact H|apply key_eqb_iff; reflexivity]).
    apply in_concat in G as (run & G & Hc). exists run. split; [|exact Hc]. apply in_flat_map. exists (chRule c). split; [apply keys_in; eauto|exact G].
Qed.
(** One line at a time: what is needed of its changes. *)
Definition line_ok (maxYear : Z) (z : zonerule) (b : list change) : Prop :=
  (forall c, In c b -> chZone c = z /\ (exists day name, called c day name) /\ exists x, instant local_time (chAt c) x) /\
  (forall r run, In run (cut (filter (has_key (Some r)) b)) -> (exists c, run = [c]) \/ every_year maxYear z r run) /\
  (List.length (filter (has_key None) b) <= 1)%nat.
Lemma in_cut_in l run c : In run (cut l) -> In c run -> In c l.
Proof. intros H Hc. rewrite <- (cut_concat l). apply in_concat. eauto. Qed.
Lemma cut_length l run : In run (cut l) -> (List.length run <= List.length l)%nat.
Proof.
  intro H. rewrite <- (cut_concat l). apply in_split in H as (a & b & ->). rewrite concat_app. cbn [List.concat]. rewrite !app_length. lia.
Qed.
Section WithTz.
Variable tzo : tzid -> Z -> Z -> Z -> Z -> Z -> Z -> bool -> bool -> Z.
Lemma group_spec maxYear maxN z b k : 1901 <= maxYear -> new_year maxYear maxN -> line_ok maxYear z b -> In k (keys b) ->
  exists xs, group_subs tzo z (k, map entry_of (filter (has_key k) b)) = Ok xs /\ Forall2 (written maxN) (cut (filter (has_key k) b)) xs.
Proof.
  intros HM NY (A & R & N) Hk. apply keys_in in Hk as (c0 & H0 & E0).
  assert (H0' : In c0 (filter (has_key k) b)) by (apply filter_In; split; [exact H0|apply key_eqb_iff; exact E0]).
  assert (Mem : forall c, In c (filter (has_key k) b) -> In c b /\ chRule c = k).
  { intros c H. apply filter_In in H as [H1 H2]. split; [exact H1|]. apply key_eqb_iff. exact H2. }
  destruct k as [r|].
  - specialize (R r). set (l := filter (has_key (Some r)) b) in *. destruct l as [|e l'] eqn:El; [destruct H0'|]. cbn [group_subs map].
    pose proof (runs_spec tzo (written maxN) r z (Z.of_nat (List.length (e :: l'))) l' e []) as G. cbn [app last List.length] in G.
    change (Z.of_nat 1) with 1 in G. cbn [List.length]. rewrite map_length. apply G.
    + constructor; [unfold same_as; lia|constructor].
    + intros run c t Hr Er n Hn. apply (run_component tzo maxYear maxN r z run c t n HM NY Er).
      * intros d Hd. pose proof (in_cut_in _ _ _ Hr Hd) as Hi. destruct (Mem d Hi) as [Hb Hk]. split; [exact Hk|]. apply A. exact Hb.
      * apply (cut_same _ _ Hr).
      * intros d Hd. apply A. apply Mem. exact (in_cut_in _ _ _ Hr Hd).
      * intros d Hd. apply A. apply Mem. exact (in_cut_in _ _ _ Hr Hd).
      * apply R. exact Hr.
      * pose proof (cut_length _ _ Hr) as L. cbn [List.length] in L. lia.
  - set (l := filter (has_key None) b) in *. destruct l as [|e [|e' l']] eqn:El; [destruct H0'| |cbn [List.length] in N; lia]. cbn [group_subs map].
    destruct (Mem e (or_introl eq_refl)) as [Hb Hk]. destruct (A e Hb) as (Ez & (day & name & C) & (x & I)).
    unfold entry_of. cbn [fst snd]. rewrite (start_component z e x day name I Hk Ez C). cbn [rbind]. eexists. split; [reflexivity|].
    constructor; [|constructor]. eapply written_single; eauto.
Qed.
Lemma generate_spec maxYear maxN z b : 1901 <= maxYear -> new_year maxYear maxN -> line_ok maxYear z b ->
  exists xs, generate tzo z (groups_of b) = Ok xs /\ Forall2 (written maxN) (block_runs b) xs.
Proof.
  intros HM NY H. unfold groups_of, block_runs. pose proof (fun k => group_spec maxYear maxN z b k HM NY H) as G.
  induction (keys b) as [|k ks IH]; cbn [map generate flat_map]; [exists []; split; [reflexivity|constructor]|].
  destruct (G k (or_introl eq_refl)) as (xs & E & F). rewrite E. cbn [rbind]. destruct IH as (ys & E' & F'); [intros k' Hk'; apply G; right; exact Hk'|].
  rewrite E'. cbn [rbind]. eexists. split; [reflexivity|]. apply Forall2_app; assumption.
Qed.

(** ** Lines one after another *)
Inductive blocked : list change -> list (zonerule * list change) -> Prop :=
| bl_nil : blocked [] []
| bl_cons : forall z b rest bs, b <> [] -> Forall (fun c => chZone c = z) b -> match rest with c :: _ => chZone c <> z | [] => True end ->
    blocked rest bs -> blocked (b ++ rest) ((z, b) :: bs).
Lemma blocks l : exists bs, blocked l bs.
Proof.
  induction l as [|c l (bs & B)]; [exists []; constructor|]. destruct B as [|z b rest bs N F H B].
  - exists [(chZone c, [c])]. apply (bl_cons (chZone c) [c] [] []); [discriminate|repeat constructor|exact I|constructor].
  - destruct (line_dec (chZone c) z) as [E|E].
    + exists ((z, c :: b) :: bs). apply (bl_cons z (c :: b) rest bs); [discriminate|constructor; assumption|exact H|exact B].
    + exists ((chZone c, [c]) :: (z, b) :: bs). apply (bl_cons (chZone c) [c] (b ++ rest)); [discriminate|repeat constructor| |apply bl_cons; assumption].
      destruct b as [|d b]; [congruence|]. inversion F; subst. cbn. congruence.
Qed.
Lemma subs_block z b cs : Forall (fun c => chZone c = z) b -> zFormat z <> lit "LMT" -> forall done,
  zone_subs tzo (b ++ cs) (Some z) (groups_of done) = zone_subs tzo cs (Some z) (groups_of (done ++ b)).
Proof.
  intros F NL. induction F as [|c b E F IH]; intro done; [rewrite app_nil_r; reflexivity|]. cbn [app zone_subs].
  destruct (beq (zFormat (chZone c)) (lit "LMT")) eqn:B; [apply beq_eq in B; rewrite E in B; contradiction|].
  rewrite E, (proj2 (zonerule_eqb_iff z z) eq_refl). change (chAt c, chFrom c, chTo c) with (entry_of c). rewrite add_groups, IH, <- app_assoc. reflexivity.
Qed.
Lemma subs_next z rest gs : match rest with c :: _ => chZone c <> z /\ zFormat (chZone c) <> lit "LMT" | [] => True end ->
  zone_subs tzo rest (Some z) gs = (do a <- generate tzo z gs; do b <- zone_subs tzo rest (Some z) []; Ok (a ++ b)).
Proof.
  destruct rest as [|c rest]; cbn [zone_subs].
  - intros _. destruct (generate tzo z gs) as [a|x]; cbn [rbind generate]; [rewrite app_nil_r; reflexivity|reflexivity].
  - intros [N NL]. destruct (beq (zFormat (chZone c)) (lit "LMT")) eqn:B; [apply beq_eq in B; contradiction|].
    destruct (zonerule_eqb z (chZone c)) eqn:E; [apply zonerule_eqb_iff in E; congruence|]. cbn [generate rbind].
    destruct (generate tzo z gs) as [a|x]; cbn [rbind]; [|reflexivity]. destruct (zone_subs tzo rest _ _); reflexivity.
Qed.
Lemma subs_start c rest last : zFormat (chZone c) <> lit "LMT" -> zone_subs tzo (c :: rest) last [] = zone_subs tzo (c :: rest) (Some (chZone c)) [].
Proof.
  intro NL. cbn [zone_subs]. destruct (beq (zFormat (chZone c)) (lit "LMT")) eqn:B; [apply beq_eq in B; contradiction|].
  rewrite (proj2 (zonerule_eqb_iff _ _) eq_refl). destruct last as [z|]; [|reflexivity]. destruct (zonerule_eqb z (chZone c)); [reflexivity|].
  cbn [generate rbind]. destruct (zone_subs tzo rest _ _); reflexivity.
Qed.
Lemma subs_lmt lmt cs last : Forall (fun c => zFormat (chZone c) = lit "LMT") lmt -> exists last', zone_subs tzo (lmt ++ cs) last [] = zone_subs tzo cs last' [].
Proof.
  intro F. revert last. induction F as [|c lmt E F IH]; intro last; [eauto|]. cbn [app zone_subs]. rewrite E, beq_refl. apply IH.
Qed.
Lemma zone_subs_spec maxYear maxN cs bs : 1901 <= maxYear -> new_year maxYear maxN -> blocked cs bs ->
  Forall (fun c => zFormat (chZone c) <> lit "LMT") cs -> (forall z b, In (z, b) bs -> line_ok maxYear z b) -> forall last,
  exists xs, zone_subs tzo cs last [] = Ok xs /\ Forall2 (written maxN) (flat_map (fun p => block_runs (snd p)) bs) xs.
Proof.
  intros HM NY B. induction B as [|z b rest bs N F H B IH]; intros NL L last.
  - exists []. split; [|constructor]. destruct last; reflexivity.
  - apply Forall_app in NL as [NLb NLr]. destruct b as [|c b]; [congruence|]. pose proof (Forall_inv F) as Ec. pose proof (Forall_inv NLb) as NLc. cbv beta in Ec, NLc.
    cbn [app]. rewrite subs_start by exact NLc. rewrite Ec in *. change (c :: b ++ rest) with ((c :: b) ++ rest).
    change (@nil (option zrule * list entry)) with (groups_of []). rewrite (subs_block z (c :: b) rest F NLc []). cbn [app].
    rewrite subs_next. 2:{ destruct rest as [|d rest]; [exact I|]. split; [exact H|]. apply (Forall_inv NLr). }
    destruct (generate_spec maxYear maxN z (c :: b) HM NY (L z _ (or_introl eq_refl))) as (xs & E & Fx). rewrite E. cbn [rbind].
    destruct (IH NLr ltac:(intros z' b' H'; apply L; right; exact H') (Some z)) as (ys & E' & Fy). rewrite E'. cbn [rbind].
    eexists. split; [reflexivity|]. cbn [flat_map snd]. apply Forall2_app; assumption.
Qed.
End WithTz.
