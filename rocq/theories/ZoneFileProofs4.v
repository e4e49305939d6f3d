(** Proofs for C74: the calendar. *)
From Coq Require Import Lia Sorting.Permutation.
From Verif Require Import DateTimeProofs4 RecurTextProofs2 PyBase PyProofs ParserCtx LineModel LineSpec LineProofs TextModel TextSpec TextProofs DateTimeModel DateTimeText DateTimeSpec2 PeriodModel PropertyModel PropertySpec PropertyProofs
  RecurModel RecurSpec RecurTextProofs PeriodProofs ComponentModel ComponentSpec ComponentProofs ComponentProofs2 ComponentProofs3 ComponentProofs4 ComponentProofs5 ComponentProofs6 ComponentProofs7 DeriveModel MakeModel MakeSpec MakeProofs
  AlarmProofs StatusSpec StatusProofs StatusProofs2 FreshProofs EditModel ZonalModel ZoneTzModel ZoneTzSpec TzFileModel ZoneFileModel ZoneFileSpec ZoneFileProofs ZoneFileProofs2 ZoneFileProofs3.

Section WithCtx.
Variables (tzo : tzid -> Z -> Z -> Z -> Z -> Z -> Z -> bool -> bool -> Z) (ctx : pctx) (fl : floats) (uuids : nat -> bytes).

Definition comp_of (f : dt -> prop) (p : zone * list sub) : comp := zone_with f (znName (fst p)) (snd p).
Definition by_name (p q : zone * list sub) : Prop := text_lt (znName (fst p)) (znName (fst q)).
Definition cal_list (prodid : bytes) : props :=
  [(lit "PRODID", [text_prop 0 (lit "PRODID") None prodid]); (lit "VERSION", [text_prop 0 (lit "VERSION") None (lit "2.0")]); (lit "CALSCALE", [text_prop 0 (lit "CALSCALE") None (lit "GREGORIAN")])].

Lemma zones_sorted f zones pl : StronglySorted by_name zones -> Permutation zones pl -> sortedComponents (fun c => c) VCALENDAR (map (comp_of f) pl) = map (comp_of f) zones.
Proof.
  intros S P. apply (strict_unique (fun a b => rank_lt (rank VCALENDAR a) (rank VCALENDAR b))).
  - clear P. induction S as [|p l S IH F]; cbn [map]; constructor; [exact IH|]. apply Forall_map. eapply Forall_impl; [|exact F]. intros q L.
    unfold comp_of, zone_with. cbn [rank cState getSortKey cKind sID upper_type]. apply rl_tail, rl_tail, rl_head, vl_strs. exact L.
  - intros a x b y c E. eapply components_sorted; [symmetry; exact E|reflexivity].
  - rewrite sorted_perm. apply Permutation_map. exact P.
Qed.
Lemma cal_same prodid zones pl : StronglySorted by_name zones -> Permutation zones pl -> Forall (fun p => Forall sub_fine (snd p)) zones ->
  generate fl (new_calendar prodid (map (comp_of (date_prop (lit "RDATE"))) pl)) = generate fl (Comp VCALENDAR (newState []) (cal_list prodid) (map (comp_of rdate) zones)).
Proof.
  intros S P F. change (new_calendar prodid (map (comp_of (date_prop (lit "RDATE"))) pl)) with (Comp VCALENDAR (newState []) (cal_list prodid) (map (comp_of (date_prop (lit "RDATE"))) pl)).
  rewrite !generate_eq, (zones_sorted _ zones pl S P), (zones_sorted rdate zones zones S (Permutation_refl _)). do 2 f_equal. f_equal. f_equal. rewrite !map_map. apply map_ext_in. intros p I. rewrite Forall_forall in F.
  apply zone_same. exact (F p I).
Qed.
Lemma cal_ok prodid zones : utf8 prodid -> Forall (fun p => zone_name (znName (fst p)) /\ Forall sub_fine (snd p)) zones -> calendar_ok ctx fl (Comp VCALENDAR (newState []) (cal_list prodid) (map (comp_of rdate) zones)).
Proof.
  intros U F. split; [reflexivity|]. cbn [cProps cSubs]. split; [|split; [discriminate|split]].
  - change (cal_list prodid) with (addProperty (text_prop 0 (lit "CALSCALE") None (lit "GREGORIAN")) (addProperty (text_prop 0 (lit "VERSION") None (lit "2.0")) (addProperty (text_prop 0 (lit "PRODID") None prodid) []))).
    assert (A : forall s, forallb (fun c => (nat_of_ascii c <? 128)%nat) s = true -> utf8 s).
    { intros s H. apply utf8_ascii, Forall_forall. intros c I. rewrite forallb_forall in H. apply Nat.ltb_lt, (H c I). }
    repeat (apply ok_add; [discriminate|discriminate|apply texts_good; [cbn; tauto|first [exact U|apply A; reflexivity]]|]). split; constructor.
  - repeat constructor; discriminate.
  - apply Forall_map. eapply Forall_impl; [|exact F]. intros p [N G]. apply zone_tree; assumption.
Qed.

(** ** The zones that are made *)
Lemma chosen_perm want d l : asks want d l -> Permutation l (filter (wanted want) (map snd (tzZones d))).
Proof.
  intros (N & H & S). apply NoDup_Permutation.
  - clear - S. induction S as [|x l S IH F]; constructor; [|exact IH]. intro I. rewrite Forall_forall in F. specialize (F x I). clear - F.
    remember (znName x) as n eqn:E. rewrite E in F at 1. rewrite <- E in F. clear E. assert (Q : forall a b, text_lt a b -> a <> b).
    { induction 1 as [| |c r s T IH]; try discriminate; intro E; injection E; intros; subst; [lia|auto]. }
    exact (Q _ _ F eq_refl).
  - apply NoDup_filter. clear - N. revert N. generalize (map snd (tzZones d)). intros l N. exact (NoDup_map_inv _ _ N).
  - intro zn. rewrite H, filter_In. unfold wanted. split; intros [A B]; (split; [exact A|]).
    + destruct B as [-> |B]; [reflexivity|]. destruct want as [|w r]; [reflexivity|]. apply existsb_exists. exists (znName zn). split; [exact B|apply beq_refl].
    + destruct want as [|w r]; [left; reflexivity|]. right. apply existsb_exists in B as (x & I & E). apply beq_eq in E. congruence.
Qed.
Lemma made_all d minYear maxYear pl : Forall (fun p => zone_vtimezone tzo (fst p) (tzRules d) minYear maxYear = Ok (snd p)) pl ->
  made_zones tzo d minYear maxYear (map fst pl) = Ok (map (comp_of (date_prop (lit "RDATE"))) pl).
Proof.
  induction 1 as [|p l E F IH]; [reflexivity|]. cbn [map made_zones]. unfold made_zone. rewrite E. cbn [rbind]. rewrite IH. cbn [rbind]. rewrite zone_comp_with. reflexivity.
Qed.

Definition fine_zone (d : tzdata) (minYear maxYear : Z) (p : zone * list sub) : Prop :=
  zone_vtimezone tzo (fst p) (tzRules d) minYear maxYear = Ok (snd p) /\ zone_name (znName (fst p)) /\ Forall sub_fine (snd p).
Lemma file_text prodid d minYear maxYear want zones : asks want d (map fst zones) -> Forall (fine_zone d minYear maxYear) zones ->
  vtimezones tzo fl prodid d minYear maxYear want = generate fl (Comp VCALENDAR (newState []) (cal_list prodid) (map (comp_of rdate) zones)).
Proof.
  intros A F. pose proof (chosen_perm want d _ A) as P. destruct A as (_ & _ & S0).
  assert (S : StronglySorted by_name zones).
  { clear - S0. induction zones as [|p l IH]; [constructor|]. cbn [map] in S0. inversion S0 as [|? ? S1 F1]; subst. constructor; [apply IH, S1|]. rewrite Forall_forall in *. intros q I. apply F1, in_map, I. }
  destruct (Permutation_map_inv _ _ (Permutation_sym P)) as (pl & E & Q).
  unfold vtimezones. rewrite E, made_all.
  - rewrite (cal_same prodid zones pl S Q); [reflexivity|]. eapply Forall_impl; [|exact F]. intros p (_ & _ & B); exact B.
  - rewrite Forall_forall in *. intros p I. apply F. exact (Permutation_in _ (Permutation_sym Q) I).
Qed.
Lemma file_raises prodid d minYear maxYear want zn e : In zn (map snd (tzZones d)) -> want = [] \/ In (znName zn) want -> zone_vtimezone tzo zn (tzRules d) minYear maxYear = Raise e ->
  exists e', vtimezones tzo fl prodid d minYear maxYear want = Some (Raise e').
Proof.
  intros I W E. assert (J : In zn (filter (wanted want) (map snd (tzZones d)))).
  { apply filter_In. split; [exact I|]. unfold wanted. destruct want as [|w r]; [reflexivity|]. destruct W as [W|W]; [discriminate W|]. apply existsb_exists. exists (znName zn). split; [exact W|apply beq_refl]. }
  unfold vtimezones. revert J. generalize (filter (wanted want) (map snd (tzZones d))). intros l J.
  assert (H : exists e', made_zones tzo d minYear maxYear l = Raise e'); [|destruct H as (e' & ->); eauto].
  induction l as [|z l IH]; [destruct J|]. cbn [made_zones]. destruct J as [->|J].
  - unfold made_zone. rewrite E. cbn [rbind]. eauto.
  - destruct (IH J) as (e' & ->). destruct (made_zone tzo d minYear maxYear z); cbn [rbind]; eauto.
Qed.
Lemma file_spec prodid d minYear maxYear want zones : utf8 prodid -> asks want d (map fst zones) -> Forall (fine_zone d minYear maxYear) zones ->
  exists text cal, vtimezones tzo fl prodid d minYear maxYear want = Some (Ok text) /\ parseTextData tzo ctx fl uuids text = Ok (Some cal) /\
    cKind cal = VCALENDAR /\ loadString (lit "PRODID") (cProps cal) = Some prodid /\
    loadString (lit "VERSION") (cProps cal) = Some (lit "2.0") /\ loadString (lit "CALSCALE") (cProps cal) = Some (lit "GREGORIAN") /\ Forall2 (fun p c => shows_zone (znName (fst p)) (snd p) c) zones (cSubs cal).
Proof.
  intros U A F. pose proof (chosen_perm want d _ A) as P. destruct A as (_ & _ & S0).
  assert (S : StronglySorted by_name zones).
  { clear - S0. induction zones as [|p l IH]; [constructor|]. cbn [map] in S0. inversion S0 as [|? ? S1 F1]; subst. constructor; [apply IH, S1|]. rewrite Forall_forall in *. intros q I. apply F1, in_map, I. }
  destruct (Permutation_map_inv _ _ (Permutation_sym P)) as (pl & E & Q).
  assert (Fc : Forall (fun p => zone_name (znName (fst p)) /\ Forall sub_fine (snd p)) zones) by (eapply Forall_impl; [|exact F]; intros p (_ & B); exact B).
  destruct (calendar_round tzo ctx fl uuids _ (cal_ok prodid zones U Fc)) as (text & cal & G & R & (qs & l' & X & Y & Ec)).
  exists text, cal. split; [|split; [exact R|]].
  - unfold vtimezones. rewrite E, made_all.
    + rewrite (cal_same prodid zones pl S Q); [exact G|]. eapply Forall_impl; [|exact Fc]. intros p [_ B]; exact B.
    + eapply Permutation_Forall; [exact Q|]. eapply Forall_impl; [|exact F]. intros p (B & _); exact B.
  - pose proof (read_bare tzo ctx fl uuids text cal R) as Bc. cbn [cSubs cProps] in X, Y. rewrite (zones_sorted rdate zones zones S (Permutation_refl _)) in Y.
    subst cal. split; [reflexivity|]. cbn [cProps cSubs]. assert (Q1 : gets fl (cal_list prodid) (fold_left ComponentProofs2.put qs [])).
    { destruct (props_upper ctx fl (cal_list prodid) (proj1 (proj2 (cal_ok prodid zones U Fc)))) as [N Up]. exact (gets_written fl VCALENDAR _ qs N Up X). }
    do 3 (split; [rewrite (load_string fl _ _ _ Q1); reflexivity|]).
    inversion Bc as [k st ps subs _ Bs]; subst. revert Y Bs F. clear - ctx. revert l'. induction zones as [|p zones IH]; intros l' Y Bs F; inversion Y as [|x y l1 l2 M Y' E1 E2]; subst; constructor; inversion F as [|? ? (V & Nn & Ff) F']; subst; inversion Bs; subst.
    + apply (zone_read tzo ctx fl); try assumption. eapply vtimezone_sorted; eassumption.
    + apply IH; assumption.
Qed.

(** ** The zone that is found *)
Lemma text_irr a : ~ text_lt a a.
Proof. intro H. remember a as b eqn:E in H at 2. induction H; try discriminate; injection E; intros; subst; [lia|auto]. Qed.
Lemma find_zone zones cal p : StronglySorted by_name zones -> Forall2 (fun p c => shows_zone (znName (fst p)) (snd p) c) zones (cSubs cal) -> In p zones ->
  exists c, calendar_zone cal (znName (fst p)) = Some c /\ shows_zone (znName (fst p)) (snd p) c.
Proof.
  intros S F I. unfold calendar_zone. induction F as [|q c zones l H F IH]; [destruct I|]. inversion S as [|? ? S1 F1]; subst. cbn [find]. destruct H as (K & Id & R).
  rewrite K, Id. destruct I as [->|I].
  - rewrite beq_refl. exists c. repeat split; assumption || apply R.
  - destruct (beq (znName (fst q)) (znName (fst p))) eqn:B; [|apply IH; assumption]. exfalso. apply beq_eq in B. rewrite Forall_forall in F1. specialize (F1 p I). unfold by_name in F1. rewrite B in F1. exact (text_irr _ F1).
Qed.
Lemma no_zone zones cal n : Forall2 (fun p c => shows_zone (znName (fst p)) (snd p) c) zones (cSubs cal) -> ~ In n (map (fun p => znName (fst p)) zones) -> calendar_zone cal n = None.
Proof.
  intros F N. unfold calendar_zone. induction F as [|q c zones l H F IH]; [reflexivity|]. cbn [find]. destruct H as (K & Id & R). rewrite K, Id. destruct (beq (znName (fst q)) n) eqn:B; [exfalso; apply N; left; apply beq_eq, B|].
  apply IH. intro I. apply N. right. exact I.
Qed.
End WithCtx.
