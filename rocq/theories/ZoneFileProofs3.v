(** Proofs for C74: time zones and the calendar. *)
From Coq Require Import Lia Sorting.Permutation.
From Verif Require Import DateTimeProofs4 RecurTextProofs2 PyBase PyProofs ParserCtx LineModel LineSpec LineProofs TextModel TextSpec TextProofs DateTimeModel DateTimeText DateTimeSpec2 PeriodModel PropertyModel PropertySpec PropertyProofs
  RecurModel RecurSpec RecurTextProofs PeriodProofs ComponentModel ComponentSpec ComponentProofs ComponentProofs2 ComponentProofs3 ComponentProofs4 ComponentProofs5 ComponentProofs6 ComponentProofs7 DeriveModel MakeModel MakeSpec MakeProofs
  AlarmProofs StatusSpec StatusProofs StatusProofs2 FreshProofs EditModel ZonalModel ZoneTzModel ZoneTzSpec TzFileModel ZoneFileModel ZoneFileSpec ZoneFileProofs ZoneFileProofs2.

(** ** Lists *)
Lemma strict_unique {A} (lt : A -> A -> Prop) zs : StronglySorted lt zs -> forall ws, (forall a x b y c, ws = a ++ x :: b ++ y :: c -> ~ lt y x) -> Permutation zs ws -> ws = zs.
Proof.
  induction 1 as [|z zs S IH F]; intros ws O P; [apply Permutation_nil in P; exact P|]. rewrite Forall_forall in F.
  destruct ws as [|w ws]; [apply Permutation_sym, Permutation_nil in P; discriminate|].
  assert (T : forall a x b y c, ws = a ++ x :: b ++ y :: c -> ~ lt y x) by (intros a x b y c ->; apply (O (w :: a) x b y c); reflexivity).
  pose proof (Permutation_in z P (or_introl eq_refl)) as Iz. pose proof (Permutation_in w (Permutation_sym P) (or_introl eq_refl)) as Iw.
  destruct Iz as [->|Iz]; [f_equal; apply IH; [exact T|eapply Permutation_cons_inv; exact P]|].
  destruct Iw as [->|Iw]; [f_equal; apply IH; [exact T|eapply Permutation_cons_inv; exact P]|]. exfalso.
  apply in_split in Iz as (b & c & ->). apply (O [] w b z c eq_refl). apply F, Iw.
Qed.

Section WithCtx.
Variables (tzo : tzid -> Z -> Z -> Z -> Z -> Z -> Z -> bool -> bool -> Z) (ctx : pctx) (fl : floats).

(** ** The order of the sub-components *)
Definition sub_lt (a b : sub) : bool := cmp_fields (sbStart a) (sbStart b) <? 0.
Lemma at_local_local d : at_local d -> ComponentProofs4.local d.
Proof. intros (P & D & U & Z). split; [unfold floating; rewrite U, Z; reflexivity|exact D]. Qed.
Lemma earlier_fields a b : at_local a -> at_local b -> earlier tzo a b = (cmp_fields a b <? 0).
Proof.
  intros A B. pose proof (ComponentProofs4.local_lt tzo a b (at_local_local a A) (at_local_local b B)) as L. unfold dt_lt, earlier in *. destruct (compareDateTime tzo a b); cbn [rbind] in *; [|discriminate]. injection L as ->. reflexivity.
Qed.
Lemma sorted_subs l : Forall (fun s => at_local (sbStart s)) l -> calm sub_lt (sort_at tzo sbStart l).
Proof.
  intro F. unfold sort_at. rewrite Forall_forall in F. rewrite (isort_ext (fun x y => earlier tzo (sbStart x) (sbStart y)) sub_lt).
  - apply isort_calm. unfold sub_lt. intros x y. rewrite (cmp_fields_sym (sbStart x)). lia.
  - intros x y X Y. apply earlier_fields; auto.
Qed.
Lemma vtimezone_sorted zn rules minYear maxYear subs : zone_vtimezone tzo zn rules minYear maxYear = Ok subs -> Forall sub_fine subs -> calm sub_lt subs.
Proof.
  unfold zone_vtimezone, rbind. destruct (zone_expand tzo zn rules minYear maxYear) as [cs|]; [|discriminate]. destruct (zone_subs tzo cs None []) as [l|]; [|discriminate]. intros [= <-] F.
  apply sorted_subs. eapply Permutation_Forall; [symmetry; apply isort_perm|]. eapply Forall_impl; [|exact F]. intros s (A & _). inversion A; assumption.
Qed.

(** ** The time zone *)
Definition zone_list (name : bytes) : props :=
  [(lit "TZID", [text_prop 0 (lit "TZID") None name]); (lit "X-LIC-LOCATION", [text_prop 0 (lit "X-LIC-LOCATION") None name])].
Definition zone_with (f : dt -> prop) (name : bytes) (subs : list sub) : comp :=
  Comp VTIMEZONE (mkState [] [] None name None None 1) (zone_list name) (map (sub_with f) subs).
Lemma zone_comp_with name subs : zone_comp name subs = zone_with (date_prop (lit "RDATE")) name subs.
Proof. unfold zone_comp, zone_with. cbv zeta. f_equal. apply map_ext. apply sub_comp_with. Qed.
Lemma zone_same name subs : Forall sub_fine subs -> generate fl (zone_with (date_prop (lit "RDATE")) name subs) = generate fl (zone_with rdate name subs).
Proof.
  intro F. unfold zone_with. rewrite !generate_eq. do 2 f_equal. f_equal. f_equal.
  change (map (generate fl) (map (sub_with (date_prop (lit "RDATE"))) subs) = map (generate fl) (map (sub_with rdate) subs)). rewrite !map_map. apply map_ext_in. intros s I.
  rewrite Forall_forall in F. destruct (F s I) as (A & _). inversion A; subst. apply sub_same. assumption.
Qed.
Lemma zone_tree name subs : zone_name name -> Forall sub_fine subs -> tree_ok ctx fl (zone_with rdate name subs).
Proof.
  intros (U & C & L) F. constructor; [exact I| |exact I| |].
  - change (zone_list name) with (addProperty (text_prop 0 (lit "X-LIC-LOCATION") None name) (addProperty (text_prop 0 (lit "TZID") None name) [])).
    apply ok_add; [discriminate|discriminate|apply location_good; assumption|]. apply ok_add; [discriminate|discriminate|apply texts_good; [cbn; tauto|exact U]|]. split; constructor.
  - apply Forall_map, Forall_forall. intros s _. apply sub_kind.
  - apply Forall_map. eapply Forall_impl; [|exact F]. intro; apply sub_tree.
Qed.
Lemma zone_read name subs c : zone_name name -> Forall sub_fine subs -> calm sub_lt subs -> image tzo fl (zone_with rdate name subs) c -> bare_comp c -> shows_zone name subs c.
Proof.
  intros N F Ca M B. pose proof (zone_tree name subs N F) as T. destruct (image_gets tzo ctx fl _ _ T M) as [G K]. cbn [zone_with cKind cProps] in K, G.
  pose proof (load_string fl (lit "TZID") _ _ G) as Ls. change (loadString (lit "TZID") (zone_list name)) with (Some name) in Ls.
  pose proof (load_string fl (lit "X-LIC-LOCATION") _ _ G) as Lx. change (loadString (lit "X-LIC-LOCATION") (zone_list name)) with (Some name) in Lx.
  split; [exact K|]. inversion M as [k st ps l0 u qs l' c0 X Y E]; subst. change (sortedComponents (fun c => c) VTIMEZONE (map (sub_with rdate) subs)) with (map (sub_with rdate) subs) in Y.
  pose proof (finalise_shape _ _ _ E) as (_ & Ep & Es). cbn [cKind cSubs cProps] in Es, Ep.
  assert (X1 : Forall2 (fun c c' => same_when (element_start c) (element_start c') /\ ComponentProofs4.local (element_start c)) (map (sub_with rdate) subs) l').
  { eapply f2_in; [exact Y|]. intros x y Ix Mx. apply in_map_iff in Ix as (s & <- & Is). rewrite Forall_forall in F. apply (element_same tzo ctx fl); [apply sub_tree; auto|exact Mx|apply sub_final|apply sub_key|apply sub_kind]. }
  assert (L2 : Forall (fun c => ComponentProofs4.local (element_start c)) l').
  { clear - X1; induction X1 as [|x y l m [H1 H2] H IH]; constructor; [eapply same_local; eassumption|assumption]. }
  assert (Sl : cSubs c = l').
  { rewrite (sort_pure tzo _ L2) in Es. injection Es as Es. rewrite <- Es. apply calm_id. eapply (calm_f2 starts_lt); [|exact X1|].
    - intros x y x' y' [A1 A2] [B1 B2]. unfold starts_lt. rewrite (cmp_same _ _ _ _ A1 B1 A2 B2). reflexivity.
    - clear - Ca. induction subs as [|s l IH]; [intros [|? [|]] ? ? ? E; discriminate|]. apply calm_cons in Ca as [C1 C2]. cbn [map]. apply calm_cons. split; [|apply IH, C2]. destruct l; [exact I|exact C1]. }
  split; [|split; [exact Ls|split; [exact Lx|]]].
  - cbn [finalise] in E. unfold rbind in E. destruct (sort_start tzo l'); [|discriminate]. apply (f_equal (fun r => match r with Ok c => sID (cState c) | Raise _ => [] end)) in E. cbn [cState sID] in E.
    rewrite <- Ep, Ls in E. symmetry. exact E.
  - rewrite Sl. inversion B as [k0 st0 ps0 subs0 _ Bs E0]. subst c. cbn [cSubs] in Sl. subst subs0.
    revert Y Bs F. clear - ctx. revert l'. induction subs as [|s l IH]; intros l' Y Bs F; inversion Y as [|x y l1 l2 M Y' E1 E2]; subst; constructor; inversion F; subst; inversion Bs; subst.
    + apply (sub_read tzo ctx fl); assumption.
    + apply IH; assumption.
Qed.
End WithCtx.
