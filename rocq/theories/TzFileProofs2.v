(** Expansion of zones depends on what is known by each name only. *)
From Coq Require Import Lia.
From Verif Require Import PyBase PyProofs ZonalModel ZonalSpec RecurTextProofs ZonalProofs3 TzFileModel TzFileSpec TzFileProofs.

Lemma find_known {A} n (d : list (bytes * A)) : option_map snd (find (fun e => beq n (fst e)) d) = known n d.
Proof. induction d as [|(k, v) d IH]; [reflexivity|]. cbn. destruct (beq n k); [reflexivity|exact IH]. Qed.
Lemma find_known' {A} n (d : list (bytes * A)) : option_map snd (find (fun e => beq (fst e) n) d) = known n d.
Proof. induction d as [|(k, v) d IH]; [reflexivity|]. cbn. rewrite (beq_sym k n). destruct (beq n k); [reflexivity|exact IH]. Qed.
Section Same.
Variable tzo : tzid -> Z -> Z -> Z -> Z -> Z -> Z -> bool -> bool -> Z.
Lemma rule_same rules rules' z : known (zRule z) rules = known (zRule z) rules' ->
  forall u lo ls y, zonerule_expand tzo rules z u lo ls y = zonerule_expand tzo rules' z u lo ls y.
Proof.
  intros E u lo ls y. unfold zonerule_expand. destruct (isNumericOffset z) as [[]|]; try reflexivity. cbn.
  rewrite <- !find_known' in E. destruct (find _ rules) as [(k, v)|], (find _ rules') as [(k', v')|]; cbn in E; try discriminate E; [|reflexivity].
  injection E as ->. reflexivity.
Qed.
Lemma transitions_same rules rules' y l : Forall (fun z => known (zRule z) rules = known (zRule z) rules') l ->
  forall u lo ls drop acc, zone_transitions tzo rules y l u lo ls drop acc = zone_transitions tzo rules' y l u lo ls drop acc.
Proof.
  induction 1 as [|z l Hz Hl IH]; intros; [reflexivity|]. cbn [zone_transitions]. rewrite (rule_same _ _ _ Hz).
  destruct (zonerule_expand tzo rules' z u lo ls y) as [((new, lo'), ls')|]; [|reflexivity]. cbn. destruct (getUntilDate z) as [x|]; [|reflexivity]. cbn. apply IH.
Qed.
Lemma expand_same zn rules rules' a b : Forall (fun z => known (zRule z) rules = known (zRule z) rules') (znRules zn) ->
  zone_expand tzo zn rules a b = zone_expand tzo zn rules' a b.
Proof.
  intro H. unfold zone_expand. destruct (znRules zn) as [|z l] eqn:E; [reflexivity|]. destruct (getUTCOffset z) as [o|]; [|reflexivity]. cbn [rbind].
  rewrite (transitions_same _ _ _ _ H). reflexivity.
Qed.
Lemma expandZone_known d n a b : expandZone tzo d n a b =
  match known n (tzZones d) with None => Raise KeyError | Some zn => do l <- zone_expand tzo zn (tzRules d) a b; Ok (map (fun c => (chAt c, chFrom c, chTo c)) l) end.
Proof. unfold expandZone. rewrite <- find_known. destruct (find _ (tzZones d)) as [(k, v)|]; reflexivity. Qed.
Lemma expandZone_same fs fs' d d' n zn a b : learnt no_data fs d -> learnt no_data fs' d' ->
  last_of None (zones_said n fs) = Some zn -> last_of None (zones_said n fs') = Some zn ->
  Forall (fun z => rules_said (zRule z) fs = rules_said (zRule z) fs') (znRules zn) ->
  expandZone tzo d n a b = expandZone tzo d' n a b.
Proof.
  intros L L' Z Z' R. rewrite !expandZone_known. destruct (L n) as (_ & E & _). destruct (L' n) as (_ & E' & _). cbn in E, E'.
  rewrite E, E', Z, Z'. rewrite (expand_same zn (tzRules d) (tzRules d')); [reflexivity|].
  revert R. apply Forall_impl. intros z R. destruct (L (zRule z)) as (Q & _). destruct (L' (zRule z)) as (Q' & _). rewrite Q, Q', R. reflexivity.
Qed.
End Same.
