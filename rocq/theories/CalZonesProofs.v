(** Proofs for the questions about time zones that a calendar answers. *)
From Coq Require Import Lia.
From Verif Require Import PyBase DateTimeModel DateTimeSpec VTimezoneModel VTimezoneSpec CalZonesModel CalZonesSpec LineProofs.

Section P.
Variable tzo : tzid -> Z -> Z -> Z -> Z -> Z -> Z -> bool -> bool -> Z.
Variable order : list dt -> list dt.
Variable torder : list onset_row -> list onset_row.
Variable top : Z.

Definition state (p : bytes * list elem) (q : bytes * vtz) : Prop := fst p = fst q /\ asked tzo order torder top (snd p) (snd q).

Lemma same_id_name n id : same_id n id = true <-> id = TzName n.
Proof.
  unfold same_id. destruct id; (split; [intro H|intro H]); try discriminate H.
  - destruct (beq_case n s) as [(-> & _)|(_ & E)]; [reflexivity|]. rewrite E in H. discriminate H.
  - injection H as ->. destruct (beq_case n n) as [(_ & E)|(N & _)]; [exact E|]. destruct N. reflexivity.
Qed.

Lemma first_head n es defs : first_with ((n, es) :: defs) n es.
Proof. exists [], defs. split; [reflexivity|intros []]. Qed.
Lemma first_tail n es defs m fs : n <> m -> first_with defs m fs -> first_with ((n, es) :: defs) m fs.
Proof.
  intros N (b & a & -> & Ni). exists ((n, es) :: b), a. split; [reflexivity|]. cbn [map fst In]. intros [E|E]; [exact (N E)|exact (Ni E)].
Qed.

Lemma states_new defs : Forall2 state defs (unasked defs).
Proof. induction defs as [|[n es] r IH]; cbn; constructor; [|exact IH]. split; [reflexivity|]. apply asked_new. Qed.

Lemma offset_step fuel id d rel : forall defs l l' r, Forall2 state defs l ->
  (forall n es, id = TzName n -> first_with defs n es -> exists t, question es top d rel t) ->
  cal_getTimezoneOffsetSeconds tzo order torder fuel l id d rel = Some (l', r) -> Forall2 state defs l'.
Proof.
  induction defs as [|[n es] defs IH]; intros l l' r F Q E; inversion F as [|? [m z] ? l0 (N & A) F']; subst; cbn [cal_getTimezoneOffsetSeconds fst snd] in *.
  - injection E as <- <-. constructor.
  - subst m. destruct (same_id n id) eqn:S.
    + apply same_id_name in S. destruct (getTimezoneOffsetSeconds tzo order torder fuel z d rel) as [[z' v]|] eqn:G; [|discriminate E].
      injection E as <- <-. constructor; [|exact F']. split; [reflexivity|]. cbn [snd].
      destruct (Q n es S (first_head n es defs)) as (t & Ht). eapply asked_offset; eassumption.
    + destruct (cal_getTimezoneOffsetSeconds tzo order torder fuel l0 id d rel) as [[l1 v]|] eqn:G; [|discriminate E]. injection E as <- <-.
      constructor; [split; [reflexivity|exact A]|]. apply (IH _ _ _ F') in G; [exact G|]. intros m fs Em Fm. apply (Q m fs Em). apply first_tail; [|exact Fm].
      intros ->. rewrite (proj2 (same_id_name m id) Em) in S. discriminate S.
Qed.
Lemma name_step fuel id d : forall defs l l' r, Forall2 state defs l ->
  (forall n es, id = TzName n -> first_with defs n es -> exists t, question es top d false t) ->
  cal_getTimezoneDescriptor tzo order fuel l id d = Some (l', r) -> Forall2 state defs l'.
Proof.
  induction defs as [|[n es] defs IH]; intros l l' r F Q E; inversion F as [|? [m z] ? l0 (N & A) F']; subst; cbn [cal_getTimezoneDescriptor fst snd] in *.
  - injection E as <- <-. constructor.
  - subst m. destruct (same_id n id) eqn:S.
    + apply same_id_name in S. destruct (getTimezoneDescriptor tzo order fuel z d) as [[z' v]|] eqn:G; [|discriminate E].
      injection E as <- <-. constructor; [|exact F']. split; [reflexivity|]. cbn [snd].
      destruct (Q n es S (first_head n es defs)) as (t & Ht). eapply asked_name; eassumption.
    + destruct (cal_getTimezoneDescriptor tzo order fuel l0 id d) as [[l1 v]|] eqn:G; [|discriminate E]. injection E as <- <-.
      constructor; [split; [reflexivity|exact A]|]. apply (IH _ _ _ F') in G; [exact G|]. intros m fs Em Fm. apply (Q m fs Em). apply first_tail; [|exact Fm].
      intros ->. rewrite (proj2 (same_id_name m id) Em) in S. discriminate S.
Qed.
Lemma states defs l : cal_asked tzo order torder top defs l -> Forall2 state defs l.
Proof. induction 1; [apply states_new|eapply offset_step; eassumption|eapply name_step; eassumption]. Qed.

Lemma name_other n m : n <> m -> same_id n (TzName m) = false.
Proof. intro N. destruct (same_id n (TzName m)) eqn:E; [|reflexivity]. apply same_id_name in E. injection E as E. destruct N. symmetry. exact E. Qed.

(** The object that is asked. *)
Lemma chosen : forall defs l id es, Forall2 state defs l -> first_with defs id es -> exists z, asked tzo order torder top es z /\
  (forall fuel d rel z' v, getTimezoneOffsetSeconds tzo order torder fuel z d rel = Some (z', v) ->
     exists l', cal_getTimezoneOffsetSeconds tzo order torder fuel l (TzName id) d rel = Some (l', v)) /\
  (forall fuel d z' v, getTimezoneDescriptor tzo order fuel z d = Some (z', v) ->
     exists l', cal_getTimezoneDescriptor tzo order fuel l (TzName id) d = Some (l', v)).
Proof.
  intros defs l id es F (b & a & -> & Ni). revert l F. induction b as [|[n fs] b IH]; intros l F; inversion F as [|? [m z] ? l0 (N & A) F']; subst; cbn [fst snd app] in *; subst m.
  - exists z. split; [exact A|]. assert (S : same_id id (TzName id) = true) by (apply same_id_name; reflexivity). cbn [cal_getTimezoneOffsetSeconds cal_getTimezoneDescriptor]. rewrite S.
    split; intros; rewrite H; eexists; reflexivity.
  - cbn [map In fst] in Ni. destruct (IH ltac:(tauto) l0 F') as (z1 & A1 & O1 & D1). exists z1. split; [exact A1|].
    cbn [cal_getTimezoneOffsetSeconds cal_getTimezoneDescriptor]. rewrite (name_other n id) by tauto.
    split; intros; [destruct (O1 _ _ _ _ _ H) as (l' & E)|destruct (D1 _ _ _ _ H) as (l' & E)]; rewrite E; eexists; reflexivity.
Qed.

Lemma none_there fuel id d rel : forall l : cal_zones, (forall n, id = TzName n -> ~ In n (map fst l)) ->
  cal_getTimezoneOffsetSeconds tzo order torder fuel l id d rel = Some (l, Ok 0) /\ cal_getTimezoneDescriptor tzo order fuel l id d = Some (l, Ok []).
Proof.
  induction l as [|[n z] l IH]; intro H; [split; reflexivity|]. cbn [cal_getTimezoneOffsetSeconds cal_getTimezoneDescriptor].
  destruct (same_id n id) eqn:S; [apply same_id_name in S; destruct (H n S); left; reflexivity|].
  destruct IH as (A & B); [intros m E I; apply (H m E); right; exact I|]. rewrite A, B. split; reflexivity.
Qed.
Lemma states_names defs l : Forall2 state defs l -> map fst l = map fst defs.
Proof. induction 1 as [|p q ? ? (N & _) _ IH]; cbn [map]; congruence. Qed.
End P.

Lemma unasked_of cal : unasked (definitions_of cal) = zones_of cal.
Proof. unfold unasked, definitions_of, zones_of. rewrite map_map. reflexivity. Qed.
Lemma found_first cal id c : calendar_zone cal id = Some c -> first_with (definitions_of cal) id (map element_of (cSubs c)).
Proof.
  unfold calendar_zone, definitions_of. induction (cSubs cal) as [|x l IH]; [discriminate|]. cbn [find filter].
  destruct (cKind x) eqn:K; try exact IH. cbn [map]. destruct (beq_case (sID (cState x)) id) as [(D & E)|(D & E)]; rewrite E.
  - intro H. injection H as <-. rewrite D. apply first_head.
  - intro H. apply first_tail; [exact D|exact (IH H)].
Qed.
Lemma not_found cal id : calendar_zone cal id = None -> ~ In id (map fst (definitions_of cal)).
Proof.
  unfold calendar_zone, definitions_of. induction (cSubs cal) as [|x l IH]; [intros _ []|]. cbn [find filter].
  destruct (cKind x) eqn:K; try exact IH. cbn [map fst In]. destruct (beq_case (sID (cState x)) id) as [(D & E)|(D & E)]; rewrite E; [discriminate|].
  intros H [I|I]; [exact (D I)|exact (IH H I)].
Qed.
