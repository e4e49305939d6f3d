(** Proofs for C61. *)
From Coq Require Import Lia ZifyBool ZifyNat.
From Verif Require Import PyBase PyProofs CalSpec DateTimeModel DateTimeSpec DateTimeSpec2 DateTimeProofs DateTimeProofs2 DurationModel DurationProofs PeriodModel PeriodSpec PeriodProofs PropertyModel PropertyProofs3
  ComponentModel ComponentProofs2 LineProofs RecurUnionSpec RecurSetModel TimingModel TimingSpec TimingProofs ValidateSpec ValidateProofs DeriveModel DeriveSpec DeriveProofs EditModel EditSpec.
Ltac Zify.zify_post_hook ::= Z.div_mod_to_equations.

Lemma get_strip name ps : tidy_props ps -> getProperties name (strip_times ps) = if existsb (fun n => beq n name) time_names then [] else getProperties name ps.
Proof.
  intro T. unfold strip_times. rewrite !get_remove by (repeat apply tidy_remove; exact T). unfold time_names. cbn [existsb].
  repeat match goal with |- context [beq ?a name] => let b := fresh in set (b := beq a name); clearbody b; destruct b; cbn [orb]; try reflexivity end.
Qed.
Lemma get_date' name n d ps : In n time_names -> getProperties name (addProperty (date_prop n d) ps) = getProperties name ps ++ if beq n name then [date_prop n d] else [].
Proof. intro I. unfold addProperty. cbn [date_prop pName]. assert (U : upper n = n) by (destruct I as [<-|[<-|[<-|[<-|[]]]]]; reflexivity). rewrite U. apply get_add. Qed.
Lemma get_dur name n d ps : In n time_names -> getProperties name (addProperty (duration_prop n d) ps) = getProperties name ps ++ if beq n name then [duration_prop n d] else [].
Proof. intro I. unfold addProperty. cbn [duration_prop pName]. assert (U : upper n = n) by (destruct I as [<-|[<-|[<-|[<-|[]]]]]; reflexivity). rewrite U. apply get_add. Qed.
Lemma dur_params d : duration_prop (lit "DURATION") d = mkProp (lit "DURATION") [] (Some (Single (VDuration d))).
Proof. reflexivity. Qed.
Lemma not_named name : ~ In name time_names -> existsb (fun n => beq n name) time_names = false /\ forall n, In n time_names -> beq n name = false.
Proof.
  intro N. split.
  - destruct (existsb _ _) eqn:E; [|reflexivity]. apply exists_name in E. contradiction.
  - intros n I. destruct (beq_case n name) as [[-> _]|[_ ->]]; [contradiction|reflexivity].
Qed.
Lemma kept_1 ps d n : tidy_props ps -> In n time_names -> others_kept ps (addProperty (date_prop n d) (strip_times ps)).
Proof.
  intros T I name N. destruct (not_named name N) as [E B]. rewrite get_date', get_strip, E, B by assumption. apply app_nil_r.
Qed.
Lemma kept_2 ps d n e m : tidy_props ps -> In n time_names -> In m time_names -> others_kept ps (addProperty (date_prop m e) (addProperty (date_prop n d) (strip_times ps))).
Proof.
  intros T I J name N. destruct (not_named name N) as [E B]. rewrite get_date', B by assumption. rewrite app_nil_r. apply kept_1; assumption.
Qed.
Lemma kept_3 ps d n du m : tidy_props ps -> In n time_names -> In m time_names -> others_kept ps (addProperty (duration_prop m du) (addProperty (date_prop n d) (strip_times ps))).
Proof.
  intros T I J name N. destruct (not_named name N) as [E B]. rewrite get_dur, B by assumption. rewrite app_nil_r. apply kept_1; assumption.
Qed.

Definition dated : list bytes := [lit "DTSTART"; lit "DTEND"; lit "DUE"].
Lemma one_in name ps d : In name dated -> getProperties name ps = [date_prop name d] -> one_date name ps d.
Proof.
  intros I E. exists (date_prop name d). split; [exact E|]. split; [reflexivity|]. split; [reflexivity|].
  intros T key. unfold date_prop. cbn [pParams].
  assert (S : setupValueParameter name [] (Some (Single (VDateTime d))) = if mDateOnly d then [(lit "VALUE", [(lit "VALUE", [lit "DATE"])])] else []).
  { destruct d as [Y M D h m s [] U Z O P Q]; destruct I as [<-|[<-|[<-|[]]]]; reflexivity. }
  rewrite S. destruct (mDateOnly d); cbn [negb andb].
  - cbn [assoc]. rewrite ComponentProofs2.beq_sym. reflexivity.
  - unfold local. destruct (mTZUTC d); cbn [negb andb]; [reflexivity|]. destruct (mTZID d) as [|[|z zs]|n] eqn:EZ; cbn [tz_true]; try reflexivity.
    + cbn [add_param assoc]. rewrite ComponentProofs2.beq_sym. reflexivity.
    + destruct (T n eq_refl).
Qed.
Lemma day_after d x : instant Dates d x -> instant Dates (offsetDay d 1) (x + 1).
Proof.
  intros (V & D & B). destruct (offsetDay_spec d 1 V) as (B' & V' & _ & D' & _). split; [exact V'|]. split; [congruence|].
  apply hb; [split; cbn; lia|apply V'|]. apply hb in B; [|split; cbn; lia|apply V]. apply hb in B'; [|apply V|apply V']. lia.
Qed.

(** finalise of the new properties. *)
Definition set_end' (k : kind) (start : dt) (ps : props) : bool * dt * bool :=
  match k with VTODO => load_due start ps (load_end start ps) | _ => load_end start ps end.
Lemma finalise_kept k ps ps' t0 t1 t : others_kept ps ps' -> timing_finalise k ps t0 = Ok t1 ->
  let start := match loadDateTime (lit "DTSTART") ps' with Some d => d | None => tStart t end in
  exists t2, timing_finalise k ps' t = Ok t2 /\ tHasStart t2 = (match loadDateTime (lit "DTSTART") ps' with Some _ => true | None => false end) /\
    tStart t2 = start /\ (tHasEnd t2, tEnd t2, tDuration t2) = set_end' k start ps'.
Proof.
  intros K F start. revert F. unfold timing_finalise. cbv zeta. fold start.
  assert (R : getProperties (lit "RECURRENCE-ID") ps' = getProperties (lit "RECURRENCE-ID") ps).
  { apply K. intro I. repeat (destruct I as [I|I]; [discriminate I|]). destruct I. }
  assert (R1 : countProperty (lit "RECURRENCE-ID") ps' = countProperty (lit "RECURRENCE-ID") ps) by (unfold countProperty; rewrite R; reflexivity).
  assert (R2 : loadDateTime (lit "RECURRENCE-ID") ps' = loadDateTime (lit "RECURRENCE-ID") ps) by (apply load_same; exact R).
  assert (R3 : load_range ps' = load_range ps) by (unfold load_range, findFirstProperty; rewrite R; reflexivity).
  rewrite R1, R2, R3. fold (set_end' k start ps'). intro F.
  destruct (negb (countProperty (lit "RECURRENCE-ID") ps =? 0)%nat);
    [destruct (loadDateTime (lit "RECURRENCE-ID") ps) as [r|]; [|discriminate F]; destruct (load_range ps) as [fp|]; [|discriminate F]|];
    cbn [rbind]; destruct (set_end' k start ps') as [[he en] du]; eexists; (split; [reflexivity|]); (split; [reflexivity|]); split; reflexivity.
Qed.

Lemma start_loaded ps d : getProperties (lit "DTSTART") ps = [date_prop (lit "DTSTART") d] -> loadDateTime (lit "DTSTART") ps = Some d.
Proof. intro E. unfold loadDateTime. rewrite (load_one _ _ _ _ E). reflexivity. Qed.

Section Edit.
Variable tzo : tzid -> Z -> Z -> Z -> Z -> Z -> Z -> bool -> bool -> Z.

Lemma fix_fine sc t x y : instant sc (tStart t) x -> instant sc (tEnd t) y -> x < y -> fixStartEnd tzo t = Ok t.
Proof.
  intros I J L. unfold fixStartEnd. destruct (tHasStart t); [|reflexivity]. destruct (instant_ops tzo sc _ _ _ _ J I) as (_ & E & _). rewrite E. cbn [rbind].
  replace (0 <=? x - y) with false by lia. reflexivity.
Qed.

Lemma start_end_ok sc start e x y ps t : tidy_props ps -> instant sc start x -> instant sc e y -> x < y ->
  exists ps' t', editTimingStartEnd tzo start e (ps, t) = ((ps', t'), Ok tt) /\
    others_kept ps ps' /\ one_date (lit "DTSTART") ps' start /\ absent (lit "DURATION") ps' /\ absent (lit "DUE") ps' /\
    (if one_day sc x y then absent (lit "DTEND") ps' else one_date (lit "DTEND") ps' e) /\
    t' = set_times t true start true e false /\
    forall k, read_again k ps ps' (fun t2 => tHasStart t2 = true /\ tStart t2 = start /\ instant sc (tEnd t2) y /\
      tDuration t2 = false /\ tHasEnd t2 = match k with VTODO => false | _ => negb (one_day sc x y) end).
Proof.
  intros T I J L. set (t' := set_times t true start true e false). unfold editTimingStartEnd. fold t'. rewrite (fix_fine sc t' x y I J L).
  set (qs := addProperty (date_prop (lit "DTSTART") start) (strip_times ps)).
  assert (DO : mDateOnly start = match sc with Dates => true | _ => false end) by (destruct sc; destruct I as [_ I]; destruct I; assumption).
  assert (Q : forall name, getProperties name qs = (if existsb (fun n => beq n name) time_names then [] else getProperties name ps) ++ if beq (lit "DTSTART") name then [date_prop (lit "DTSTART") start] else []).
  { intro name. unfold qs. rewrite get_date', get_strip by (assumption || (cbn; tauto)). reflexivity. }
  set (rs := addProperty (date_prop (lit "DTEND") e) qs).
  assert (R : forall name, getProperties name rs = getProperties name qs ++ if beq (lit "DTEND") name then [date_prop (lit "DTEND") e] else []).
  { intro name. unfold rs. apply get_date'. cbn; tauto. }
  assert (C : (if negb (mDateOnly start) then ((rs, t'), Ok tt) else match dt_ne tzo e (offsetDay start 1) with Raise x => ((qs, t'), Raise x) | Ok true => ((rs, t'), Ok tt) | Ok false => ((qs, t'), Ok tt) end)
              = ((if one_day sc x y then qs else rs, t'), Ok tt)).
  { rewrite DO. unfold one_day. destruct sc; try reflexivity. cbn [negb]. destruct (instant_ops tzo Dates _ _ _ _ J (day_after _ _ I)) as (_ & _ & _ & _ & _ & E). rewrite E.
    replace (x + 1 - y =? 0) with (y =? x + 1) by lia. destruct (y =? x + 1); reflexivity. }
  exists (if one_day sc x y then qs else rs), t'. split; [exact C|].
  assert (K : others_kept ps (if one_day sc x y then qs else rs)) by (destruct (one_day sc x y); [apply kept_1|apply kept_2]; cbn; tauto || exact T).
  assert (SD : getProperties (lit "DTSTART") (if one_day sc x y then qs else rs) = [date_prop (lit "DTSTART") start]) by (destruct (one_day sc x y); rewrite ?R, ?Q; reflexivity).
  assert (AD : absent (lit "DURATION") (if one_day sc x y then qs else rs)) by (unfold absent; destruct (one_day sc x y); rewrite ?R, ?Q; reflexivity).
  assert (AU : absent (lit "DUE") (if one_day sc x y then qs else rs)) by (unfold absent; destruct (one_day sc x y); rewrite ?R, ?Q; reflexivity).
  split; [exact K|]. split; [apply one_in; [cbn; tauto|exact SD]|]. split; [exact AD|]. split; [exact AU|]. split; [|split; [reflexivity|]].
  - destruct (one_day sc x y); [unfold absent; rewrite Q; reflexivity|]. apply one_in; [cbn; tauto|]. rewrite R, Q. reflexivity.
  - intros k t0 t1 F t3. destruct (finalise_kept k ps _ t0 t1 t3 K F) as (t2 & E & H & S & En). exists t2. split; [exact E|].
    rewrite (start_loaded _ _ SD) in H, S, En. split; [exact H|]. split; [exact S|].
    assert (LD : loadDuration (lit "DURATION") (if one_day sc x y then qs else rs) = None) by (apply load_none; exact AD).
    assert (LU : loadDateTime (lit "DUE") (if one_day sc x y then qs else rs) = None) by (apply load_none; exact AU).
    unfold set_end', load_due, load_end in En. rewrite LD, LU in En. destruct (one_day sc x y) eqn:OD.
    + unfold loadDateTime in En. rewrite (load_none datetime_of (lit "DTEND") qs) in En by (rewrite Q; reflexivity). destruct sc; try discriminate OD.
      rewrite DO in En. cbn [fst snd] in En. assert (Y : y = x + 1) by (unfold one_day in OD; lia). subst y.
      destruct k; injection En as -> -> ->; (split; [apply day_after; exact I|split; reflexivity]).
    + unfold loadDateTime in En. rewrite (load_one datetime_of (lit "DTEND") rs (date_prop (lit "DTEND") e)) in En by (rewrite R, Q; reflexivity).
      cbn [datetime_of date_prop pValue fst snd] in En. destruct k; injection En as -> -> ->; (split; [exact J|split; reflexivity]).
Qed.
End Edit.

Lemma start_duration_ok start du ps t : tidy_props ps ->
  exists ps' t', editTimingStartDuration start du (ps, t) = ((ps', t'), Ok tt) /\
    others_kept ps ps' /\ one_date (lit "DTSTART") ps' start /\ absent (lit "DTEND") ps' /\ absent (lit "DUE") ps' /\
    (if negb (mDateOnly start) || negb (dWeeks du =? 0) || (1 <? dDays du) then one_duration (lit "DURATION") ps' du else absent (lit "DURATION") ps') /\
    (exists e, t' = set_times t true start false e true /\ after start (getTotalSeconds du) e) /\
    forall k, read_again k ps ps' (fun t2 => tHasStart t2 = true /\ tStart t2 = start /\
      (mDateOnly start = false \/ dWeeks du <> 0 \/ 1 < dDays du \/ getTotalSeconds du / 86400 = 1 -> after start (getTotalSeconds du) (tEnd t2))).
Proof.
  intros T. unfold editTimingStartDuration. set (w := negb (mDateOnly start) || negb (dWeeks du =? 0) || (1 <? dDays du)).
  set (qs := addProperty (date_prop (lit "DTSTART") start) (strip_times ps)).
  set (t' := set_times t true start false _ true).
  assert (Q : forall name, getProperties name qs = (if existsb (fun n => beq n name) time_names then [] else getProperties name ps) ++ if beq (lit "DTSTART") name then [date_prop (lit "DTSTART") start] else []).
  { intro name. unfold qs. rewrite get_date', get_strip by (assumption || (cbn; tauto)). reflexivity. }
  set (rs := addProperty (duration_prop (lit "DURATION") du) qs).
  assert (R : forall name, getProperties name rs = getProperties name qs ++ if beq (lit "DURATION") name then [duration_prop (lit "DURATION") du] else []).
  { intro name. unfold rs. apply get_dur. cbn; tauto. }
  exists (if w then rs else qs), t'. split; [destruct w; reflexivity|].
  assert (K : others_kept ps (if w then rs else qs)) by (destruct w; [apply kept_3|apply kept_1]; cbn; tauto || exact T).
  assert (SD : getProperties (lit "DTSTART") (if w then rs else qs) = [date_prop (lit "DTSTART") start]) by (destruct w; rewrite ?R, ?Q; reflexivity).
  assert (AE : absent (lit "DTEND") (if w then rs else qs)) by (unfold absent; destruct w; rewrite ?R, ?Q; reflexivity).
  assert (AU : absent (lit "DUE") (if w then rs else qs)) by (unfold absent; destruct w; rewrite ?R, ?Q; reflexivity).
  split; [exact K|]. split; [apply one_in; [cbn; tauto|exact SD]|]. split; [exact AE|]. split; [exact AU|]. split; [|split].
  - destruct w; [unfold one_duration; rewrite R, Q; reflexivity|unfold absent; rewrite Q; reflexivity].
  - eexists. split; [reflexivity|]. apply (add_after (fun _ _ _ _ _ _ _ _ _ => 0)).
  - intros k t0 t1 F t3. destruct (finalise_kept k ps _ t0 t1 t3 K F) as (t2 & E & H & S & En). exists t2. split; [exact E|].
    rewrite (start_loaded _ _ SD) in H, S, En. split; [exact H|]. split; [exact S|]. intro Cd.
    assert (LD : loadDateTime (lit "DTEND") (if w then rs else qs) = None) by (apply load_none; exact AE).
    assert (LU : loadDateTime (lit "DUE") (if w then rs else qs) = None) by (apply load_none; exact AU).
    unfold set_end', load_due, load_end in En. rewrite LD, LU in En. destruct w eqn:W.
    + unfold loadDuration in En. rewrite (load_one duration_of (lit "DURATION") rs (duration_prop (lit "DURATION") du)) in En by (rewrite R, Q; reflexivity).
      cbn [duration_of duration_prop pValue fst snd] in En. assert (TE : tEnd t2 = addSeconds start (getTotalSeconds du)) by (destruct k; congruence).
      rewrite TE. apply (add_after (fun _ _ _ _ _ _ _ _ _ => 0)).
    + unfold loadDuration in En. rewrite (load_none duration_of (lit "DURATION") qs) in En by (rewrite Q; reflexivity). cbn [fst snd] in En.
      unfold w in W. destruct (mDateOnly start) eqn:DO; cbn [negb orb] in W; [|discriminate W].
      assert (TE : tEnd t2 = offsetDay start 1) by (destruct k; congruence). rewrite TE.
      intros sc x NO I. assert (D1 : getTotalSeconds du / 86400 = 1) by (destruct (dWeeks du =? 0) eqn:WW; cbn [negb orb] in W; [|discriminate]; lia).
      destruct sc; try (exfalso; destruct I as [_ [I _]]; congruence). unfold later. rewrite D1. apply day_after. exact I.
Qed.

Lemma due_ok due ps t : tidy_props ps ->
  exists ps' t', editTimingDue due (ps, t) = ((ps', t'), Ok tt) /\
    others_kept ps ps' /\ one_date (lit "DUE") ps' due /\ absent (lit "DTSTART") ps' /\ absent (lit "DTEND") ps' /\ absent (lit "DURATION") ps' /\
    t' = set_times t false due true due false /\
    read_again VTODO ps ps' (fun t2 => tHasStart t2 = false /\ tHasEnd t2 = true /\ tEnd t2 = due).
Proof.
  intro T. unfold editTimingDue. set (qs := addProperty (date_prop (lit "DUE") due) (strip_times ps)). set (t' := set_times _ _ _ _ _ _).
  assert (Q : forall name, getProperties name qs = (if existsb (fun n => beq n name) time_names then [] else getProperties name ps) ++ if beq (lit "DUE") name then [date_prop (lit "DUE") due] else []).
  { intro name. unfold qs. rewrite get_date', get_strip by (assumption || (cbn; tauto)). reflexivity. }
  assert (K : others_kept ps qs) by (apply kept_1; cbn; tauto || exact T).
  exists qs, t'. split; [reflexivity|]. split; [exact K|]. split; [apply one_in; [cbn; tauto|rewrite Q; reflexivity]|].
  split; [unfold absent; rewrite Q; reflexivity|]. split; [unfold absent; rewrite Q; reflexivity|]. split; [unfold absent; rewrite Q; reflexivity|]. split; [reflexivity|].
  intros t0 t1 F t3. destruct (finalise_kept VTODO ps _ t0 t1 t3 K F) as (t2 & E & H & S & En). exists t2. split; [exact E|].
  assert (LS : loadDateTime (lit "DTSTART") qs = None) by (apply load_none; rewrite Q; reflexivity). rewrite LS in H, En. split; [exact H|].
  assert (LU : loadDateTime (lit "DUE") qs = Some due) by (unfold loadDateTime; rewrite (load_one datetime_of (lit "DUE") qs (date_prop (lit "DUE") due)) by (rewrite Q; reflexivity); reflexivity).
  unfold set_end', load_due in En. rewrite LU in En. split; congruence.
Qed.
