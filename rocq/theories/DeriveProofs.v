(** Proofs for C59. *)
From Coq Require Import Lia ZifyBool ZifyNat Sorting.Permutation.
From Verif Require Import PyBase PyProofs CalSpec DateTimeModel DateTimeSpec DateTimeSpec2 DateTimeProofs PeriodModel PeriodSpec PeriodProofs PropertyModel PropertyProofs3
  ComponentModel ComponentProofs2 CalendarModel RecurExpandSpec RecurByPartsSpec RecurSetModel RecurUnionSpec TimingModel TimingSpec TimingProofs TimingProofs2 DupModel DupSpec DupProofs
  ValidateSpec ValidateProofs LineProofs  DurationProofs DeriveModel DeriveSpec.


From Verif Require CalTzProofs.
Section Derive.
Variable tzo : tzid -> Z -> Z -> Z -> Z -> Z -> Z -> bool -> bool -> Z.

Lemma date_params name d : In name times -> (forall n, mTZID d <> TzInt n) -> forall key, assoc key (pParams (date_prop name d)) =
      if mDateOnly d then if beq key (lit "VALUE") then Some [(lit "VALUE", [lit "DATE"])] else None
      else match mTZUTC d, mTZID d with
           | false, TzName (z :: zs) => if beq key (lit "TZID") then Some [(lit "TZID", [z :: zs])] else None
           | _, _ => None
           end.
Proof.
  intros I T key. unfold date_prop. cbn [pParams].
  assert (S : setupValueParameter name [] (Some (Single (VDateTime d))) = if mDateOnly d then [(lit "VALUE", [(lit "VALUE", [lit "DATE"])])] else []).
  { destruct d as [Y M D h m s [] U Z O P Q]; destruct I as [<-|[<-|[<-|[]]]]; reflexivity. }
  rewrite S. destruct (mDateOnly d); cbn [negb andb].
  - cbn [assoc]. rewrite ComponentProofs2.beq_sym. reflexivity.
  - unfold local. destruct (mTZUTC d); cbn [negb andb]; [reflexivity|]. destruct (mTZID d) as [|[|z zs]|n] eqn:E; cbn [tz_true]; try reflexivity.
    + cbn [add_param assoc]. rewrite ComponentProofs2.beq_sym. reflexivity.
    + destruct (T n eq_refl).
Qed.

Lemma get_date name n d ps : In n times -> getProperties name (addProperty (date_prop n d) ps) = getProperties name ps ++ if beq n name then [date_prop n d] else [].
Proof. intro I. unfold addProperty. cbn [date_prop pName]. assert (U : upper n = n) by (destruct I as [<-|[<-|[<-|[]]]]; reflexivity). rewrite U. apply get_add. Qed.
Lemma get_stripped name ps : tidy_props ps ->
  getProperties name (removeProperties (lit "DTEND") (removeProperties (lit "DTSTART") (strip_recurrence ps))) =
  if existsb (fun n => beq n name) (rules_and_dates ++ times) then [] else getProperties name ps.
Proof.
  intro T. unfold strip_recurrence. rewrite !get_remove by (repeat apply tidy_remove; exact T). unfold rules_and_dates, times. cbn [existsb app].
  repeat match goal with |- context [beq ?a name] => let b := fresh in set (b := beq a name); clearbody b; destruct b; cbn [orb]; try reflexivity end.
Qed.
Definition added (name n : bytes) (d : dt) : list prop := if beq n name then [date_prop n d] else [].
Lemma get_derived name ps d e : tidy_props ps ->
  getProperties name (derived_props ps d e) =
  (if existsb (fun n => beq n name) (rules_and_dates ++ times) then [] else getProperties name ps) ++
  added name (lit "DTSTART") d ++ (match e with Some e => added name (lit "DTEND") e | None => [] end) ++ added name (lit "RECURRENCE-ID") d.
Proof.
  intro T. unfold derived_props. cbv zeta. rewrite get_date by (cbn; tauto). destruct e as [e|]; rewrite ?get_date by (cbn; tauto); rewrite get_stripped by exact T; unfold added;
    rewrite ?app_nil_r, <- ?app_assoc; reflexivity.
Qed.
Lemma exists_name name l : existsb (fun n => beq n name) l = true <-> In name l.
Proof. rewrite existsb_exists. split; [intros (x & I & E); apply beq_eq in E; subst; exact I|intro I; exists name; split; [exact I|apply beq_refl]]. Qed.
Lemma get_other name ps d e : tidy_props ps -> ~ In name (rules_and_dates ++ times) -> getProperties name (derived_props ps d e) = getProperties name ps.
Proof.
  intros T N. rewrite get_derived by exact T. destruct (existsb _ _) eqn:E; [apply exists_name in E; contradiction|].
  assert (A : forall n x, In n (rules_and_dates ++ times) -> added name n x = []).
  { intros n x I. unfold added. destruct (beq_case n name) as [[-> _]|[_ ->]]; [contradiction|reflexivity]. }
  destruct e; rewrite ?A by (cbn; tauto); cbn [app]; rewrite ?app_nil_r; reflexivity.
Qed.
Lemma get_rules name ps d e : tidy_props ps -> In name rules_and_dates -> getProperties name (derived_props ps d e) = [].
Proof. intros T I. rewrite get_derived by exact T. destruct I as [<-|[<-|[<-|[<-|[]]]]]; destruct e; reflexivity. Qed.
Lemma get_start ps d e : tidy_props ps -> getProperties (lit "DTSTART") (derived_props ps d e) = [date_prop (lit "DTSTART") d].
Proof. intro T. rewrite get_derived by exact T. destruct e; reflexivity. Qed.
Lemma get_end ps d e : tidy_props ps -> getProperties (lit "DTEND") (derived_props ps d e) = match e with Some e => [date_prop (lit "DTEND") e] | None => [] end.
Proof. intro T. rewrite get_derived by exact T. destruct e; reflexivity. Qed.
Lemma get_rid ps d e : tidy_props ps -> getProperties (lit "RECURRENCE-ID") (derived_props ps d e) = [date_prop (lit "RECURRENCE-ID") d].
Proof. intro T. rewrite get_derived by exact T. destruct e; reflexivity. Qed.
Lemma one name ps d : In name times -> getProperties name ps = [date_prop name d] -> one_date name ps d.
Proof. intros I E. exists (date_prop name d). split; [exact E|]. split; [reflexivity|]. split; [reflexivity|]. apply date_params. exact I. Qed.

Lemma no_range d : assoc (lit "RANGE") (pParams (date_prop (lit "RECURRENCE-ID") d)) = None /\
  RecurModel.assoc (lit "RANGE") (pParams (date_prop (lit "RECURRENCE-ID") d)) = None.
Proof.
  unfold date_prop. cbn [pParams].
  assert (S : setupValueParameter (lit "RECURRENCE-ID") [] (Some (Single (VDateTime d))) = if mDateOnly d then [(lit "VALUE", [(lit "VALUE", [lit "DATE"])])] else []).
  { destruct d as [Y M D h m s [] U Z O P Q]; reflexivity. }
  rewrite S. destruct (mDateOnly d); [split; reflexivity|]. destruct (local d); split; reflexivity.
Qed.

Lemma load_same {A} (get : option value -> option A) name ps qs : getProperties name ps = getProperties name qs -> load get name ps = load get name qs.
Proof. intro E. unfold load, findFirstProperty. rewrite E. reflexivity. Qed.
Lemma load_one {A} (get : option value -> option A) name ps p : getProperties name ps = [p] -> load get name ps = get (pValue p).
Proof. intro E. unfold load, findFirstProperty. rewrite E. reflexivity. Qed.
Lemma load_none {A} (get : option value -> option A) name ps : getProperties name ps = [] -> load get name ps = None.
Proof. intro E. unfold load, findFirstProperty. rewrite E. reflexivity. Qed.
Lemma load_dur ps du : loadDuration (lit "DURATION") ps = Some du -> has_duration ps du.
Proof.
  unfold loadDuration, load, findFirstProperty. intro E. destruct (getProperties (lit "DURATION") ps) as [|p l] eqn:G; [discriminate|]. cbn [hd_error] in E.
  exists p, l. split; [exact G|]. unfold duration_of in E. destruct (pValue p) as [[[]|]|]; try discriminate. congruence.
Qed.

Definition set_end (k : kind) (start : dt) (ps : props) : bool * dt * bool :=
  match k with VTODO => load_due start ps (load_end start ps) | _ => load_end start ps end.
Lemma timing_derived k ps d e t : tidy_props ps ->
  timing_finalise k (derived_props ps d e) t =
  Ok (mkTiming (match loadDateTime (lit "DTSTAMP") ps with Some d => d | None => tStamp t end) true d
        (fst (fst (set_end k d (derived_props ps d e)))) (snd (fst (set_end k d (derived_props ps d e)))) (snd (set_end k d (derived_props ps d e)))
        true (Some d) false false None).
Proof.
  intro T. unfold timing_finalise. cbv zeta.
  assert (S : loadDateTime (lit "DTSTART") (derived_props ps d e) = Some d) by (unfold loadDateTime; rewrite (load_one _ _ _ _ (get_start ps d e T)); reflexivity).
  assert (R : loadDateTime (lit "RECURRENCE-ID") (derived_props ps d e) = Some d) by (unfold loadDateTime; rewrite (load_one _ _ _ _ (get_rid ps d e T)); reflexivity).
  assert (ST : loadDateTime (lit "DTSTAMP") (derived_props ps d e) = loadDateTime (lit "DTSTAMP") ps).
  { apply load_same, get_other; [exact T|]. intro I. repeat (destruct I as [I|I]; [discriminate I|]). destruct I. }
  assert (CN : (countProperty (lit "RECURRENCE-ID") (derived_props ps d e) =? 0)%nat = false) by (unfold countProperty; rewrite (get_rid ps d e T); reflexivity).
  rewrite S, R, ST, CN. cbn [negb].
  unfold load_range, findFirstProperty. rewrite (get_rid ps d e T). cbn [hd_error]. rewrite (proj1 (no_range d)) || rewrite (proj2 (no_range d)). cbn [rbind fst snd].
  assert (LS : load_set (derived_props ps d e) = None).
  { unfold load_set. cbv zeta. unfold countProperty. rewrite !(get_rules _ ps d e T) by (cbn; tauto). reflexivity. }
  rewrite LS. unfold set_end. destruct k; try (destruct (load_end d (derived_props ps d e)) as [[? ?] ?]; reflexivity).
  destruct (load_due d (derived_props ps d e) (load_end d (derived_props ps d e))) as [[? ?] ?]; reflexivity.
Qed.
Lemma state_derived s ps d e : tidy_props ps -> load_uid s ps = sUID s ->
  exists s', recur_finalise s (derived_props ps d e) = Ok s' /\ sUID s' = sUID s /\ sRid s' = Some d.
Proof.
  intros T U. unfold recur_finalise. cbv zeta.
  assert (R : loadDateTime (lit "RECURRENCE-ID") (derived_props ps d e) = Some d) by (unfold loadDateTime; rewrite (load_one _ _ _ _ (get_rid ps d e T)); reflexivity).
  assert (L : load_uid s (derived_props ps d e) = sUID s).
  { rewrite <- U. unfold load_uid, loadString. rewrite (load_same text_of (lit "UID") (derived_props ps d e) ps); [reflexivity|]. apply get_other; [exact T|].
    intro I. repeat (destruct I as [I|I]; [discriminate I|]). destruct I. }
  rewrite R, L. unfold countProperty, findFirstProperty. rewrite (get_rid ps d e T). cbn [List.length Nat.eqb hd_error].
  unfold check_param. rewrite (proj1 (no_range d)) || rewrite (proj2 (no_range d)). cbn [rbind]. eexists. split; [reflexivity|]. split; reflexivity.
Qed.
Lemma add_after d n : after d n (addSeconds d n).
Proof. intros sc x NO I. apply (add_later tzo); assumption. Qed.

Lemma derive_ok uuid c t rid n : is_recur (cKind c) = true -> ready c -> tidy_props (cProps c) -> finalised c t -> subDateTime tzo (tEnd t) (tStart t) = Ok n ->
  exists new t', derive tzo uuid c t rid = Ok (new, t') /\ derived c t n (derived_start tzo (tStart t) rid) new t'.
Proof.
  intros K R T [[t0 F] U] N. destruct c as [k s ps subs]. cbn [cKind cProps cState] in *. unfold getUID in U. cbn [cState] in U.
  destruct (copies uuid _ R []) as (c' & D & CO). pose proof (copies_keep uuid _ R [] c' D) as KE.
  inversion CO as [? ? s' ? ? subs' Uid Rec _ _ _ Subs]; subst. inversion KE; subst. unfold derive. rewrite D. cbn [rbind]. rewrite N. cbn [rbind].
  set (d := derived_start tzo (tStart t) rid). rewrite total_setDuration.
  set (e := if tDuration t then None else Some (addSeconds d n)).
  assert (KV : k <> VCALENDAR) by (intros ->; discriminate). assert (UU : load_uid (dup_state k u s) ps = sUID (dup_state k u s)).
  { rewrite Uid by exact KV. rewrite <- U. unfold load_uid. destruct (loadString _ ps); [reflexivity|]. rewrite Uid by exact KV. reflexivity. }
  destruct (state_derived (dup_state k u s) ps d e T UU) as (s2 & E2 & U2 & R2).
  assert (FI : finalise tzo (Comp k (dup_state k u s) (derived_props ps d e) subs') = Ok (Comp k s2 (derived_props ps d e) subs')).
  { unfold finalise. destruct k; try discriminate K; rewrite E2; reflexivity. }
  rewrite FI. cbn [rbind]. rewrite timing_derived by exact T. cbn [rbind]. eexists. eexists. split; [reflexivity|].
  unfold derived. cbn [cKind cProps cSubs tHasStart tStart tHasRid tRid tFuture tPrior tEnd]. unfold getUID, getRecurrenceID. cbn [cState].
  split; [reflexivity|]. split; [rewrite U2; apply Uid; exact KV|]. split; [exact Subs|].
  split; [intros name NI; apply get_other; assumption|]. split; [intros name NI; apply get_rules; assumption|].
  split; [apply one; [cbn; tauto|apply get_start; exact T]|]. split; [apply one; [cbn; tauto|apply get_rid; exact T]|]. split; [exact R2|].
  do 7 (split; [reflexivity|]).
  assert (DU : loadDuration (lit "DURATION") (derived_props ps d e) = loadDuration (lit "DURATION") ps).
  { apply load_same, get_other; [exact T|]. intro I. repeat (destruct I as [I|I]; [discriminate I|]). destruct I. }
  assert (DUE : getProperties (lit "DUE") (derived_props ps d e) = getProperties (lit "DUE") ps).
  { apply get_other; [exact T|]. intro I. repeat (destruct I as [I|I]; [discriminate I|]). destruct I. }
  (* what tDuration says about the master *)
  assert (TD : tDuration t = match loadDateTime (lit "DTEND") ps, loadDuration (lit "DURATION") ps with None, Some _ => true | _, _ => false end).
  { revert F. unfold timing_finalise. cbv zeta. set (st := match loadDateTime (lit "DTSTART") ps with Some d => d | None => tStart t0 end). clearbody st.
    match goal with |- context [rbind ?a _] => destruct a as [[[ri fu] pr]|]; [|discriminate] end. cbn [rbind].
    assert (G : snd (match k with VTODO => load_due st ps (load_end st ps) | _ => load_end st ps end) =
                match loadDateTime (lit "DTEND") ps, loadDuration (lit "DURATION") ps with None, Some _ => true | _, _ => false end).
    { assert (G1 : snd (load_end st ps) = match loadDateTime (lit "DTEND") ps, loadDuration (lit "DURATION") ps with None, Some _ => true | _, _ => false end).
      { unfold load_end. destruct (loadDateTime _ ps); [reflexivity|]. destruct (loadDuration _ ps); reflexivity. }
      assert (G2 : snd (load_due st ps (load_end st ps)) = snd (load_end st ps)).
      { unfold load_due. destruct (loadDateTime (lit "DUE") ps); [reflexivity|]. destruct (loadDuration (lit "DURATION") ps); reflexivity. }
      destruct k; congruence. }
    match goal with |- context [let '(_, _) := ?a in _] => destruct a as [[he en] du] end. cbn [snd] in G. intro Q. apply Ok_inj in Q. subst t. cbn [tDuration]. exact G. }
  subst e. destruct (tDuration t) eqn:TDE.
  - split; [rewrite get_end by exact T; reflexivity|]. intro C.
    destruct (loadDateTime (lit "DTEND") ps) eqn:LE; [discriminate|]. destruct (loadDuration (lit "DURATION") ps) as [du|] eqn:LD; [|discriminate].
    exists du. split; [apply load_dur; exact LD|].
    assert (NE : loadDateTime (lit "DTEND") (derived_props ps d None) = None) by (apply load_none; rewrite get_end by exact T; reflexivity).
    unfold set_end. destruct k; try discriminate K; unfold load_due, load_end; rewrite ?NE, ?DU; cbn [fst snd]; try apply add_after.
    destruct C as [C|C]; [|contradiction C; reflexivity]. unfold loadDateTime. rewrite (load_none datetime_of (lit "DUE")) by (rewrite DUE; exact C). cbn [fst snd]. apply add_after.
  - exists (addSeconds d n). split; [apply one; [cbn; tauto|rewrite get_end by exact T; reflexivity]|]. split; [apply add_after|]. intro C.
    assert (NE : loadDateTime (lit "DTEND") (derived_props ps d (Some (addSeconds d n))) = Some (addSeconds d n))
      by (unfold loadDateTime; rewrite (load_one _ _ _ (date_prop (lit "DTEND") (addSeconds d n))); [reflexivity|rewrite get_end by exact T; reflexivity]).
    unfold set_end. destruct k; try discriminate K; unfold load_due, load_end; rewrite ?NE; cbn [fst snd]; try reflexivity.
    destruct C as [[C1 C2]|C]; [|contradiction C; reflexivity]. unfold loadDateTime, loadDuration.
    rewrite (load_none datetime_of (lit "DUE")) by (rewrite DUE; exact C1).
    rewrite (load_none duration_of (lit "DURATION")); [reflexivity|]. rewrite get_other; [exact C2|exact T|]. intro I. repeat (destruct I as [I|I]; [discriminate I|]). destruct I.
Qed.

(** ** The calendar. *)
Lemma master_first c i : first_master c i -> masterComponent c = Some i.
Proof.
  intros (l & r & E & K & R & F). unfold masterComponent. rewrite E. clear E. induction F as [|j l H F IH]; cbn [app find].
  - rewrite K, R. reflexivity.
  - destruct (is_recur (cKind (heap c j))); cbn [andb]; [|exact IH]. specialize (H eq_refl). destruct (getRecurrenceID (heap c j)); [exact IH|congruence].
Qed.
Lemma no_master c : (forall i, In i (held c) -> is_recur (cKind (heap c i)) = true -> getRecurrenceID (heap c i) <> None) -> masterComponent c = None.
Proof.
  unfold masterComponent. induction (held c) as [|i l IH]; intro H; [reflexivity|]. cbn [find]. rewrite IH by (intros j J; apply H; right; exact J).
  specialize (H i (or_introl eq_refl)). destruct (is_recur (cKind (heap c i))); [|reflexivity]. specialize (H eq_refl). destruct (getRecurrenceID (heap c i)); [reflexivity|congruence].
Qed.
Lemma component_ok uuid c i tim rid n : first_master c i -> ready (heap c i) -> tidy_props (cProps (heap c i)) -> finalised (heap c i) (tim i) ->
  subDateTime tzo (tEnd (tim i)) (tStart (tim i)) = Ok n ->
  exists new t', deriveComponent tzo uuid c tim rid = Ok (Some (new, t')) /\ derived (heap c i) (tim i) n (derived_start tzo (tStart (tim i)) rid) new t'.
Proof.
  intros M R T F N. assert (K : is_recur (cKind (heap c i)) = true) by (destruct M as (l & r & _ & K & _); exact K).
  destruct (derive_ok uuid _ _ rid n K R T F N) as (new & t' & E & D). exists new, t'. split; [|exact D]. unfold deriveComponent. rewrite (master_first c i M), E. reflexivity.
Qed.

(** ** The start. *)
Lemma start_same start rid : mDateOnly start = false -> same_zone start rid -> derived_start tzo start rid = rid.
Proof.
  intros D [U Z]. unfold derived_start. rewrite D. cbn [negb]. destruct (local start); [|reflexivity]. rewrite U, Z.
  unfold adjustTimezone. rewrite Bool.eqb_reflx. assert (E : tz_eqb (mTZID rid) (mTZID rid) = true) by (apply CalTzProofs.tz_eqb_eq; reflexivity). rewrite E. reflexivity.
Qed.
Lemma start_fixed start rid : mDateOnly start = false -> local start = false -> derived_start tzo start rid = rid.
Proof. intros D L. unfold derived_start. rewrite D, L. reflexivity. Qed.
Lemma start_zone start rid : mDateOnly start = false -> local start = true -> derived_start tzo start rid = adjustTimezone tzo rid (mTZUTC start) (mTZID start).
Proof. intros D L. unfold derived_start. rewrite D, L. reflexivity. Qed.
Lemma start_date start rid : mDateOnly start = true -> mDateOnly rid = true -> visible (derived_start tzo start rid) = visible rid.
Proof. intros D L. unfold derived_start. rewrite D. cbn [negb]. unfold setDateOnly, changed, visible, ymd. cbn. rewrite L. reflexivity. Qed.

(** ** The instances. *)
Lemma no_duration c t : finalised c t -> cKind c <> VTODO -> tHasEnd t = true -> tDuration t = false.
Proof.
  intros [[t0 F] _] K H. revert F. unfold timing_finalise. cbv zeta. set (st := match loadDateTime (lit "DTSTART") (cProps c) with Some d => d | None => tStart t0 end). clearbody st.
  match goal with |- context [rbind ?a _] => destruct a as [[[ri fu] pr]|]; [|discriminate] end. cbn [rbind].
  assert (G : match cKind c with VTODO => load_due st (cProps c) (load_end st (cProps c)) | _ => load_end st (cProps c) end = load_end st (cProps c)) by (destruct (cKind c); congruence).
  rewrite G. unfold load_end. destruct (loadDateTime (lit "DTEND") (cProps c)); [|destruct (loadDuration (lit "DURATION") (cProps c))];
    intro Q; apply Ok_inj in Q; subst t; try reflexivity; discriminate.
Qed.
Lemma same_length {A B} (P : A -> B -> Prop) l m : Forall2 P l m -> List.length l = List.length m.
Proof. induction 1; cbn [List.length]; congruence. Qed.
Lemma takes_place_iff sc (NO : sc <> Offsets) xs P f : holds_exactly sc (map xStart xs) P ->
  Forall (fun x => forall p, instant sc (xStart x) p -> instant sc (xEnd x) (f p)) xs ->
  forall p q, takes_place sc xs p q <-> P p /\ q = f p.
Proof.
  intros (l & F & _ & M) E p q. split.
  - intros (x & I & Ip & Iq). rewrite Forall_forall in E. pose proof (E x I p Ip) as Ie. split; [|exact (instant_fun tzo sc _ _ _ Iq Ie)].
    apply M. clear - tzo F I Ip. revert l F. induction xs as [|y xs IH]; intros l F; [destruct I|]. cbn [map] in F. inversion F as [|? z ? l' Fz Fl]; subst.
    destruct I as [->|I]; [left; exact (instant_fun tzo sc _ _ _ Fz Ip)|right; exact (IH I l' Fl)].
  - intros [Pp ->]. apply M in Pp. rewrite Forall_forall in E. assert (X : exists x, In x xs /\ instant sc (xStart x) p).
    { clear - F Pp. revert l F Pp. induction xs as [|y xs IH]; intros l F Pp; cbn [map] in F; inversion F as [|? z ? l' Fz Fl]; subst; [destruct Pp|].
      destruct Pp as [->|Pp]; [exists y; split; [left; reflexivity|exact Fz]|]. destruct (IH l' Fl Pp) as (x & I & J). exists x. split; [right; exact I|exact J]. }
    destruct X as (x & I & J). exists x. split; [exact I|]. split; [exact J|]. apply E; assumption.
Qed.
Lemma replaces sc order i j c t s rid x range a w b overrides n uuid :
  permutes order -> is_recur (cKind c) = true -> cKind c <> VTODO -> ready c -> tidy_props (cProps c) -> finalised c t ->
  tSet t = Some s -> hasRecurrence s = true -> tHasRid t = false -> tHasEnd t = true -> subDateTime tzo (tEnd t) (tStart t) = Ok n ->
  set_reachable tzo order sc 0 (tStart t) s -> set_call tzo sc 0 s (tStart t) range a w b -> overrides_ok tzo sc (tStart t) overrides ->
  let d := derived_start tzo (tStart t) rid in
  instant sc d x -> same_zone (tStart t) d -> honest tzo d ->
  included sc 0 (tStart t) a w b s x -> ~ excluded sc 0 (tStart t) a w b s x -> ~ replaced sc overrides x -> w < later sc x n ->
  exists new t', derive tzo uuid c t rid = Ok (new, t') /\
  exists N, forall fuel, (N <= fuel)%nat -> exists t1 t2 xs ys zs,
    expandPeriod tzo order fuel i t (InCalendar overrides) range = Some (t1, (xs, Ok tt)) /\
    expandPeriod tzo order fuel i t (InCalendar (overrides ++ [(j, t')])) range = Some (t2, (ys, Ok tt)) /\
    (forall p, expandPeriod tzo order fuel j t' p range = Some (t', (zs, Ok tt))) /\
    zs <> [] /\ (forall p q, takes_place sc (ys ++ zs) p q <-> takes_place sc xs p q) /\ List.length (ys ++ zs) = List.length xs.
Proof.
  intros Ord K KT R T F Es Hs Hr He N RE C Ov d Ix SZ HO Inc Exc Rep W.
  destruct (derive_ok uuid c t rid n K R T F N) as (new & t' & E & D). exists new, t'. split; [exact E|]. fold d in D.
  pose proof (no_duration c t F KT He) as ND. unfold derived in D. rewrite ND in D.
  destruct D as (_ & _ & _ & _ & _ & _ & _ & _ & HS & SD & HR & RD & FU & PR & NR & e & _ & AF & TE). specialize (TE (or_intror KT)).
  assert (NO : sc <> Offsets) by (destruct C as (NO & _); exact NO).
  assert (Ov2 : overrides_ok tzo sc (tStart t) (overrides ++ [(j, t')])).
  { destruct Ov as (F1 & F2 & F3). split; [|split].
    - apply Forall_app. split; [exact F1|]. constructor; [|constructor]. exists d. split; [exact RD|]. split; [exists x; exact Ix|]. split; assumption.
    - rewrite filter_app. cbn [filter snd]. rewrite PR, app_nil_r. exact F2.
    - rewrite filter_app. cbn [filter snd]. rewrite FU, app_nil_r. exact F3. }
  destruct (TimingProofs.recurring tzo sc i t s range a w b order overrides n Ord Es Hs Hr RE C Ov (fun _ => N)) as (N1 & H1).
  destruct (TimingProofs.recurring tzo sc i t s range a w b order (overrides ++ [(j, t')]) n Ord Es Hs Hr RE C Ov2 (fun _ => N)) as (N2 & H2).
  exists (Nat.max N1 N2). intros fuel L. destruct (H1 fuel ltac:(lia)) as (t1 & xs & E1 & X1 & A1 & _). destruct (H2 fuel ltac:(lia)) as (t2 & ys & E2 & X2 & A2 & _).
  rewrite He in A1, A2. assert (XB : x < b) by (destruct Inc as [[_ I]|[[I _]|(? & ? & ? & _ & _ & _ & _ & I & _)]]; lia).
  assert (Ie : instant sc e (later sc x n)) by (apply AF; assumption).
  destruct C as (_ & Ia & _ & Iw & Ib & _).
  exists t1, t2, xs, ys, [mkExpanded j d e true]. split; [exact E1|]. split; [exact E2|]. split.
  { intro p. rewrite (single_expand tzo sc order fuel j t' p range x (later sc x n) w b); try assumption.
    - assert (B : (w <? later sc x n) && (x <? b) = true) by (apply andb_true_iff; split; lia). rewrite B, SD, TE, HR. reflexivity.
    - intros _. rewrite RD. discriminate.
    - rewrite SD. exact Ix.
    - rewrite TE. exact Ie. }
  split; [discriminate|].
  assert (A1' : Forall (fun y => forall p, instant sc (xStart y) p -> instant sc (xEnd y) (later sc p n)) xs) by (apply (Forall_impl _ (fun y H => proj2 (proj2 H)) A1)).
  assert (A2' : Forall (fun y => forall p, instant sc (xStart y) p -> instant sc (xEnd y) (later sc p n)) ys) by (apply (Forall_impl _ (fun y H => proj2 (proj2 H)) A2)).
  assert (RP : forall p, replaced sc (overrides ++ [(j, t')]) p <-> replaced sc overrides p \/ p = x).
  { intro p. unfold replaced. split.
    - intros (o & dd & I & Eo & Io). apply in_app_or in I. destruct I as [I|[<-|[]]]; [left; exists o, dd; auto|right]. cbn [snd] in Eo. rewrite RD in Eo.
      assert (dd = d) by congruence. subst dd. exact (instant_fun tzo sc _ _ _ Io Ix).
    - intros [(o & dd & I & Eo & Io)| ->]; [exists o, dd; split; [apply in_or_app; left; exact I|auto]|]. exists (j, t'), d. split; [apply in_or_app; right; left; reflexivity|auto]. }
  split.
  - intros p q. assert (Z : takes_place sc (ys ++ [mkExpanded j d e true]) p q <-> takes_place sc ys p q \/ (p = x /\ q = later sc x n)).
    { unfold takes_place. split.
      - intros (y & I & Jp & Jq). apply in_app_or in I. destruct I as [I|[<-|[]]]; [left; exists y; auto|right]. cbn [xStart xEnd] in *.
        split; [exact (instant_fun tzo sc _ _ _ Jp Ix)|exact (instant_fun tzo sc _ _ _ Jq Ie)].
      - intros [(y & I & J)|[-> ->]]; [exists y; split; [apply in_or_app; left; exact I|exact J]|].
        eexists. split; [apply in_or_app; right; left; reflexivity|]. cbn [xStart xEnd]. split; assumption. }
    rewrite Z, (takes_place_iff sc NO ys _ _ X2 A2'), (takes_place_iff sc NO xs _ _ X1 A1'). cbv beta. rewrite RP. split.
    + intros [((I & G & H) & ->)|[-> ->]]; [tauto|]. tauto.
    + intros [(I & G & H) ->]. destruct (Z.eq_dec p x) as [->|Np]; [right; auto|left]. tauto.
  - destruct X1 as (l1 & F1 & ND1 & M1), X2 as (l2 & F2 & ND2 & M2). rewrite app_length. cbn [List.length].
    apply same_length in F1. apply same_length in F2. rewrite map_length in F1, F2. rewrite F1, F2.
    assert (P : Permutation (x :: l2) l1).
    { apply NoDup_Permutation; [constructor; [|exact ND2]|exact ND1|].
      - intro I. apply M2 in I. destruct I as (_ & _ & I). apply I, RP. right. reflexivity.
      - intro y. rewrite M1. cbn [In]. rewrite M2, RP. split.
        + intros [<-|(I & G & H)]; tauto.
        + intros (I & G & H). destruct (Z.eq_dec x y); [left; assumption|right]. intuition. }
    apply Permutation_length in P. cbn [List.length] in P. lia.
Qed.
End Derive.
