(** Proofs for C66. *)
From Verif Require Export AlarmSpec PyProofs LineProofs PropertyProofs MakeProofs DeriveProofs ValidateProofs ComponentProofs2 ComponentProofs4.
From Coq Require Import Lia ZifyBool ZifyNat.

Definition act_of (ps : props) (a : valarm) : Z * adata :=
  match loadString (lit "ACTION") ps with
  | Some t => let x := match assoc t action_map with Some x => x | None => 4 end in (x, load_action x ps)
  | None => (aAction a, aData a)
  end.
Definition trig_of (ps : props) (a : valarm) : res (bool * bool * dt * dur) :=
  match loadDateTime (lit "TRIGGER") ps, loadDuration (lit "TRIGGER") ps with
  | Some d, _ => Ok (true, aOnStart a, d, aBy a)
  | None, Some d => do s <- load_related (aOnStart a) (findFirstProperty (lit "TRIGGER") ps); Ok (false, s, aOn a, d)
  | None, None => Ok (aAbsolute a, aOnStart a, aOn a, aBy a)
  end.
Definition rep_of (ps : props) (a : valarm) : Z := match loadInteger (lit "REPEAT") ps with Some n => n | None => aRepeats a end.
Definition int_of (ps : props) (a : valarm) : dur := match loadDuration (lit "DURATION") ps with Some n => n | None => aInterval a end.
Definition stat_of (ps : props) (a : valarm) : Z :=
  match loadString (lit "X-MULBERRY-ALARM-STATUS") ps with
  | Some t => if beq t (lit "PENDING") then 0 else if beq t (lit "COMPLETED") then 1 else if beq t (lit "DISABLED") then 2 else 0
  | None => aStatus a
  end.
Definition last_of (ps : props) (a : valarm) : dt := match loadDateTime (lit "X-MULBERRY-LAST-TRIGGER") ps with Some d => d | None => aLast a end.

Lemma load_parts ps a :
  alarm_load ps a =
  do t <- trig_of ps a;
  let '(abs, s, on, by_) := t in
  Ok (mkAlarm (fst (act_of ps a)) abs s on by_ (rep_of ps a) (int_of ps a) (aStatusInit a) (stat_of ps a) (last_of ps a) (aDone a) (snd (act_of ps a))).
Proof.
  unfold alarm_load, trig_of, act_of, rep_of, int_of, stat_of, last_of. cbv zeta.
  destruct (loadString (lit "ACTION") ps) as [t|]; cbn [set_action set_trigger set_repeats set_status aAction aAbsolute aOnStart aOn aBy aRepeats aInterval aStatusInit aStatus aLast aDone aData fst snd];
  (destruct (loadDateTime (lit "TRIGGER") ps); cbn [rbind]; [reflexivity|]);
  (destruct (loadDuration (lit "TRIGGER") ps); cbn [rbind]; [|destruct a; reflexivity]);
  destruct (load_related (aOnStart a) _); reflexivity.
Qed.
Lemma load_some ps a b : alarm_load ps a = Ok b ->
  trig_of ps a = Ok (aAbsolute b, aOnStart b, aOn b, aBy b) /\ act_of ps a = (aAction b, aData b) /\ rep_of ps a = aRepeats b /\ int_of ps a = aInterval b /\
  stat_of ps a = aStatus b /\ last_of ps a = aLast b.
Proof.
  rewrite load_parts. destruct (trig_of ps a) as [[[[x s] on] by_]|]; [|discriminate]. cbn [rbind]. intro E. injection E as <-. cbn.
  rewrite <- surjective_pairing. repeat split; reflexivity.
Qed.
Lemma load_make ps a x s on by_ : trig_of ps a = Ok (x, s, on, by_) ->
  alarm_load ps a =
  Ok (mkAlarm (fst (act_of ps a)) x s on by_ (rep_of ps a) (int_of ps a) (aStatusInit a) (stat_of ps a) (last_of ps a) (aDone a) (snd (act_of ps a))).
Proof. rewrite load_parts. intros ->. reflexivity. Qed.

Lemma get_put name n p ps : tidy_props ps -> pName p = n -> upper n = n ->
  getProperties name (addProperty p (removeProperties n ps)) = if beq n name then [p] else getProperties name ps.
Proof.
  intros T E U. unfold addProperty. rewrite E, U, get_add, get_remove by exact T. destruct (beq n name); [reflexivity|]. apply app_nil_r.
Qed.
Lemma tidy_addp p ps : upper (pName p) = pName p -> tidy_props ps -> tidy_props (addProperty p ps).
Proof.
  intros U [N F]. unfold addProperty. rewrite U. split; [apply add_NoDup; assumption|]. clear N.
  induction F as [|[k l] ps [F1 F2] F IH]; cbn [add_prop].
  - repeat constructor; cbn [fst snd]; [discriminate|assumption].
  - cbn [fst snd] in *. destruct (beq_case k (pName p)) as [[-> E]|[M E]]; rewrite E.
    + constructor; [|assumption]. cbn [fst snd]. split; [destruct l; discriminate|]. apply Forall_app. split; [assumption|]. repeat constructor. assumption.
    + constructor; [split; assumption|assumption].
Qed.

(** What is loaded depends on the properties read. *)
Lemma act_same ps qs a : (forall n, In n action_names -> getProperties n ps = getProperties n qs) -> act_of ps a = act_of qs a.
Proof.
  intro H. unfold act_of, load_action, loadString.
  rewrite (load_same _ _ _ _ (H (lit "ACTION") ltac:(cbn; tauto))), (load_same _ _ _ _ (H (lit "X-MULBERRY-SPEAK-TEXT") ltac:(cbn; tauto))),
    (load_same _ _ _ _ (H (lit "DESCRIPTION") ltac:(cbn; tauto))), (load_same _ _ _ _ (H (lit "SUMMARY") ltac:(cbn; tauto))),
    (load_same _ _ _ _ (H (lit "URL") ltac:(cbn; tauto))), (H (lit "ATTENDEE") ltac:(cbn; tauto)). reflexivity.
Qed.
Lemma trig_same ps qs a : getProperties (lit "TRIGGER") ps = getProperties (lit "TRIGGER") qs -> trig_of ps a = trig_of qs a.
Proof. intro H. unfold trig_of, loadDateTime, loadDuration, load, findFirstProperty. rewrite H. reflexivity. Qed.
Lemma rep_same ps qs a : getProperties (lit "REPEAT") ps = getProperties (lit "REPEAT") qs -> rep_of ps a = rep_of qs a.
Proof. intro H. unfold rep_of, loadInteger. rewrite (load_same _ _ _ _ H). reflexivity. Qed.
Lemma int_same ps qs a : getProperties (lit "DURATION") ps = getProperties (lit "DURATION") qs -> int_of ps a = int_of qs a.
Proof. intro H. unfold int_of, loadDuration. rewrite (load_same _ _ _ _ H). reflexivity. Qed.
Lemma stat_same ps qs a : getProperties (lit "X-MULBERRY-ALARM-STATUS") ps = getProperties (lit "X-MULBERRY-ALARM-STATUS") qs -> stat_of ps a = stat_of qs a.
Proof. intro H. unfold stat_of, loadString. rewrite (load_same _ _ _ _ H). reflexivity. Qed.
Lemma last_same ps qs a : getProperties (lit "X-MULBERRY-LAST-TRIGGER") ps = getProperties (lit "X-MULBERRY-LAST-TRIGGER") qs -> last_of ps a = last_of qs a.
Proof. intro H. unfold last_of, loadDateTime. rewrite (load_same _ _ _ _ H). reflexivity. Qed.

(** After one call. *)
Definition done (e : edit_call) (ps ps' : props) (a a' : valarm) : Prop :=
  tidy_props ps' /\ kept_but (touched e) ps ps' /\
  forall b, alarm_load ps newAlarm = Ok b -> same_alarm a b -> exists b', alarm_load ps' newAlarm = Ok b' /\ same_alarm a' b'.

Ltac not_in := let H := fresh in intro H; repeat (destruct H as [H|H]; [discriminate H|]); destruct H.
Ltac same_loads K := first
  [ apply act_same; let n := fresh in let I := fresh in intros n I; apply K; clear - I; repeat (destruct I as [<-|I]; [not_in|]); destruct I
  | apply trig_same; apply K; not_in | apply rep_same; apply K; not_in | apply int_same; apply K; not_in | apply stat_same; apply K; not_in
  | apply last_same; apply K; not_in ].

Lemma put_kept n p ps : tidy_props ps -> pName p = n -> upper n = n -> kept_but [n] ps (addProperty p (removeProperties n ps)).
Proof.
  intros T E U name I. rewrite (get_put name n p ps T E U). destruct (beq_case n name) as [[<- _]|[_ ->]]; [|reflexivity].
  destruct I. left. reflexivity.
Qed.
Lemma put_tidy n p ps : tidy_props ps -> pName p = n -> upper n = n -> tidy_props (addProperty p (removeProperties n ps)).
Proof. intros T E U. apply tidy_addp; [rewrite E; exact U|]. apply tidy_remove. exact T. Qed.
Lemma put_self n p ps : tidy_props ps -> pName p = n -> upper n = n -> getProperties n (addProperty p (removeProperties n ps)) = [p].
Proof. intros T E U. rewrite (get_put n n p ps T E U), beq_refl. reflexivity. Qed.

Lemma status_done s ps a : 0 <= s <= 2 -> tidy_props ps -> exists ps' a', editStatus s (ps, a) = ((ps', a'), Ok tt) /\ done (EditStatus s) ps ps' a a'.
Proof.
  intros S T. unfold editStatus. eexists _, _. split; [reflexivity|].
  set (p := text_prop 0 _ None (status_text s)). set (ps' := addProperty _ _).
  pose proof (put_kept (lit "X-MULBERRY-ALARM-STATUS") p ps T eq_refl eq_refl) as K. fold ps' in K.
  split; [apply put_tidy; [exact T|reflexivity..]|]. split; [exact K|].
  intros b L (A1 & A2 & A3 & A4 & A5 & A6 & A7 & A8). apply load_some in L as (L1 & L2 & L3 & L4 & L5 & L6).
  assert (T1 : trig_of ps' newAlarm = Ok (aAbsolute b, aOnStart b, aOn b, aBy b)) by (rewrite <- L1; same_loads K).
  eexists. split; [exact (load_make _ _ _ _ _ _ T1)|].
  assert (T2 : act_of ps' newAlarm = (aAction b, aData b)) by (rewrite <- L2; same_loads K).
  assert (T3 : rep_of ps' newAlarm = aRepeats b) by (rewrite <- L3; same_loads K).
  assert (T4 : int_of ps' newAlarm = aInterval b) by (rewrite <- L4; same_loads K).
  assert (T6 : last_of ps' newAlarm = aLast b) by (rewrite <- L6; same_loads K).
  assert (T5 : stat_of ps' newAlarm = s).
  { unfold stat_of, loadString. rewrite (load_one _ _ ps' p) by (apply put_self; [exact T|reflexivity..]).
    assert (C : s = 0 \/ s = 1 \/ s = 2) by lia. destruct C as [->|[->| ->]]; reflexivity. }
  rewrite T2, T3, T4, T5, T6. unfold same_alarm, alarm_rel. cbn. repeat split; assumption.
Qed.

Lemma on_done d ps a : tidy_props ps -> exists ps' a', editTriggerOn d (ps, a) = ((ps', a'), Ok tt) /\ done (EditTriggerOn d) ps ps' a a'.
Proof.
  intro T. unfold editTriggerOn. eexists _, _. split; [reflexivity|].
  set (p := date_prop _ d). set (ps' := addProperty _ _).
  pose proof (put_kept (lit "TRIGGER") p ps T eq_refl eq_refl) as K. fold ps' in K.
  split; [apply put_tidy; [exact T|reflexivity..]|]. split; [exact K|].
  intros b L (A1 & A2 & A3 & A4 & A5 & A6 & A7 & A8). apply load_some in L as (L1 & L2 & L3 & L4 & L5 & L6).
  assert (T1 : trig_of ps' newAlarm = Ok (true, true, d, setDuration 3600)).
  { unfold trig_of, loadDateTime. rewrite (load_one _ _ ps' p) by (apply put_self; [exact T|reflexivity..]). reflexivity. }
  eexists. split; [exact (load_make _ _ _ _ _ _ T1)|].
  assert (T2 : act_of ps' newAlarm = (aAction b, aData b)) by (rewrite <- L2; same_loads K).
  assert (T3 : rep_of ps' newAlarm = aRepeats b) by (rewrite <- L3; same_loads K).
  assert (T4 : int_of ps' newAlarm = aInterval b) by (rewrite <- L4; same_loads K).
  assert (T5 : stat_of ps' newAlarm = aStatus b) by (rewrite <- L5; same_loads K).
  assert (T6 : last_of ps' newAlarm = aLast b) by (rewrite <- L6; same_loads K).
  rewrite T2, T3, T4, T5, T6. unfold same_alarm, alarm_rel. cbn. repeat split; assumption.
Qed.

Lemma by_done d s ps a : tidy_props ps -> exists ps' a', editTriggerBy d s (ps, a) = ((ps', a'), Ok tt) /\ done (EditTriggerBy d s) ps ps' a a'.
Proof.
  intro T. unfold editTriggerBy. cbv zeta. eexists _, _. split; [reflexivity|].
  set (p := mkProp _ _ _). set (ps' := addProperty _ _).
  pose proof (put_kept (lit "TRIGGER") p ps T eq_refl eq_refl) as K. fold ps' in K.
  split; [apply put_tidy; [exact T|reflexivity..]|]. split; [exact K|].
  intros b L (A1 & A2 & A3 & A4 & A5 & A6 & A7 & A8). apply load_some in L as (L1 & L2 & L3 & L4 & L5 & L6).
  assert (PS : getProperties (lit "TRIGGER") ps' = [p]) by (apply put_self; [exact T|reflexivity..]).
  assert (T1 : trig_of ps' newAlarm = Ok (false, s, newDefault, d)).
  { unfold trig_of, loadDateTime, loadDuration, findFirstProperty. rewrite !(load_one _ _ ps' p PS), PS. cbn [datetime_of duration_of pValue p duration_prop hd_error].
    destruct s; reflexivity. }
  eexists. split; [exact (load_make _ _ _ _ _ _ T1)|].
  assert (T2 : act_of ps' newAlarm = (aAction b, aData b)) by (rewrite <- L2; same_loads K).
  assert (T3 : rep_of ps' newAlarm = aRepeats b) by (rewrite <- L3; same_loads K).
  assert (T4 : int_of ps' newAlarm = aInterval b) by (rewrite <- L4; same_loads K).
  assert (T5 : stat_of ps' newAlarm = aStatus b) by (rewrite <- L5; same_loads K).
  assert (T6 : last_of ps' newAlarm = aLast b) by (rewrite <- L6; same_loads K).
  rewrite T2, T3, T4, T5, T6. unfold same_alarm, alarm_rel. cbn. repeat split; assumption.
Qed.

Lemma repeats_done n i ps a : 0 <= n -> tidy_props ps -> exists ps' a', editRepeats n i (ps, a) = ((ps', a'), Ok tt) /\ done (EditRepeats n i) ps ps' a a'.
Proof.
  intros N T. unfold editRepeats. cbv zeta. eexists _, _. split; [reflexivity|].
  set (ps0 := removeProperties (lit "DURATION") (removeProperties (lit "REPEAT") ps)). set (ps' := if 0 <? n then _ else _).
  assert (T0 : tidy_props ps0) by (apply tidy_remove, tidy_remove, T).
  assert (G0 : forall name, getProperties name ps0 = if beq (lit "DURATION") name then [] else if beq (lit "REPEAT") name then [] else getProperties name ps).
  { intro name. unfold ps0. rewrite get_remove by (apply tidy_remove, T). rewrite get_remove by exact T. reflexivity. }
  set (p := with_value (lit "REPEAT") (Single (VInteger n))) in *. set (q := duration_prop (lit "DURATION") i) in *.
  assert (G : forall name, getProperties name ps' =
            if beq (lit "DURATION") name then (if 0 <? n then [q] else []) else if beq (lit "REPEAT") name then (if 0 <? n then [p] else []) else getProperties name ps).
  { intro name. unfold ps'. destruct (0 <? n); [|apply G0]. unfold addProperty. change (upper (pName q)) with (lit "DURATION"). change (upper (pName p)) with (lit "REPEAT").
    rewrite !get_add, G0. destruct (beq_case (lit "DURATION") name) as [[<- _]|[_ ->]]; [reflexivity|]. rewrite app_nil_r.
    destruct (beq (lit "REPEAT") name); [reflexivity|apply app_nil_r]. }
  assert (K : kept_but [lit "REPEAT"; lit "DURATION"] ps ps').
  { intros name I. rewrite G. destruct (beq_case (lit "DURATION") name) as [[<- _]|[_ ->]]; [cbn in I; tauto|].
    destruct (beq_case (lit "REPEAT") name) as [[<- _]|[_ ->]]; [cbn in I; tauto|]. reflexivity. }
  split; [unfold ps'; destruct (0 <? n); [apply tidy_addp; [reflexivity|]; apply tidy_addp; [reflexivity|]|]; exact T0|]. split; [exact K|].
  intros b L (A1 & A2 & A3 & A4 & A5 & A6 & A7 & A8). apply load_some in L as (L1 & L2 & L3 & L4 & L5 & L6).
  assert (T1 : trig_of ps' newAlarm = Ok (aAbsolute b, aOnStart b, aOn b, aBy b)) by (rewrite <- L1; same_loads K).
  eexists. split; [exact (load_make _ _ _ _ _ _ T1)|].
  assert (T2 : act_of ps' newAlarm = (aAction b, aData b)) by (rewrite <- L2; same_loads K).
  assert (T5 : stat_of ps' newAlarm = aStatus b) by (rewrite <- L5; same_loads K).
  assert (T6 : last_of ps' newAlarm = aLast b) by (rewrite <- L6; same_loads K).
  assert (T3 : rep_of ps' newAlarm = n).
  { unfold rep_of, loadInteger, load, findFirstProperty. rewrite G. cbn [beq]. destruct (Z.ltb_spec 0 n); [reflexivity|]. cbn. lia. }
  assert (T4 : 0 < n -> int_of ps' newAlarm = i).
  { intro H. unfold int_of, loadDuration, load, findFirstProperty. rewrite G. destruct (Z.ltb_spec 0 n); [reflexivity|lia]. }
  rewrite T2, T3, T5, T6. unfold same_alarm, alarm_rel. cbn. repeat split; try assumption. intro H. symmetry. apply T4. exact H.
Qed.

Definition data_names : list bytes := [lit "X-MULBERRY-SPEAK-TEXT"; lit "DESCRIPTION"; lit "SUMMARY"; lit "ATTENDEE"; lit "URL"].
Lemma kept_trans l ps qs rs : kept_but l ps qs -> kept_but l qs rs -> kept_but l ps rs.
Proof. intros A B name I. rewrite (B name I). apply A. exact I. Qed.
Lemma kept_more l m ps qs : (forall x, In x l -> In x m) -> kept_but l ps qs -> kept_but m ps qs.
Proof. intros S K name I. apply K. intro J. apply I, S, J. Qed.
Lemma remove_kept n ps : tidy_props ps -> kept_but [n] ps (removeProperties n ps).
Proof.
  intros T name I. rewrite get_remove by exact T. destruct (beq_case n name) as [[<- _]|[_ ->]]; [destruct I; left; reflexivity|reflexivity].
Qed.
Lemma add_kept p ps : upper (pName p) = pName p -> kept_but [pName p] ps (addProperty p ps).
Proof.
  intros U name I. unfold addProperty. rewrite U, get_add. destruct (beq_case (pName p) name) as [[E _]|[_ ->]]; [destruct I; left; exact E|apply app_nil_r].
Qed.
Lemma str_name n s : pName (str_prop n s) = n.
Proof. destruct s; reflexivity. Qed.
Lemma str_loaded n s : (assoc (upper n) default_types = Some T_TEXT \/ assoc (upper n) default_types = Some T_URI) -> s <> None -> text_of (pValue (str_prop n s)) = s.
Proof. intros [E|E] N; (destruct s as [s|]; [|congruence]); cbn [str_prop]; unfold text_prop; rewrite E; reflexivity. Qed.

Lemma kept_in n l ps qs : In n l -> kept_but [n] ps qs -> kept_but l ps qs.
Proof. intros I. apply kept_more. intros ? [<-|[]]. exact I. Qed.
Lemma removed d ps : tidy_props ps -> tidy_props (remove_action d ps) /\ kept_but data_names ps (remove_action d ps).
Proof.
  intro T. destruct d; cbn [remove_action]; try (split; [exact T|intros ? _; reflexivity]);
    try (split; [apply tidy_remove, T|]; refine (kept_in _ _ _ _ _ (remove_kept _ ps T)); cbn; tauto).
  split; [apply tidy_remove, tidy_remove, tidy_remove, T|].
  eapply kept_trans; [|eapply kept_trans].
  - refine (kept_in _ _ _ _ _ (remove_kept (lit "DESCRIPTION") ps T)); cbn; tauto.
  - refine (kept_in _ _ _ _ _ (remove_kept (lit "SUMMARY") _ (tidy_remove _ _ T))); cbn; tauto.
  - refine (kept_in _ _ _ _ _ (remove_kept (lit "ATTENDEE") _ (tidy_remove _ _ (tidy_remove _ _ T)))); cbn; tauto.
Qed.

Lemma attendee_name s : pName (attendee_prop s) = lit "ATTENDEE".
Proof. destruct s; reflexivity. Qed.
Lemma attendees_get l ps name :
  getProperties name (fold_left (fun ps a => addProperty (attendee_prop a) ps) l ps) = getProperties name ps ++ if beq (lit "ATTENDEE") name then map attendee_prop l else [].
Proof.
  revert ps. induction l as [|x l IH]; intro ps; cbn [fold_left map]; [destruct (beq _ name); rewrite app_nil_r; reflexivity|].
  rewrite IH. unfold addProperty. rewrite attendee_name. change (upper (lit "ATTENDEE")) with (lit "ATTENDEE"). rewrite get_add, <- app_assoc. f_equal.
  destruct (beq _ name); reflexivity.
Qed.
Lemma attendees_tidy l ps : tidy_props ps -> tidy_props (fold_left (fun ps a => addProperty (attendee_prop a) ps) l ps).
Proof.
  revert ps. induction l as [|x l IH]; intros ps T; cbn [fold_left]; [exact T|]. apply IH, tidy_addp; [rewrite attendee_name; reflexivity|exact T].
Qed.
Lemma addresses l : Forall (fun x => x <> None) l -> flat_map address_of (map attendee_prop l) = l.
Proof. induction 1 as [|x l X F IH]; [reflexivity|]. cbn [map flat_map]. rewrite IH. destruct x; [reflexivity|congruence]. Qed.

Lemma added x d ps : data_for x d -> tidy_props ps -> exists ps', add_action d ps = (ps', Ok tt) /\ tidy_props ps' /\ kept_but data_names ps ps' /\ load_action x ps' = d.
Proof.
  intros D T. destruct d as [s|s|s t l| |s| |]; cbn [data_for] in D; cbn [add_action remove_action]; cbv zeta.
  - destruct D as [-> N]. eexists. split; [reflexivity|]. split; [apply put_tidy; [exact T|apply str_name|reflexivity]|].
    split; [refine (kept_in (lit "X-MULBERRY-SPEAK-TEXT") _ _ _ _ (put_kept _ _ _ T (str_name _ _) eq_refl)); cbn; tauto|].
    change (load_action 0 ?q) with (Audio (loadString (lit "X-MULBERRY-SPEAK-TEXT") q)). f_equal. unfold loadString.
    rewrite (load_one _ _ _ (str_prop (lit "X-MULBERRY-SPEAK-TEXT") s)) by (apply put_self; [exact T|apply str_name|reflexivity]).
    apply str_loaded; [left; reflexivity|exact N].
  - destruct D as [-> N]. eexists. split; [reflexivity|]. split; [apply put_tidy; [exact T|apply str_name|reflexivity]|].
    split; [refine (kept_in (lit "DESCRIPTION") _ _ _ _ (put_kept _ _ _ T (str_name _ _) eq_refl)); cbn; tauto|].
    change (load_action 1 ?q) with (Display (loadString (lit "DESCRIPTION") q)). f_equal. unfold loadString.
    rewrite (load_one _ _ _ (str_prop (lit "DESCRIPTION") s)) by (apply put_self; [exact T|apply str_name|reflexivity]).
    apply str_loaded; [left; reflexivity|exact N].
  - destruct D as (-> & N1 & N2 & N3). destruct l as [l|]; [|destruct N3].
    destruct (removed (Email s t (Some l)) ps T) as [T0 K0]. cbn [remove_action] in *. set (ps0 := removeProperties (lit "ATTENDEE") _) in *.
    eexists. split; [reflexivity|].
    assert (U1 : upper (pName (str_prop (lit "DESCRIPTION") s)) = pName (str_prop (lit "DESCRIPTION") s)) by (rewrite str_name; reflexivity).
    assert (U2 : upper (pName (str_prop (lit "SUMMARY") t)) = pName (str_prop (lit "SUMMARY") t)) by (rewrite str_name; reflexivity).
    assert (G : forall name, getProperties name (fold_left (fun ps a => addProperty (attendee_prop a) ps) l
                  (addProperty (str_prop (lit "SUMMARY") t) (addProperty (str_prop (lit "DESCRIPTION") s) ps0))) =
                getProperties name ps0 ++ (if beq (lit "DESCRIPTION") name then [str_prop (lit "DESCRIPTION") s] else [])
                  ++ (if beq (lit "SUMMARY") name then [str_prop (lit "SUMMARY") t] else []) ++ if beq (lit "ATTENDEE") name then map attendee_prop l else []).
    { intro name. rewrite attendees_get. unfold addProperty. rewrite !str_name.
      change (upper (lit "SUMMARY")) with (lit "SUMMARY"). change (upper (lit "DESCRIPTION")) with (lit "DESCRIPTION").
      rewrite !get_add, <- !app_assoc. reflexivity. }
    assert (G0 : forall n, In n [lit "DESCRIPTION"; lit "SUMMARY"; lit "ATTENDEE"] -> getProperties n ps0 = []).
    { intros n I. unfold ps0. rewrite get_remove by (apply tidy_remove, tidy_remove, T). rewrite get_remove by (apply tidy_remove, T). rewrite get_remove by exact T.
      destruct I as [<-|[<-|[<-|[]]]]; reflexivity. }
    split; [apply attendees_tidy, tidy_addp; [exact U2|]; apply tidy_addp; [exact U1|exact T0]|]. split.
    + eapply kept_trans; [exact K0|]. intros name I. rewrite G.
      destruct (beq_case (lit "DESCRIPTION") name) as [[<- _]|[_ ->]]; [destruct I; cbn; tauto|].
      destruct (beq_case (lit "SUMMARY") name) as [[<- _]|[_ ->]]; [destruct I; cbn; tauto|].
      destruct (beq_case (lit "ATTENDEE") name) as [[<- _]|[_ ->]]; [destruct I; cbn; tauto|]. cbn [app]. apply app_nil_r.
    + change (load_action 2 ?q) with (Email (loadString (lit "DESCRIPTION") q) (loadString (lit "SUMMARY") q) (Some (flat_map address_of (getProperties (lit "ATTENDEE") q)))).
      f_equal; [| |f_equal].
      * unfold loadString. erewrite load_one; [|rewrite G, G0 by (cbn; tauto); reflexivity]. apply str_loaded; [left; reflexivity|exact N1].
      * unfold loadString. erewrite load_one; [|rewrite G, G0 by (cbn; tauto); reflexivity]. apply str_loaded; [left; reflexivity|exact N2].
      * rewrite G, G0 by (cbn; tauto). apply addresses. exact N3.
  - subst x. eexists. split; [reflexivity|]. split; [exact T|]. split; [intros ? _; reflexivity|]. reflexivity.
  - destruct D as [-> N]. eexists. split; [reflexivity|]. split; [apply put_tidy; [exact T|apply str_name|reflexivity]|].
    split; [refine (kept_in (lit "URL") _ _ _ _ (put_kept _ _ _ T (str_name _ _) eq_refl)); cbn; tauto|].
    change (load_action 5 ?q) with (Uri (loadString (lit "URL") q)). f_equal. unfold loadString.
    rewrite (load_one _ _ _ (str_prop (lit "URL") s)) by (apply put_self; [exact T|apply str_name|reflexivity]).
    apply str_loaded; [right; reflexivity|exact N].
  - subst x. eexists. split; [reflexivity|]. split; [exact T|]. split; [intros ? _; reflexivity|]. reflexivity.
  - destruct D.
Qed.

Lemma action_done x d ps a : data_for x d -> tidy_props ps -> exists ps' a', editAction x d (ps, a) = ((ps', a'), Ok tt) /\ done (EditAction x d) ps ps' a a'.
Proof.
  intros D T. unfold editAction. cbv zeta.
  set (p := text_prop 0 (lit "ACTION") None (action_text x)).
  assert (T1 : tidy_props (removeProperties (lit "ACTION") ps)) by (apply tidy_remove, T).
  destruct (removed (aData a) _ T1) as [T2 K2]. set (ps1 := remove_action (aData a) _) in *.
  assert (T3 : tidy_props (addProperty p ps1)) by (apply tidy_addp; [reflexivity|exact T2]).
  destruct (added x d _ D T3) as (ps' & A & T4 & K4 & LA). rewrite A. eexists _, _. split; [reflexivity|].
  assert (GA : getProperties (lit "ACTION") ps' = [p]).
  { rewrite K4 by not_in. unfold addProperty. change (upper (pName p)) with (lit "ACTION"). rewrite get_add, beq_refl, K2 by not_in.
    rewrite get_remove, beq_refl by exact T. reflexivity. }
  assert (K : kept_but action_names ps ps').
  { eapply kept_trans; [|eapply kept_trans; [|eapply kept_trans]].
    - refine (kept_in _ _ _ _ _ (remove_kept (lit "ACTION") ps T)). left. reflexivity.
    - refine (kept_more _ _ _ _ _ K2). intros ? I. right. exact I.
    - refine (kept_more _ _ _ _ _ (add_kept p ps1 eq_refl)). intros ? [<-|[]]. left. reflexivity.
    - refine (kept_more _ _ _ _ _ K4). intros ? I. right. exact I. }
  split; [exact T4|]. split; [exact K|].
  intros b L (A1 & A2 & A3 & A4 & A5 & A6 & A7 & A8). apply load_some in L as (L1 & L2 & L3 & L4 & L5 & L6).
  assert (U1 : trig_of ps' newAlarm = Ok (aAbsolute b, aOnStart b, aOn b, aBy b)) by (rewrite <- L1; same_loads K).
  eexists. split; [exact (load_make _ _ _ _ _ _ U1)|].
  assert (U2 : act_of ps' newAlarm = (x, d)).
  { unfold act_of, loadString. rewrite (load_one _ _ _ _ GA).
    assert (E : assoc (action_text x) action_map = Some x) by (destruct d; cbn [data_for] in D; first [contradiction|subst x; reflexivity|destruct D as [-> _]; reflexivity]).
    change (text_of (pValue p)) with (Some (action_text x)). cbv iota beta zeta. rewrite E, LA. reflexivity. }
  assert (U3 : rep_of ps' newAlarm = aRepeats b) by (rewrite <- L3; same_loads K).
  assert (U4 : int_of ps' newAlarm = aInterval b) by (rewrite <- L4; same_loads K).
  assert (U5 : stat_of ps' newAlarm = aStatus b) by (rewrite <- L5; same_loads K).
  assert (U6 : last_of ps' newAlarm = aLast b) by (rewrite <- L6; same_loads K).
  rewrite U2, U3, U4, U5, U6. unfold same_alarm, alarm_rel. cbn. repeat split; assumption.
Qed.

Lemma edit_done e ps a : fair e -> tidy_props ps -> exists ps' a', edit_alarm e (ps, a) = ((ps', a'), Ok tt) /\ done e ps ps' a a'.
Proof.
  intros F T. destruct e; cbn [fair] in F; cbn [edit_alarm];
    [apply status_done|apply action_done|apply on_done|apply by_done|apply repeats_done]; assumption.
Qed.
Lemma edits_done l : forall ps a b, Forall fair l -> tidy_props ps -> alarm_load ps newAlarm = Ok b -> same_alarm a b ->
  exists ps' a' b', edit_all l (ps, a) = ((ps', a'), Ok tt) /\ alarm_load ps' newAlarm = Ok b' /\ same_alarm a' b' /\
    tidy_props ps' /\ kept_but (flat_map touched l) ps ps'.
Proof.
  induction l as [|e l IH]; intros ps a b F T L S; cbn [edit_all flat_map].
  - exists ps, a, b. repeat (split; [first [reflexivity|assumption]|]). intros ? _. reflexivity.
  - inversion F as [|? ? F1 F2]; subst. destruct (edit_done e ps a F1 T) as (ps1 & a1 & E & T1 & K1 & H). destruct (H b L S) as (b1 & L1 & S1).
    rewrite E. destruct (IH ps1 a1 b1 F2 T1 L1 S1) as (ps' & a' & b' & E2 & L2 & S2 & T2 & K2).
    exists ps', a', b'. repeat (split; [assumption|]). eapply kept_trans; [eapply kept_more; [|exact K1]|eapply kept_more; [|exact K2]]; intros x I; apply in_or_app; tauto.
Qed.

(** The same properties: the same alarm. *)
Definition same_props (ps ps' : props) : Prop := forall name, Forall2 same_prop (getProperties name ps) (getProperties name ps').
Lemma load_rel' {A} (get : option value -> option A) (R : option A -> option A -> Prop) name ps ps' : same_props ps ps' ->
  R None None -> (forall v w, same_value v w -> R (get (Some v)) (get (Some w))) -> R (load get name ps) (load get name ps').
Proof.
  intros G R0 H. specialize (G name). unfold load, findFirstProperty. destruct G as [|p q l m P F]; cbn [hd_error]; [exact R0|].
  destruct P as (_ & _ & V). destruct (pValue p), (pValue q); try contradiction. apply H. exact V.
Qed.
Ltac values := let V := fresh in intros [i|t l] [j|u m] V; cbn [same_value] in V; try contradiction; try reflexivity; try exact I;
  destruct i, j; cbn [same_item] in V; try discriminate V; try contradiction; try exact I; try (injection V as ->; try subst); try reflexivity; try exact V.
Lemma string_rel name ps ps' : same_props ps ps' -> loadString name ps' = loadString name ps.
Proof. intro G. refine (load_rel' text_of (fun a b => b = a) name ps ps' G eq_refl _). values. Qed.
Lemma integer_rel name ps ps' : same_props ps ps' -> loadInteger name ps' = loadInteger name ps.
Proof. intro G. refine (load_rel' integer_of (fun a b => b = a) name ps ps' G eq_refl _). values. Qed.
Lemma datetime_rel name ps ps' : same_props ps ps' -> opt_rel same_when (loadDateTime name ps) (loadDateTime name ps').
Proof. intro G. refine (load_rel' datetime_of (opt_rel same_when) name ps ps' G I _). values. Qed.
Lemma duration_rel name ps ps' : same_props ps ps' -> opt_rel (fun d e => getTotalSeconds d = getTotalSeconds e) (loadDuration name ps) (loadDuration name ps').
Proof. intro G. refine (load_rel' duration_of (opt_rel (fun d e => getTotalSeconds d = getTotalSeconds e)) name ps ps' G I _). values. Qed.
Lemma address_rel p q : same_prop p q -> address_of p = address_of q.
Proof.
  intros (_ & _ & V). unfold address_of. destruct (pValue p) as [v|], (pValue q) as [w|]; try contradiction.
  revert v w V. values.
Qed.
Lemma related_rel was ps ps' : same_props ps ps' -> one_related ps -> one_related ps' ->
  exists s, load_related was (findFirstProperty (lit "TRIGGER") ps) = Ok s /\ load_related was (findFirstProperty (lit "TRIGGER") ps') = Ok s.
Proof.
  intros G O O'. unfold one_related, findFirstProperty in *. specialize (G (lit "TRIGGER")). destruct G as [|p q l m P F]; [exists was; split; reflexivity|].
  cbn [hd_error] in *. destruct P as (_ & P & _). specialize (P (lit "RELATED") ltac:(discriminate)). rewrite !assoc_lookup in P. unfold load_related.
  destruct (assoc (lit "RELATED") (pParams p)) as [[|[n [|v [|]]] L]|]; try contradiction;
  destruct (assoc (lit "RELATED") (pParams q)) as [[|[n' [|v' [|]]] L']|]; try contradiction; try (inversion P; fail).
  - inversion P as [|? ? ? ? [_ X] _]; subst. cbn [snd] in X. apply Permutation_length_1 in X. subst v'. eexists. split; reflexivity.
  - eexists. split; reflexivity.
Qed.
Lemma read_alike ps ps' a b : same_props ps ps' -> one_related ps -> one_related ps' -> alarm_load ps a = Ok b ->
  exists b', alarm_load ps' a = Ok b' /\ alike b b'.
Proof.
  intros G O O' L. apply load_some in L as (L1 & L2 & L3 & L4 & L5 & L6).
  assert (SW : forall d, same_when d d) by (intro d; unfold same_when; repeat split; reflexivity).
  assert (A : act_of ps' a = act_of ps a).
  { unfold act_of, load_action. rewrite !(string_rel _ ps ps' G).
    replace (flat_map address_of (getProperties (lit "ATTENDEE") ps')) with (flat_map address_of (getProperties (lit "ATTENDEE") ps)); [reflexivity|].
    induction (G (lit "ATTENDEE")) as [|p q l m P F IH]; [reflexivity|]. cbn [flat_map]. rewrite (address_rel p q P), IH. reflexivity. }
  assert (T : exists x s on by_, trig_of ps' a = Ok (x, s, on, by_) /\ x = aAbsolute b /\ s = aOnStart b /\ same_when (aOn b) on /\ getTotalSeconds (aBy b) = getTotalSeconds by_).
  { unfold trig_of in *. pose proof (datetime_rel (lit "TRIGGER") ps ps' G) as D. pose proof (duration_rel (lit "TRIGGER") ps ps' G) as E.
    destruct (related_rel (aOnStart a) ps ps' G O O') as (s & S1 & S2).
    destruct (loadDateTime (lit "TRIGGER") ps) as [d|], (loadDateTime (lit "TRIGGER") ps') as [d'|]; cbn [opt_rel] in D; try contradiction.
    - injection L1 as Z1 Z2 Z3 Z4. eexists _, _, _, _. split; [reflexivity|]. rewrite <- Z1, <- Z2, <- Z3, <- Z4.
      split; [reflexivity|]. split; [reflexivity|]. split; [exact D|reflexivity].
    - destruct (loadDuration (lit "TRIGGER") ps) as [d|], (loadDuration (lit "TRIGGER") ps') as [d'|]; cbn [opt_rel] in E; try contradiction.
      + rewrite S1 in L1. rewrite S2. cbn [rbind] in *. injection L1 as Z1 Z2 Z3 Z4. eexists _, _, _, _. split; [reflexivity|].
        rewrite <- Z1, <- Z2, <- Z3, <- Z4. split; [reflexivity|]. split; [reflexivity|]. split; [apply SW|exact E].
      + injection L1 as Z1 Z2 Z3 Z4. eexists _, _, _, _. split; [reflexivity|]. rewrite <- Z1, <- Z2, <- Z3, <- Z4.
        split; [reflexivity|]. split; [reflexivity|]. split; [apply SW|reflexivity]. }
  destruct T as (x & s & on & by_ & T & -> & -> & T1 & T2). eexists. split; [exact (load_make _ _ _ _ _ _ T)|].
  rewrite A, L2. unfold rep_of, int_of, stat_of, last_of in *. rewrite (integer_rel _ ps ps' G), (string_rel _ ps ps' G), L3, L5.
  unfold alike, alarm_rel. cbn [aAction aData aAbsolute aOn aBy aOnStart aRepeats aInterval aStatus aLast fst snd].
  split; [reflexivity|]. split; [reflexivity|]. split; [reflexivity|]. split; [destruct (aAbsolute b); [exact T1|split; [exact T2|reflexivity]]|].
  split; [reflexivity|]. split; [|split; [reflexivity|]].
  - intros _. pose proof (duration_rel (lit "DURATION") ps ps' G) as E. rewrite <- L4.
    destruct (loadDuration (lit "DURATION") ps), (loadDuration (lit "DURATION") ps'); cbn [opt_rel] in E; try contradiction; [exact E|reflexivity].
  - pose proof (datetime_rel (lit "X-MULBERRY-LAST-TRIGGER") ps ps' G) as E. rewrite <- L6.
    destruct (loadDateTime (lit "X-MULBERRY-LAST-TRIGGER") ps), (loadDateTime (lit "X-MULBERRY-LAST-TRIGGER") ps'); cbn [opt_rel] in E; try contradiction; [exact E|apply SW].
Qed.

(** The key that orders the alarms, of an alarm just read. *)
Lemma key_ok s ps b : sAction s = 1 -> alarm_load ps newAlarm = Ok b ->
  exists s', alarm_finalise s ps = Ok s' /\
    sMapKey s' = Some (pystr (aAction b) ++ lit ":" ++ if aAbsolute b then getText (aOn b) else dur_generate (aBy b)).
Proof.
  intros S L. apply load_some in L as (L1 & L2 & _). unfold alarm_finalise, trig_of, act_of in *. cbv zeta.
  assert (A : match loadString (lit "ACTION") ps with Some t => match assoc t action_map with Some a => a | None => 4 end | None => sAction s end = aAction b).
  { destruct (loadString (lit "ACTION") ps); injection L2 as L2 _; [exact L2|]. rewrite S. exact L2. }
  rewrite A. destruct (loadDateTime (lit "TRIGGER") ps) as [d|].
  - injection L1 as Z1 _ Z3 _. cbn [rbind]. eexists. split; [reflexivity|]. cbn [sMapKey]. rewrite <- Z1, <- Z3. reflexivity.
  - destruct (loadDuration (lit "TRIGGER") ps) as [d|].
    + unfold load_related, check_param in *. destruct (findFirstProperty (lit "TRIGGER") ps) as [p|].
      * destruct (assoc (lit "RELATED") (pParams p)) as [l|].
        -- destruct (first_value l) as [v|]; cbn [rbind] in *; [|discriminate]. injection L1 as Z1 _ _ Z4. eexists. split; [reflexivity|]. cbn [sMapKey]. rewrite <- Z1, <- Z4. reflexivity.
        -- cbn [rbind] in *. injection L1 as Z1 _ _ Z4. eexists. split; [reflexivity|]. cbn [sMapKey]. rewrite <- Z1, <- Z4. reflexivity.
      * cbn [rbind] in *. injection L1 as Z1 _ _ Z4. eexists. split; [reflexivity|]. cbn [sMapKey]. rewrite <- Z1, <- Z4. reflexivity.
    + injection L1 as Z1 _ _ Z4. cbn [rbind]. eexists. split; [reflexivity|]. cbn [sMapKey]. rewrite <- Z1, <- Z4. reflexivity.
Qed.

Lemma given_ok e ps a ps' a' : edit_alarm e (ps, a) = ((ps', a'), Ok tt) -> given e a a'.
Proof.
  intro E. destruct e; cbn [edit_alarm] in E.
  - unfold editStatus in E. injection E as _ <-. cbn. repeat split; reflexivity.
  - unfold editAction in E. destruct (add_action data _) as [q r] in E. injection E as _ <- _. cbn. repeat split; reflexivity.
  - unfold editTriggerOn in E. injection E as _ <-. cbn. repeat split; reflexivity.
  - unfold editTriggerBy in E. cbv zeta in E. injection E as _ <-. cbn. repeat split; reflexivity.
  - unfold editRepeats in E. cbv zeta in E. injection E as _ <-. cbn. repeat split; reflexivity.
Qed.
Lemma str_value n s : s <> None -> assoc (upper n) default_types = Some T_TEXT -> pValue (str_prop n s) = Some (Single (VText (the s))).
Proof. intros N E. destruct s as [s|]; [|congruence]. cbn [str_prop]. unfold text_prop. rewrite E. reflexivity. Qed.
Lemma one_intro name v l ps p : getProperties name ps = [p] -> pValue p = Some (Single v) -> Forall (fun kl => lookup (fst kl) (pParams p) = snd kl) l -> one_prop name v l ps.
Proof. intros. exists p. auto. Qed.
Lemma trigger_params d : Forall (fun kl => lookup (fst kl) (pParams (date_prop (lit "TRIGGER") d)) = snd kl)
  [(lit "VALUE", [(lit "VALUE", [if mDateOnly d then lit "DATE" else lit "DATE-TIME"])]); (lit "RELATED", [])].
Proof.
  assert (V : lookup (lit "VALUE") (pParams (date_prop (lit "TRIGGER") d)) = [(lit "VALUE", [if mDateOnly d then lit "DATE" else lit "DATE-TIME"])]).
  { unfold date_prop. cbn [pParams]. unfold setupValueParameter, value_type, item_type. destruct (mDateOnly d); [reflexivity|]. cbn [negb andb].
    match goal with |- context [if ?b then add_param _ _ _ else _] => destruct b end; reflexivity. }
  assert (R : lookup (lit "RELATED") (pParams (date_prop (lit "TRIGGER") d)) = []).
  { unfold date_prop. cbn [pParams]. unfold setupValueParameter, value_type, item_type. destruct (mDateOnly d); [reflexivity|]. cbn [negb andb].
    match goal with |- context [if ?b then add_param _ _ _ else _] => destruct b end; reflexivity. }
  apply Forall_cons; [exact V|]. apply Forall_cons; [exact R|]. apply Forall_nil.
Qed.
Lemma says_ok e ps a ps' a' : fair e -> tidy_props ps -> edit_alarm e (ps, a) = ((ps', a'), Ok tt) -> says e ps'.
Proof.
  intros F T E. destruct e as [s|x d|d|d s|n i]; cbn [edit_alarm fair says] in *.
  - unfold editStatus in E. injection E as <- _. eapply one_intro; [apply put_self; [exact T|reflexivity..]| |constructor].
    assert (C : s = 0 \/ s = 1 \/ s = 2) by lia. destruct C as [->|[->| ->]]; reflexivity.
  - unfold editAction in E. cbv zeta in E. set (p := text_prop 0 (lit "ACTION") None (action_text x)) in *.
    assert (T1 : tidy_props (removeProperties (lit "ACTION") ps)) by (apply tidy_remove, T).
    destruct (removed (aData a) _ T1) as [T2 K2]. set (ps1 := remove_action (aData a) _) in *.
    assert (T3 : tidy_props (addProperty p ps1)) by (apply tidy_addp; [reflexivity|exact T2]).
    destruct (added x d _ F T3) as (ps2 & A & T4 & K4 & LA). rewrite A in E. injection E as <- _. split.
    + assert (GA : getProperties (lit "ACTION") ps2 = [p]).
      { rewrite K4 by not_in. unfold addProperty. change (upper (pName p)) with (lit "ACTION"). rewrite get_add, beq_refl, K2 by not_in.
        rewrite get_remove, beq_refl by exact T. reflexivity. }
      eapply one_intro; [exact GA| |apply Forall_nil]. change (pValue p) with (Some (Single (VText (action_text x)))). do 3 f_equal. clear - F. destruct d; cbn [data_for] in F; first [contradiction|subst x; reflexivity|destruct F as [-> _]; reflexivity].
    + clear K4 LA. destruct d as [s|s|s t l| |s| |]; cbn [data_for] in F; cbn [add_action remove_action] in A; cbv zeta in A; try exact I.
      * destruct F as [_ N]. injection A as <-. eapply one_intro; [apply put_self; [exact T3|apply str_name|reflexivity]|apply str_value; [exact N|reflexivity]|constructor].
      * destruct F as [_ N]. injection A as <-. eapply one_intro; [apply put_self; [exact T3|apply str_name|reflexivity]|apply str_value; [exact N|reflexivity]|constructor].
      * destruct F as (_ & N1 & N2 & N3). destruct l as [l|]; [|destruct N3]. injection A as <-.
        destruct (removed (Email s t (Some l)) _ T3) as [T0 K0]. cbn [remove_action] in *. set (ps0 := removeProperties (lit "ATTENDEE") _) in *.
        assert (G : forall name, getProperties name (fold_left (fun ps a => addProperty (attendee_prop a) ps) l
                      (addProperty (str_prop (lit "SUMMARY") t) (addProperty (str_prop (lit "DESCRIPTION") s) ps0))) =
                    getProperties name ps0 ++ (if beq (lit "DESCRIPTION") name then [str_prop (lit "DESCRIPTION") s] else [])
                      ++ (if beq (lit "SUMMARY") name then [str_prop (lit "SUMMARY") t] else []) ++ if beq (lit "ATTENDEE") name then map attendee_prop l else []).
        { intro name. rewrite attendees_get. unfold addProperty. rewrite !str_name.
          change (upper (lit "SUMMARY")) with (lit "SUMMARY"). change (upper (lit "DESCRIPTION")) with (lit "DESCRIPTION").
          rewrite !get_add, <- !app_assoc. reflexivity. }
        assert (G0 : forall n, In n [lit "DESCRIPTION"; lit "SUMMARY"; lit "ATTENDEE"] -> getProperties n ps0 = []).
        { intros n I. unfold ps0. rewrite get_remove by (apply tidy_remove, tidy_remove, T3). rewrite get_remove by (apply tidy_remove, T3). rewrite get_remove by exact T3.
          destruct I as [<-|[<-|[<-|[]]]]; reflexivity. }
        split; [|split].
        -- eapply one_intro; [rewrite G, G0 by (cbn; tauto); reflexivity|apply str_value; [exact N1|reflexivity]|constructor].
        -- eapply one_intro; [rewrite G, G0 by (cbn; tauto); reflexivity|apply str_value; [exact N2|reflexivity]|constructor].
        -- rewrite G, G0 by (cbn; tauto). cbn [app]. change (beq (lit "ATTENDEE") (lit "ATTENDEE")) with true. cbn [app].
           clear - N3. induction N3 as [|y l Y F IH]; [reflexivity|]. cbn [map]. rewrite <- IH. destruct y; [reflexivity|congruence].
      * destruct F as [_ N]. injection A as <-. eapply one_intro; [apply put_self; [exact T3|apply str_name|reflexivity]| |apply Forall_nil]. destruct s; [reflexivity|congruence].
  - unfold editTriggerOn in E. injection E as <- _. eapply one_intro; [apply put_self; [exact T|reflexivity..]|reflexivity|]. apply trigger_params.
  - unfold editTriggerBy in E. cbv zeta in E. injection E as <- _. eapply one_intro; [apply put_self; [exact T|reflexivity..]|reflexivity|].
    apply Forall_cons; [reflexivity|]. apply Forall_cons; [destruct s; reflexivity|]. apply Forall_nil.
  - unfold editRepeats in E. cbv zeta in E. injection E as <- _.
    assert (G0 : forall name, In name [lit "REPEAT"; lit "DURATION"] -> getProperties name (removeProperties (lit "DURATION") (removeProperties (lit "REPEAT") ps)) = []).
    { intros name I. rewrite get_remove by (apply tidy_remove, T). rewrite get_remove by exact T. destruct I as [<-|[<-|[]]]; reflexivity. }
    destruct (0 <? n); [|split; apply G0; cbn; tauto].
    split; (eapply one_intro; [unfold addProperty; rewrite !get_add, G0 by (cbn; tauto); reflexivity|reflexivity|constructor]).
Qed.
