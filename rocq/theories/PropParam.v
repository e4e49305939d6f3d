(** Properties of editing the parameters of a property: C85. *)
From Verif Require Import PyBase PyProofs ParserCtx LineModel LineSpec LineProofs DateTimeModel DateTimeText PropertyModel PropertySpec PropertyProofs PropertyProofs3
  ComponentModel ParamModel ParamSpec ParamProofs PropComponent PropProperty.

(** After any calls the parameters under each key are those that the calls say, and hasParameter, getParameterValue and getParameterValues
    tell them, for the name in any case. *)
Theorem C85_edits : forall es ps, Forall sound es -> dict_ok ps ->
  let after := fold_left effect es (fun k => lookup k ps) in
  let qs := pedits es ps in
  (forall k, lookup k qs = after k) /\
  forall n,
    (hasParameter n qs = true <-> after (upper n) <> []) /\
    getParameterValue n qs = match after (upper n) with (_, v :: _) :: _ => Ok v | (_, []) :: _ => Raise IndexError | [] => Raise KeyError end /\
    getParameterValues n qs = match after (upper n) with (_, l) :: _ => Ok l | [] => Raise KeyError end.
Proof.
  intros es ps F D. cbv zeta. destruct (edits_ok es ps F D) as [D' L]. split; [exact L|]. intro n. rewrite <- (L (upper n)). split.
  - unfold hasParameter. rewrite assoc_lookup. destruct (assoc (upper n) (pedits es ps)) as [[|a r]|] eqn:E; [|split; [discriminate|reflexivity]|split; [discriminate|congruence]].
    exfalso. apply assoc_some in E. destruct D' as [_ D']. rewrite Forall_forall in D'. apply (D' _ E). reflexivity.
  - unfold getParameterValue, getParameterValues. rewrite dict_first by exact D'. destruct (lookup (upper n) (pedits es ps)) as [|[m l] r]; split; reflexivity.
Qed.
Print Assumptions C85_edits.
(** A property with a TZID parameter: ROLE is added twice and its first value changed, TZID taken out, CN replaced. *)
Example C85_edits_ex :
  let es := [AddP (lit "Role", [lit "CHAIR"]); AddP (lit "ROLE", [lit "X"]); AddValue (lit "role") (lit "Y"); RemoveValue (lit "ROLE") (lit "CHAIR");
             RemoveP (lit "tzid"); ReplaceP (lit "cn", [lit "A B"]); RemoveValue (lit "cn") (lit "nobody")] in
  Forall sound es /\ dict_ok [ny_param] /\
  pedits es [ny_param] = [(lit "ROLE", [(lit "Role", [lit "Y"]); (lit "ROLE", [lit "X"])]); (lit "CN", [(lit "cn", [lit "A B"])])] /\
  hasParameter (lit "TZID") (pedits es [ny_param]) = false /\ getParameterValue (lit "rOlE") (pedits es [ny_param]) = Ok (lit "Y").
Proof.
  cbv zeta. split; [repeat (constructor; [exact I|]); constructor|]. split.
  - split; [repeat constructor; intros []|repeat constructor; discriminate].
  - split; [vm_compute; reflexivity|]. split; [vm_compute; reflexivity|]. vm_compute. reflexivity.
Qed.

(** The line of the edited property is read as one with the same value and with the parameters that the calls say, if these can be
    written and TZID is as before. *)
Theorem C85_written : forall ctx fl p es, prop_ok ctx fl p -> Forall sound es ->
  let after := fold_left effect es (fun k => lookup k (pParams p)) in
  (forall k a, In a (after k) -> param_ok k a) -> after (lit "TZID") = lookup (lit "TZID") (pParams p) ->
  exists text r, prop_line fl (edited es p) = Ok text /\ prop_parse ctx fl text = Ok r /\ pName r = pName p /\
    (forall k, k <> lit "VALUE" -> Forall2 same_param (after k) (lookup k (pParams r))) /\
    match pValue p, pValue r with Some v, Some w => same_value v w | _, _ => False end.
Proof.
  intros ctx fl p es (N & P & v & z & V & Z & K & O) F after H T. destruct (edits_ok es (pParams p) F (params_dict _ P)) as [D L]. fold after in L.
  assert (O' : prop_ok ctx fl (edited es p)).
  { split; [exact N|]. split; [apply dict_params; [exact D|]; cbn [edited pParams]; intros k a I; apply H; rewrite <- L; exact I|].
    exists v, z. split; [exact V|]. split; [|split; assumption]. cbn [edited pParams].
    assert (E : lookup (lit "TZID") (pedits es (pParams p)) = lookup (lit "TZID") (pParams p)) by (rewrite L; exact T).
    destruct Z as [Z|n z r Z]; [apply PropertySpec.tz_none|eapply tz_some]; rewrite E; exact Z. }
  destruct (C52_round_trip ctx fl (edited es p) O') as (text & r & A & B & (SN & SP & SV) & _). exists text, r. split; [exact A|]. split; [exact B|].
  split; [symmetry; exact SN|]. split; [|exact SV]. intros k NK. rewrite <- L. exact (SP k NK).
Qed.
Print Assumptions C85_written.
Definition party_x : prop := mkProp (lit "ATTENDEE") [(lit "ROLE", [(lit "ROLE", [lit "CHAIR"])])] (Some (Single (VPlain PCalAddress (Some (lit "mailto:x@y"))))).
Example C85_written_ex :
  let es := [ReplaceP (lit "role", [lit "OPT"]); AddP (lit "CN", [lit "A: B"])] in
  let after := fold_left effect es (fun k => lookup k (pParams party_x)) in
  prop_ok default_ctx fl0 party_x /\ Forall sound es /\ (forall k a, In a (after k) -> param_ok k a) /\
  after (lit "TZID") = lookup (lit "TZID") (pParams party_x) /\
  prop_line fl0 (edited es party_x) = Ok (lit "ATTENDEE;CN=""A: B"";role=OPT:mailto:x@y").
Proof.
  assert (Q : param_ok (lit "ROLE") (lit "ROLE", [lit "CHAIR"]) /\ param_ok (lit "ROLE") (lit "role", [lit "OPT"]) /\ param_ok (lit "CN") (lit "CN", [lit "A: B"])).
  { assert (W : forall k n v, upper n = k -> n <> [] -> match n with c :: _ => c <> SPC /\ c <> DQUOTE | [] => False end -> cin "=" n = false -> value_ok v -> param_ok k (n, [v])).
    { intros k n v A B C E V. split; [exact A|]. split; [destruct n; [destruct C|exact C]|]. split; [apply LineProofs.cin_false; exact E|]. split; [discriminate|]. constructor; [exact V|constructor]. }
    split; [|split]; (apply W; [reflexivity|discriminate|split; discriminate|reflexivity|]);
      repeat split; unfold needs_quotes; cbn; try discriminate; try (intuition discriminate); try (intros; reflexivity); try (intros [H|[H|H]]; exfalso; revert H; cbn; intuition discriminate). }
  destruct Q as (Q1 & Q2 & Q3). cbv zeta. split.
  { split; [unfold name_ok, starts_ok; cbn; repeat split; try discriminate; intuition discriminate|]. split.
    - split; [repeat constructor; intros []|]. constructor; [|constructor]. split; [discriminate|]. constructor; [exact Q1|constructor].
    - exists (Single (VPlain PCalAddress (Some (lit "mailto:x@y")))), None. split; [reflexivity|]. split; [apply PropertySpec.tz_none; reflexivity|]. split; [|discriminate].
      split; [no_in|]. split; [split; discriminate|]. split; [split; discriminate|]. split; [discriminate|]. discriminate. }
  split; [repeat (constructor; [exact I|]); constructor|]. split.
  { intros k a. cbn [fold_left effect pParams party_x lookup fst snd]. unfold at_key.
    change (upper (lit "CN")) with (lit "CN"). change (upper (lit "role")) with (lit "ROLE").
    destruct (beq_case k (lit "CN")) as [[-> ->]|[_ ->]].
    - cbn [lookup]. intros [H|[]]. subst a. exact Q3.
    - destruct (beq_case k (lit "ROLE")) as [[-> ->]|[N ->]]; [intros [H|[]]; subst a; exact Q2|].
      destruct (beq_case (lit "ROLE") k) as [[X _]|[_ ->]]; [congruence|]. intros []. }
  split; [reflexivity|]. vm_compute. reflexivity.
Qed.

(** Calls about the VALUE parameter do not change what is written: the parameter is always made from the value. *)
Theorem C85_value_name : forall fl p es, Forall (about (lit "VALUE")) es -> prop_line fl (edited es p) = prop_line fl p.
Proof.
  intros fl p es F. unfold prop_line, edited. cbn [pName pParams pValue].
  rewrite (setup_del (pName p) (pedits es (pParams p)) (pParams p)) by (apply edits_about; exact F). reflexivity.
Qed.
Print Assumptions C85_value_name.
Example C85_value_name_ex :
  let p := mkProp (lit "DTSTART") [ny_param] (Some (Single (VDateTime (ny_time 9)))) in
  let es := [AddP (lit "value", [lit "DATE"])] in
  Forall (about (lit "VALUE")) es /\ getParameterValue (lit "VALUE") (pParams (edited es p)) = Ok (lit "DATE") /\
  prop_line fl0 (edited es p) = Ok (lit "DTSTART;TZID=America/New_York:20200131T093000").
Proof. cbv zeta. split; [repeat constructor|]. split; [vm_compute; reflexivity|]. vm_compute. reflexivity. Qed.

(** Not true: putting another TZID on a property changes the zone of its value, or leaves what is read the same: the value in memory
    is in the old zone, the one read in the new. *)
Theorem C85_zone_refuted : exists p es text r e, prop_ok default_ctx fl0 p /\ es = [ReplaceP (lit "TZID", [lit "Europe/Rome"])] /\
  pValue (edited es p) = Some (Single (VDateTime (ny_time 9))) /\
  prop_line fl0 (edited es p) = Ok text /\ prop_parse default_ctx fl0 text = Ok r /\ pValue r = Some (Single (VDateTime e)) /\
  mTZID (ny_time 9) = TzName (lit "America/New_York") /\ mTZID e = TzName (lit "Europe/Rome").
Proof.
  exists (mkProp (lit "DTSTART") [ny_param] (Some (Single (VDateTime (ny_time 9))))). do 4 eexists.
  split.
  { split; [unfold name_ok, starts_ok; cbn; repeat split; try discriminate; intuition discriminate|]. split.
    - split; [repeat constructor; cbn; intuition discriminate|].
      repeat constructor; cbn; unfold needs_quotes; cbn; try discriminate; try (intuition discriminate);
        try (intros; reflexivity); try (intros [H|[H|H]]; exfalso; revert H; cbn; intuition discriminate).
    - exists (Single (VDateTime (ny_time 9))), (Some (lit "America/New_York")). split; [reflexivity|]. split; [eapply tz_some; reflexivity|].
      split; [|split; [repeat split; vm_compute; discriminate|right; split; reflexivity]].
      split; [no_in|]. split; [split; discriminate|]. split; [split; discriminate|]. split; [discriminate|]. discriminate. }
  split; [reflexivity|]. split; [reflexivity|]. split; [vm_compute; reflexivity|]. split; [vm_compute; reflexivity|]. split; [reflexivity|]. split; reflexivity.
Qed.
Print Assumptions C85_zone_refuted.

(** Not true: a parameter with a new name is found by it.  It stays under the old name, although it is written with the new one. *)
Theorem C85_name_refuted : exists p es text r, es = [SetName (lit "ROLE") (lit "CUTYPE")] /\
  getParameterValue (lit "CUTYPE") (pParams (edited es p)) = Raise KeyError /\ getParameterValue (lit "ROLE") (pParams (edited es p)) = Ok (lit "CHAIR") /\
  prop_line fl0 (edited es p) = Ok text /\ text = lit "ATTENDEE;CUTYPE=CHAIR:mailto:x@y" /\ prop_parse default_ctx fl0 text = Ok r /\
  getParameterValue (lit "CUTYPE") (pParams r) = Ok (lit "CHAIR").
Proof.
  exists party_x. do 3 eexists. split; [reflexivity|]. split; [vm_compute; reflexivity|]. split; [vm_compute; reflexivity|]. split; [vm_compute; reflexivity|].
  split; [vm_compute; reflexivity|]. split; [vm_compute; reflexivity|]. vm_compute. reflexivity.
Qed.
Print Assumptions C85_name_refuted.
