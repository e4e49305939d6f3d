(** Properties C29 and C30: the text and JSON forms of recurrence rules.  [tzo] is the timezone
    database and [ctx] the parser policy; both are arbitrary. *)
From Coq Require Import Lia ZifyBool Permutation.
From Verif Require Import PyBase ParserCtx DateTimeModel DateTimeSpec DateTimeSpec2 DateTimeText RecurModel RecurSpec.
From Verif Require RecurTextProofs RecurTextProofs2.

(** A rule for the examples: every 4 years in November, the Tuesday after a Monday. *)
Local Definition election : rule :=
  mkRule YEARLY false 0 true (Some (newDateTime 2099 12 31 23 59 59 true TzNone)) 4 None None None (Some [(0, 2)])
    (Some [8; 2; 3; 4; 5; 6; 7]) (Some []) None (Some [11]) None 0.
Local Lemma election_ok : rule_ok election.
Proof.
  unfold rule_ok, in_ranges, limits_ok, until_ok, printable, election; cbn.
  repeat split; try lia; try discriminate; try (repeat constructor; cbn; lia).
Qed.

(** C29. *)
Theorem C29_text : forall ctx tzo r, rule_ok r ->
  rule_parse ctx (rule_generate r) = Ok (canon r) /\ rule_equals tzo r (canon r) = Ok true.
Proof.
  intros ctx tzo r H. exact (conj (RecurTextProofs.text_rule_round_trip ctx r H) (RecurTextProofs2.canon_equal tzo r H)).
Qed.
Print Assumptions C29_text.
Example C29_text_ex : rule_ok election /\
  rule_generate election =
    lit "FREQ=YEARLY;UNTIL=20991231T235959Z;INTERVAL=4;BYDAY=TU;BYMONTHDAY=8,2,3,4,5,6,7;BYMONTH=11;WKST=SU".
Proof. exact (conj election_ok eq_refl). Qed.

(** The text of the rule read back is the same text. *)
Theorem C29_stable : forall r, rule_ok r -> rule_generate (canon r) = rule_generate r.
Proof. exact RecurTextProofs2.generate_canon. Qed.
Print Assumptions C29_stable.
Example C29_stable_ex : rule_ok election /\ canon election <> election.
Proof. split; [exact election_ok|]. vm_compute. discriminate. Qed.

(** The order of the parts of the text does not matter. *)
Theorem C29_any_order : forall ctx r l, rule_ok r -> Permutation l (split_char ";" (rule_generate r)) ->
  rule_parse ctx (join_char ";" l) = Ok (canon r).
Proof. exact RecurTextProofs.text_any_order. Qed.
Print Assumptions C29_any_order.
Example C29_any_order_ex : rule_ok election /\
  Permutation (rev (split_char ";" (rule_generate election))) (split_char ";" (rule_generate election)) /\
  join_char ";" (rev (split_char ";" (rule_generate election))) =
    lit "WKST=SU;BYMONTH=11;BYMONTHDAY=8,2,3,4,5,6,7;BYDAY=TU;INTERVAL=4;UNTIL=20991231T235959Z;FREQ=YEARLY".
Proof. split; [exact election_ok|]. split; [apply Permutation_sym, Permutation_rev|reflexivity]. Qed.

(** JSON: the dictionary written is read back, in whatever order its items come. *)
Theorem C29_json : forall ctx r, rule_ok r ->
  exists jl, rule_json r = Ok jl /\ forall jl', Permutation jl jl' -> rule_parseJSON ctx jl' = Ok (canon r).
Proof.
  intros ctx r H. destruct (RecurTextProofs2.json_total r H) as [jl E].
  exact (ex_intro _ jl (conj E (fun jl' P => RecurTextProofs2.json_round_trip ctx r jl jl' H E P))).
Qed.
Print Assumptions C29_json.
Example C29_json_ex : rule_ok election /\
  rule_json election = Ok [(lit "freq", JStr (lit "YEARLY")); (lit "until", JStr (lit "2099-12-31T23:59:59Z"));
    (lit "interval", JInt 4); (lit "byday", JStrs [lit "TU"]); (lit "bymonthday", JInts [8; 2; 3; 4; 5; 6; 7]);
    (lit "bymonth", JInts [11]); (lit "wkst", JStr (lit "SU"))].
Proof. exact (conj election_ok eq_refl). Qed.

(** == : the lists are compared as multisets. *)
Theorem C29_equality : forall tzo a b u, until_eq tzo (rUntil a) (rUntil b) = Ok u ->
  exists v, rule_equals tzo a b = Ok v /\ (v = true <-> same_rule a b /\ u = true).
Proof. exact RecurTextProofs2.rule_equals_spec. Qed.
Print Assumptions C29_equality.
Example C29_equality_ex : forall tzo,
  until_eq tzo (rUntil election) (rUntil (set_bymonthday [2; 3; 4; 5; 6; 7; 8] election)) = Ok true /\
  rule_equals tzo election (set_bymonthday [2; 3; 4; 5; 6; 7; 8] election) = Ok true /\
  rule_equals tzo election (set_bymonthday [2; 3; 4; 5; 6; 7; 7] election) = Ok false.
Proof. intro. repeat split; vm_compute; reflexivity. Qed.

(** Equal rules can have different hash values: the hash looks at the order. *)
Theorem C29_hash_refuted : exists a b, forall tzo, rule_ok a /\ rule_ok b /\
  rule_equals tzo a b = Ok true /\ rule_hash tzo a <> rule_hash tzo b.
Proof.
  exists (set_bymonth [1; 2] rule_init), (set_bymonth [2; 1] rule_init). intro tzo.
  unfold rule_ok, in_ranges, limits_ok; cbn.
  split; [|split; [|split; [reflexivity|discriminate]]];
  (split; [|split; [|exact I]]; repeat split; try lia; try discriminate; try congruence; repeat constructor; lia).
Qed.
Print Assumptions C29_hash_refuted.

(** C30.  ValueError is the only failure. *)
Theorem C30_only_valueerror : forall ctx s, (exists r, rule_parse ctx s = Ok r) \/ rule_parse ctx s = Raise ValueError.
Proof. exact RecurTextProofs2.parse_total. Qed.
Print Assumptions C30_only_valueerror.
Example C30_only_valueerror_ex :
  rule_parse default_ctx (lit "FREQ=DAILY;UNTIL=2x") = Raise ValueError /\
  exists r, rule_parse default_ctx (lit "FREQ=DAILY;BYDAY=+1SU,-2MO") = Ok r /\ rByDay r = Some [(1, 0); (-2, 1)].
Proof. split; [reflexivity|]. eexists; split; reflexivity. Qed.

(** What is accepted is in range, and never has both COUNT and UNTIL. *)
Theorem C30_ranges : forall ctx s r, rule_parse ctx s = Ok r -> in_ranges r /\ limits_ok r.
Proof. exact RecurTextProofs2.parse_inv. Qed.
Print Assumptions C30_ranges.
Example C30_ranges_ex :
  (exists r, rule_parse default_ctx (lit "BYSECOND=60;FREQ=MINUTELY;COUNT=1") = Ok r) /\
  rule_parse default_ctx (lit "BYSECOND=61;FREQ=MINUTELY") = Raise ValueError /\
  rule_parse default_ctx (lit "FREQ=MINUTELY;COUNT=1;UNTIL=20000101") = Raise ValueError /\
  rule_parse default_ctx (lit "FREQ=MINUTELY;INTERVAL=0") = Raise ValueError.
Proof. split; [eexists; reflexivity|]. repeat split. Qed.

(** No BY part is accepted twice, whatever else is in the text. *)
Theorem C30_by_once : forall ctx s a b c n v w, In n by_names ->
  split_char ";" s = a ++ (n ++ lit "=" ++ v) :: b ++ (n ++ lit "=" ++ w) :: c -> rule_parse ctx s = Raise ValueError.
Proof. exact RecurTextProofs2.by_once. Qed.
Print Assumptions C30_by_once.
Example C30_by_once_ex : In (lit "BYDAY") by_names /\
  split_char ";" (lit "FREQ=DAILY;BYDAY=MO;COUNT=3;BYDAY=TU") =
  [lit "FREQ=DAILY"] ++ (lit "BYDAY" ++ lit "=" ++ lit "MO") :: [lit "COUNT=3"] ++ (lit "BYDAY" ++ lit "=" ++ lit "TU") :: [].
Proof. split; [cbn; tauto|reflexivity]. Qed.

(** FREQ can be missing, which gives YEARLY, or repeated; so can COUNT. *)
Theorem C30_freq_required_refuted : exists s r, forall ctx,
  ~ (exists f, In (lit "FREQ=" ++ f) (split_char ";" s)) /\ rule_parse ctx s = Ok r /\ rFreq r = YEARLY.
Proof.
  exists (lit "COUNT=2"), (set_count 2 rule_init). intro ctx. split; [|split; reflexivity].
  intros (f & [E|[]]). discriminate.
Qed.
Print Assumptions C30_freq_required_refuted.
Theorem C30_freq_once_refuted : exists r, forall ctx,
  rule_parse ctx (lit "FREQ=DAILY;COUNT=5;FREQ=WEEKLY;COUNT=2") = Ok r /\ rFreq r = WEEKLY /\ rCount r = 2.
Proof. exists (set_count 2 (set_freq WEEKLY rule_init)). intro ctx. repeat split. Qed.
Print Assumptions C30_freq_once_refuted.
