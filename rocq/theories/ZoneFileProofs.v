(** Proofs for C74: the file is written and read. *)
From Coq Require Import Lia Sorting.Permutation.
From Verif Require Import PyBase PyProofs ParserCtx LineModel LineSpec LineProofs TextModel TextSpec TextProofs DateTimeModel DateTimeText DateTimeSpec2 PeriodModel PropertyModel PropertySpec PropertyProofs
  RecurModel RecurSpec RecurTextProofs PeriodProofs ComponentModel ComponentSpec ComponentProofs ComponentProofs2 ComponentProofs3 ComponentProofs4 ComponentProofs5 ComponentProofs6 ComponentProofs7 DeriveModel MakeModel MakeSpec MakeProofs
  AlarmProofs StatusSpec StatusProofs StatusProofs2 FreshProofs EditModel ZoneFileModel ZoneFileSpec.

(** ** Texts *)
Lemma quiet_numch c : is_numch c = true -> (nat_of_ascii c < 128)%nat /\ c <> CR /\ c <> LF.
Proof. destruct c as [[] [] [] [] [] [] [] []]; cbn; intro; try discriminate; repeat split; try lia; discriminate. Qed.
Lemma quiet_pystr n : quiet (pystr n).
Proof. pose proof (pystr_numch n) as H. apply Forall_forall. intros c I. apply quiet_numch. rewrite forallb_forall in H. exact (H c I). Qed.
Ltac quiet := repeat apply quiet_app; first [apply quiet_fmt; lia | apply quiet_lit; reflexivity | apply quiet_pystr].
Lemma quiet_offset n : quiet (utcoffset_generate false n).
Proof.
  unfold utcoffset_generate. cbv zeta. set (a := if n <? 0 then - n else n). assert (A : 0 <= a) by (subst a; destruct (n <? 0) eqn:?; lia).
  assert (0 <= a / 3600) by (apply Z.div_pos; lia). assert (0 <= (a / 60) mod 60) by (apply Z.mod_pos_bound; lia). assert (0 <= a mod 60) by (apply Z.mod_pos_bound; lia).
  destruct (n <? 0), (negb _); quiet.
Qed.
Lemma quiet_weekday w : quiet (weekday_text w).
Proof. unfold weekday_text. repeat destruct (_ =? _); quiet. Qed.
Lemma quiet_join l : Forall quiet l -> quiet (join_char "," l).
Proof.
  induction 1 as [|x l Q F IH]; [constructor|]. destruct l as [|y l]; [exact Q|]. cbn [join_char] in *. apply quiet_app; [exact Q|].
  apply (quiet_app [","%char]); [quiet|exact IH].
Qed.
Lemma quiet_list title l : quiet title -> match l with Some l => Forall quiet l | None => True end -> quiet (generateList title l).
Proof.
  intros T F. unfold generateList. destruct l as [[|x l]|]; [constructor| |constructor]. apply quiet_app; [quiet|]. apply quiet_app; [exact T|]. apply quiet_app; [quiet|apply quiet_join; exact F].
Qed.
Lemma quiet_nums title l : quiet title -> quiet (generateList title (num_texts l)).
Proof. intro T. apply quiet_list; [exact T|]. destruct l as [l|]; [|exact I]. cbn. apply Forall_map, Forall_forall. intros; apply quiet_pystr. Qed.
Lemma quiet_days title l : quiet title -> quiet (generateList title (day_texts l)).
Proof.
  intro T. apply quiet_list; [exact T|]. destruct l as [l|]; [|exact I]. cbn. apply Forall_map, Forall_forall. intros [n w] _. unfold byday_text. cbn [fst snd].
  apply quiet_app; [destruct (negb _); [apply quiet_pystr|constructor]|apply quiet_weekday].
Qed.
Lemma quiet_until d : until_ok d -> quiet (getText d).
Proof.
  intros [P Z]. unfold printable in P. unfold getText. cbv zeta. destruct (mDateOnly d) eqn:D; [quiet|]. destruct (mTZUTC d); [quiet|].
  destruct (mTZID d) as [| |n] eqn:E; [quiet|quiet|]. exfalso. exact (Z eq_refl eq_refl n eq_refl).
Qed.
Lemma quiet_rule r : rule_ok r -> quiet (rule_generate r).
Proof.
  intros (_ & _ & U). unfold rule_generate.
  cbv zeta. match goal with |- context [?x ++ generateList (lit "BYSECOND") ?y ++ ?z] => assert (T : quiet (x ++ generateList (lit "BYSECOND") y ++ z)); [|set (tail := x ++ generateList (lit "BYSECOND") y ++ z) in *] end.
  { repeat apply quiet_app; try (apply quiet_nums; quiet); try (apply quiet_days; quiet).
    - destruct (1 <? _); [quiet|constructor].
    - destruct (negb _); [apply quiet_app; [quiet|apply quiet_weekday]|constructor]. }
  apply quiet_app; [quiet|]. apply quiet_app; [destruct (rFreq r); quiet|]. destruct (rUseCount r); [apply quiet_app; [quiet|]; apply quiet_app; [quiet|exact T]|].
  destruct (rUseUntil r); [|exact T]. destruct (rUntil r) as [d|]; [|quiet]. apply quiet_app; [quiet|]. apply quiet_app; [apply quiet_until; exact U|exact T].
Qed.

Section WithCtx.
Variables (tzo : tzid -> Z -> Z -> Z -> Z -> Z -> Z -> bool -> bool -> Z) (ctx : pctx) (fl : floats).
Notation good := (good ctx fl).

(** ** Properties *)
(** A name written as a literal: what has to be checked of it. *)
Definition name_fine (name : bytes) : bool :=
  match name with c :: _ => negb (is_space c) | [] => false end &&
  forallb (fun c => (nat_of_ascii c <? 128)%nat && negb (Ascii.eqb c CR) && negb (Ascii.eqb c LF)) name.
Lemma quiet_one name text : name_fine name = true -> quiet text -> one_line (name ++ ":"%char :: text).
Proof.
  intros N Q. unfold name_fine in N. apply Bool.andb_true_iff in N as [N1 N2]. destruct name as [|c name]; [discriminate|]. cbn [app]. apply quiet_line.
  - apply Bool.negb_true_iff, N1.
  - apply (quiet_app (c :: name)); [apply quiet_lit; exact N2|]. apply (quiet_app [":"%char]); [quiet|exact Q].
Qed.
Lemma utf8_one name text : name_fine name = true -> utf8 text -> ~ In CR text -> ~ In LF text -> one_line (name ++ ":"%char :: text).
Proof.
  intros N U C L. unfold name_fine in N. apply Bool.andb_true_iff in N as [N1 N2]. destruct name as [|c name]; [discriminate|].
  pose proof (quiet_lit _ N2) as Q. split.
  - split; [apply Bool.negb_true_iff, N1|]. split; intro I; apply in_app_or in I as [I|[I|I]]; try discriminate I; try contradiction;
      destruct (proj1 (Forall_forall _ _) Q _ I) as (_ & A & B); congruence.
  - apply utf8_app; [apply utf8_ascii; revert Q; apply Forall_impl; tauto|]. apply (utf8_app [":"%char]); [apply utf8_ascii; constructor; [cbn; lia|constructor]|exact U].
Qed.
Lemma single_good name i text : name_fine name = true -> name_ok name -> ~ listed name -> ~ structured_name name -> item_type i <> T_GEO -> item_type i <> T_REQUEST_STATUS ->
  (known_name name -> item_type i <> T_UNKNOWN) -> (~ known_name name -> item_type i <> T_TEXT) -> item_ok ctx fl None i ->
  prop_line fl (with_value name (Single i)) = Ok (name ++ ":"%char :: text) -> one_line (name ++ ":"%char :: text) -> good (with_value name (Single i)).
Proof.
  intros F N L S A B C D O E U. split; [|exists (name ++ ":"%char :: text); split; assumption]. apply with_ok; [exact N|apply kept_single; assumption|exact O].
Qed.
Ltac name_tac := split; [discriminate|]; split; [split; discriminate|]; split; apply cin_in; reflexivity.
Ltac listed_tac := let H := fresh in intro H; vm_compute in H; intuition discriminate.
Ltac known_tac := let t := fresh in let H := fresh in intros [t H]; destruct t; vm_compute in H; intuition discriminate.

Lemma offset_good name n : name = lit "TZOFFSETFROM" \/ name = lit "TZOFFSETTO" -> Z.abs n < 360000 -> good (with_value name (Single (VOffset n))).
Proof.
  intros H A. destruct H as [-> | ->]; (apply (single_good _ _ (utcoffset_generate false n)); [reflexivity|name_tac|listed_tac|intros [X|X]; discriminate X|discriminate|discriminate|discriminate|discriminate|exact A|reflexivity|]);
    (apply quiet_one; [reflexivity|apply quiet_offset]).
Qed.
Lemma texts_good name s : In name [lit "TZID"; lit "TZNAME"; lit "PRODID"; lit "VERSION"; lit "CALSCALE"] -> utf8 s -> good (text_prop 0 name None s) /\ text_prop 0 name None s = with_value name (Single (VText s)).
Proof.
  intros I U. pose proof (esc_breaks s) as [C L].
  assert (K : known_name name) by (exists T_TEXT; repeat (destruct I as [<-|I]; [vm_compute; tauto|]); destruct I).
  assert (E : text_prop 0 name None s = with_value name (Single (VText s))) by (repeat (destruct I as [<-|I]; [reflexivity|]); destruct I).
  split; [|exact E]. rewrite E. assert (F : name_fine name = true) by (repeat (destruct I as [<-|I]; [reflexivity|]); destruct I).
  apply (single_good _ _ (escapeTextValue s)); [exact F| | | |discriminate|discriminate|discriminate|tauto|exact Logic.I| |apply utf8_one; [exact F|apply esc_utf8, U|exact C|exact L]];
    repeat (destruct I as [<-|I]; [first [name_tac|listed_tac|intros [X|X]; discriminate X|reflexivity]|]); destruct I.
Qed.
Lemma location_good s : utf8 s -> ~ In CR s -> ~ In LF s -> good (text_prop 0 (lit "X-LIC-LOCATION") None s).
Proof.
  intros U C L. change (text_prop 0 (lit "X-LIC-LOCATION") None s) with (with_value (lit "X-LIC-LOCATION") (Single (VPlain PUnknown (Some s)))).
  apply (single_good _ _ s); [reflexivity|name_tac|listed_tac|intros [X|X]; discriminate X|discriminate|discriminate|known_tac|discriminate|discriminate|reflexivity|].
  apply utf8_one; [reflexivity|assumption..].
Qed.
Lemma local_none d : at_local d -> date_prop (lit "DTSTART") d = with_value (lit "DTSTART") (Single (VDateTime d)) /\ date_prop (lit "RDATE") d = with_value (lit "RDATE") (Single (VDateTime d)).
Proof. intros (_ & D & U & Z). unfold date_prop, with_value, local. rewrite D, U, Z. cbn [negb andb tz_true]. split; reflexivity. Qed.
Lemma in_none d : at_local d -> in_zone None d.
Proof. intros (_ & D & U & Z). right. exact Z. Qed.
Lemma start_good d : at_local d -> good (date_prop (lit "DTSTART") d).
Proof.
  intro A. rewrite (proj1 (local_none d A)). pose proof A as (P & D & U & Z).
  apply (single_good _ _ (getText d)); [reflexivity|name_tac|listed_tac|intros [X|X]; discriminate X|cbn; rewrite D; discriminate..|split; [exact P|apply in_none, A]| |apply quiet_one; [reflexivity|apply quiet_date; [exact P|apply in_none, A]]].
  unfold prop_line, with_value, setupValueParameter. cbn [pName pParams pValue value_generate item_generate value_type item_type rbind]. rewrite D. reflexivity.
Qed.
Lemma rule_good r : rule_ok r -> good (recur_prop (lit "RRULE") r).
Proof.
  intro O. change (recur_prop (lit "RRULE") r) with (with_value (lit "RRULE") (Single (VRecur r))).
  apply (single_good _ _ (rule_generate r)); [reflexivity|name_tac|listed_tac|intros [X|X]; discriminate X|discriminate|discriminate|discriminate|discriminate|exact O|reflexivity|].
  apply quiet_one; [reflexivity|apply quiet_rule, O].
Qed.
(** The RDATE as it is read. *)
Definition rdate (d : dt) : prop := with_value (lit "RDATE") (Multi T_DATETIME [VDateTime d]).
Lemma rdate_gen v s : value_type v = T_DATETIME -> value_generate fl v = Ok s -> prop_line fl (with_value (lit "RDATE") v) = Ok (lit "RDATE:" ++ s).
Proof. intros T G. unfold prop_line, with_value, setupValueParameter. cbn [pName pParams pValue]. rewrite T, G. reflexivity. Qed.
Lemma rdate_line d : at_local d -> prop_line fl (rdate d) = Ok (lit "RDATE:" ++ getText d) /\ prop_line fl (date_prop (lit "RDATE") d) = Ok (lit "RDATE:" ++ getText d).
Proof.
  intro A. rewrite (proj2 (local_none d A)). destruct A as (P & D & U & Z). split; apply rdate_gen.
  - reflexivity.
  - cbn [value_generate multi_generate item_generate app]. rewrite app_nil_r. reflexivity.
  - cbn [value_type item_type]. rewrite D. reflexivity.
  - reflexivity.
Qed.
Lemma rdate_good d : at_local d -> good (rdate d).
Proof.
  intro A. split.
  - apply with_ok; [name_tac|apply kept_multi; [vm_compute; tauto|discriminate..]|]. split; [discriminate|]. constructor; [|constructor]. split; [exact Logic.I|].
    split; [split; [apply A|apply in_none, A]|]. exists (getText d). split; [reflexivity|apply (comma_text None); [apply A|apply in_none, A]].
  - exists (lit "RDATE:" ++ getText d). split; [exact (proj1 (rdate_line d A))|]. pose proof (quiet_date d (proj1 A) (in_none d A)) as Q. revert Q. generalize (getText d). intros t Q.
    exact (quiet_one (lit "RDATE") t eq_refl Q).
Qed.
End WithCtx.
