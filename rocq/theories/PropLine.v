(** Properties C23-C26: content lines, folding and unfolding. *)
From Coq Require Import Lia.
From Verif Require Import PyBase ParserCtx TextModel TextSpec LineModel LineSpec.
From Verif Require LineProofs FoldProofs.

(** C23.  A written line is read back (fuel: any number of rounds at least the length of the text). *)
Theorem C23_round_trip : forall name ps v, name_ok name -> params_ok ps ->
  let text := gen_line (mkLine None name ps (Some v)) in
  forall fuel, (List.length text <= fuel)%nat ->
  exists ps', ical_parseLine fuel text = Some (Ok (mkLine None name ps' (Some v))) /\ same_params ps ps'.
Proof. exact LineProofs.line_round_trip. Qed.
Print Assumptions C23_round_trip.

Definition ex_params : params :=
  [(lit "X-B", [(lit "x-b", [lit "z;\\"; lit "a,b"; [DQUOTE; "^"%char]])]);
   (lit "CN", [(lit "CN", [lit "Doe: Jo"; []]); (lit "cn", [lit "c\"])])].
Example C23_round_trip_ex : name_ok (lit "ATTENDEE") /\ params_ok ex_params /\
  gen_line (mkLine None (lit "ATTENDEE") ex_params (Some (lit "a;b:c"))) =
    lit "ATTENDEE;CN=," ++ DQUOTE :: lit "Doe: Jo" ++ DQUOTE :: lit ";cn=c\;x-b=^'^^," ++ DQUOTE :: lit "a,b" ++ DQUOTE ::
    lit "," ++ DQUOTE :: lit "z;\\" ++ DQUOTE :: lit ":a;b:c".
Proof.
  split; [|split; [|vm_compute; reflexivity]].
  - unfold name_ok, starts_ok; cbn; repeat split; try discriminate; intuition discriminate.
  - split.
    + repeat constructor; cbn; intuition discriminate.
    + repeat constructor; cbn; unfold needs_quotes; cbn; try discriminate; try (intuition discriminate);
      try (intros; reflexivity); try (intros [H|[H|H]]; exfalso; revert H; cbn; intuition discriminate).
Qed.

(** The same for vCard lines with an optional group, under every parser policy. *)
Theorem C23_vcard_round_trip : forall ctx g name ps v, name_ok name -> group_ok g name -> params_ok ps ->
  Forall (fun kl => Forall (fun p => ~ In ":"%char (fst p) /\ ~ In ";"%char (fst p)) (snd kl)) ps ->
  let text := gen_line (mkLine g name ps (Some v)) in
  forall fuel, (List.length text <= fuel)%nat ->
  exists ps', vcard_parseLine ctx fuel text = Some (Ok (mkLine g name ps' (Some v))) /\ same_params ps ps'.
Proof. exact LineProofs.vcard_round_trip. Qed.
Print Assumptions C23_vcard_round_trip.
Example C23_vcard_round_trip_ex :
  gen_line (mkLine (Some (lit "item1")) (lit "TEL") [(lit "TYPE", [(lit "TYPE", [lit "x"; lit "a,b"])])] (Some (lit "1"))) =
  lit "item1.TEL;TYPE=" ++ DQUOTE :: lit "a,b" ++ DQUOTE :: lit ",x:1" /\
  group_ok (Some (lit "item1")) (lit "TEL").
Proof. split; [vm_compute; reflexivity|]. unfold group_ok, starts_ok; cbn; repeat split; try discriminate; intuition discriminate. Qed.

(** Reading and writing again gives the same text. *)
Theorem C23_text_stable : forall name ps v fuel, name_ok name -> params_ok ps ->
  let text := gen_line (mkLine None name ps (Some v)) in
  (List.length text <= fuel)%nat ->
  exists l, ical_parseLine fuel text = Some (Ok l) /\ gen_line l = text.
Proof. exact LineProofs.line_stable. Qed.
Print Assumptions C23_text_stable.
Example C23_text_stable_ex : exists l,
  ical_parseLine 100 (gen_line (mkLine None (lit "X") ex_params (Some (lit "v")))) = Some (Ok l) /\
  map fst (lParams l) = [lit "CN"; lit "X-B"].
Proof. eexists; split; vm_compute; reflexivity. Qed.

(** Without the condition on backslashes it is false. *)
Theorem C23_backslash_refuted : exists name key pname v value,
  name_ok name /\ upper pname = key /\
  forall fuel, (1 <= fuel)%nat ->
    ical_parseLine fuel (gen_line (mkLine None name [(key, [(pname, [v])])] (Some value))) = Some (Raise InvalidProperty).
Proof.
  exists (lit "X"), (lit "P"), (lit "P"), (lit "a:\"), (lit "v"); split; [|split; [reflexivity|]].
  - unfold name_ok, starts_ok; cbn; repeat split; try discriminate; intuition discriminate.
  - intros [|fuel] H; [lia|]. destruct fuel; vm_compute; reflexivity.
Qed.
Print Assumptions C23_backslash_refuted.
Example C23_backslash_refuted_ex :
  gen_line (mkLine None (lit "X") [(lit "P", [(lit "P", [lit "a:\"])])] (Some (lit "v"))) =
  lit "X;P=" ++ DQUOTE :: lit "a:\" ++ DQUOTE :: lit ":v".
Proof. vm_compute; reflexivity. Qed.

(** C24.  Lines of well-formed characters. *)
Theorem C24_written_lines : forall chars, Forall utf8_char chars -> chars <> [] ->
  exists groups, fold_line (S (List.length (List.concat chars))) (List.concat chars) =
                 Some (Ok (physical (map (@List.concat ascii) groups))) /\
    List.concat groups = chars /\ short_lines (map (@List.concat ascii) groups).
Proof. exact FoldProofs.fold_utf8. Qed.
Print Assumptions C24_written_lines.
(** 73 times 'a', a two octet character across the limit, then 80 times 'b'. *)
Definition ex_chars : list bytes :=
  repeat (lit "a") 73 ++ [["195"%char; "169"%char]] ++ repeat (lit "b") 80.
Example C24_written_lines_ex : Forall utf8_char ex_chars /\
  exists out, fold_line 200 (List.concat ex_chars) = Some (Ok out) /\
    firstn 79 out = repeat "a"%char 73 ++ [CR; LF; SPC; "195"%char; "169"%char; "b"%char].
Proof.
  split.
  - unfold ex_chars; rewrite !Forall_app; repeat split.
    + apply Forall_forall; intros x Hx; apply repeat_spec in Hx; subst. exists "a"%char, []. repeat split; try constructor; cbn; try lia.
      unfold continuation; vm_compute. intros [H _]; lia.
    + constructor; [|constructor]. exists "195"%char, ["169"%char]; repeat split; cbn; try lia.
      * unfold continuation; vm_compute. intros [_ H]; lia.
      * repeat constructor; vm_compute; lia.
    + apply Forall_forall; intros x Hx; apply repeat_spec in Hx; subst. exists "b"%char, []. repeat split; try constructor; cbn; try lia.
      unfold continuation; vm_compute. intros [H _]; lia.
  - eexists; split; vm_compute; reflexivity.
Qed.

(** Unfolding by the RFC rule gives the text back. *)
Theorem C24_unfold : forall ls, ls <> [] -> ~ In CR (List.concat ls) ->
  unfold_text (physical ls) = List.concat ls ++ [CR; LF].
Proof. exact FoldProofs.unfold_physical. Qed.
Print Assumptions C24_unfold.
Example C24_unfold_ex : unfold_text (physical [lit "ab"; lit " c"; lit "d"]) = lit "ab cd" ++ [CR; LF].
Proof. reflexivity. Qed.

(** A file of written lines is read back line by line. *)
Theorem C24_file_round_trip : forall lines texts, Forall loose_line lines ->
  Forall2 (fun l t => exists fuel, fold_line fuel l = Some (Ok t)) lines texts ->
  Forall starts_char lines ->
  forall fuel, (List.length lines < fuel)%nat -> read_lines fuel None (List.concat texts) = lines.
Proof. exact FoldProofs.file_round_trip. Qed.
Print Assumptions C24_file_round_trip.
Example C24_file_round_trip_ex :
  let lines := [lit "BEGIN:VCALENDAR"; repeat "x"%char 200; lit "END:VCALENDAR"] in
  exists texts, Forall2 (fun l t => fold_line 300 l = Some (Ok t)) lines texts /\
    List.length (List.concat texts) = 240%nat /\ read_lines 10 None (List.concat texts) = lines.
Proof. eexists; split; [repeat constructor; vm_compute; reflexivity|split; vm_compute; reflexivity]. Qed.

(** Whatever the octets, when the writer ends nothing is lost, lines are short and start at a
    character boundary. *)
Theorem C24_no_loss : forall temp fuel out, starts_char temp -> fold_line fuel temp = Some (Ok out) ->
  exists ls, out = physical ls /\ List.concat ls = temp /\ ls <> [] /\ short_lines ls /\ Forall starts_char ls.
Proof. exact FoldProofs.no_loss. Qed.
Print Assumptions C24_no_loss.
Example C24_no_loss_ex : exists out,
  fold_line 200 (lit "X:" ++ repeat "128"%char 72 ++ lit "abc") = Some (Ok out) /\ starts_char (lit "X:" ++ repeat "128"%char 72 ++ lit "abc").
Proof. eexists; split; [vm_compute; reflexivity|]. cbn. unfold continuation; vm_compute. intros [H _]; lia. Qed.

(** C25.  Exactly when writing ends, for lines that start with the first octet of a character. *)
Theorem C25_exact : forall temp, starts_char temp ->
  (has_run 73 (skipn 2 temp) <-> forall fuel, fold_line fuel temp = None) /\
  (~ has_run 73 (skipn 2 temp) -> exists out, fold_line (S (List.length temp)) temp = Some (Ok out)).
Proof. exact FoldProofs.terminates_iff. Qed.
Print Assumptions C25_exact.
Example C25_exact_ex : has_run 73 (skipn 2 (lit "X:" ++ repeat "128"%char 73)) /\
  exists out, fold_line 200 (lit "X:" ++ repeat "128"%char 72 ++ lit "abc") = Some (Ok out).
Proof.
  split; [|eexists; vm_compute; reflexivity].
  exists [], (repeat "128"%char 73), []; split; [reflexivity|split; [reflexivity|]].
  apply Forall_forall; intros x Hx; apply repeat_spec in Hx; subst. unfold continuation; vm_compute. lia.
Qed.

Theorem C25_terminates_refuted : exists temp, starts_char temp /\ forall fuel, fold_line fuel temp = None.
Proof.
  exists (lit "X:" ++ repeat "128"%char 73).
  assert (Hs : starts_char (lit "X:" ++ repeat "128"%char 73)) by (cbn; unfold continuation; vm_compute; intros [H _]; lia).
  split; [exact Hs|]. apply (proj1 (C25_exact _ Hs)), (proj1 C25_exact_ex).
Qed.
Print Assumptions C25_terminates_refuted.

(** C26.  The iCalendar parameter parser always ends. *)
Theorem C26_ical_terminates : forall data fuel, (List.length data <= fuel)%nat ->
  exists r, ical_parseLine fuel data = Some r.
Proof. exact LineProofs.ical_parse_total. Qed.
Print Assumptions C26_ical_terminates.
Example C26_ical_terminates_ex :
  ical_parseLine 20 (lit "X;P=" ++ DQUOTE :: lit "a" ++ DQUOTE :: lit "b:c") = Some (Raise InvalidProperty).
Proof. vm_compute; reflexivity. Qed.

(** The vCard one does not. *)
Theorem C26_vcard_terminates_refuted : exists data, forall ctx fuel, vcard_parseLine ctx fuel data = None.
Proof. exists (lit "X;P=" ++ DQUOTE :: lit "a" ++ DQUOTE :: lit "b:c"). exact LineProofs.vcard_loops. Qed.
Print Assumptions C26_vcard_terminates_refuted.
Example C26_vcard_terminates_refuted_ex :
  exists l, vcard_parseLine default_ctx 20 (lit "g.X;P=" ++ DQUOTE :: lit "a" ++ DQUOTE :: lit ":b:c") = Some (Ok l) /\
    lGroup l = Some (lit "g") /\ lName l = lit "X" /\ lValue l = Some (lit "b:c").
Proof. eexists; repeat split; vm_compute; reflexivity. Qed.

(** It ends within as many rounds as there are characters or never. *)
Theorem C26_vcard_dichotomy : forall ctx n txt ps strip, (List.length txt <= n)%nat ->
  (exists r, vparam_loop ctx n txt ps strip = Some r) \/ (forall fuel, vparam_loop ctx fuel txt ps strip = None).
Proof. exact LineProofs.vcard_dichotomy. Qed.
Print Assumptions C26_vcard_dichotomy.
Example C26_vcard_dichotomy_ex : exists r, vparam_loop default_ctx 9 (lit ";TYPE=a:v") [] false = Some r.
Proof. eexists; vm_compute; reflexivity. Qed.
