(** Properties C20-C22, C27, C28: text codecs and packed dates. *)
From Verif Require Import PyBase ParserCtx TextModel TextSpec CalModel.
From Verif Require TextProofs PackProofs.

(** C20. *)
Theorem C20_round_trip : forall ctx t, decodeTextValue ctx (escapeTextValue t) = Ok t.
Proof. exact TextProofs.decode_escape. Qed.
Print Assumptions C20_round_trip.
Example C20_round_trip_ex : forall ctx,
  escapeTextValue (lit "a;b\,c" ++ [CR; LF; BSLASH]) = lit "a\;b\\\,c\r\n\\" /\
  decodeTextValue ctx (lit "a\;b\\\,c\r\n\\") = Ok (lit "a;b\,c" ++ [CR; LF; BSLASH]).
Proof. split; reflexivity. Qed.

Theorem C20_escaped_form : forall t, escaped_form (escapeTextValue t).
Proof. exact TextProofs.escape_form. Qed.
Print Assumptions C20_escaped_form.
Example C20_escaped_form_ex : escaped_form (lit "a\;b\\\n") /\ ~ escaped_form (lit "a;b") /\ ~ escaped_form (lit "a\").
Proof.
  split; [exact (TextProofs.escape_form (lit "a;b\" ++ [LF]))|split; intros H; repeat (inversion H as [|c r Hc Hr|c r Hc Hr]; clear H; subst; [|]); auto].
  - inversion H as [|c r Hc Hr|]; subst. inversion Hr as [|c' r' Hc' Hr'|]; subst. apply Hc'; cbn; auto.
  - inversion H as [|c r Hc Hr|]; subst. inversion Hr as [|c' r' Hc' Hr'|]; subst. apply Hc'; cbn; auto 6.
Qed.

(** Text without special characters is written unchanged. *)
Theorem C20_plain_unchanged : forall t,
  ~ (exists c, In c t /\ In c [CR; LF; ";"%char; ","%char; BSLASH]) -> escapeTextValue t = t.
Proof. exact TextProofs.escape_same. Qed.
Print Assumptions C20_plain_unchanged.
Example C20_plain_unchanged_ex : ~ (exists c, In c (lit "a: b") /\ In c [CR; LF; ";"%char; ","%char; BSLASH]).
Proof. intros (c & H & H'); cbn in H, H'; repeat (destruct H as [<-|H]; [intuition discriminate|]); exact H. Qed.

(** C21.  Every text has exactly one reading as pieces; the result follows from it. *)
Theorem C21_reading : forall s, exists ps, pieces s ps /\ forall ps', pieces s ps' -> ps' = ps.
Proof.
  intros s; destruct (TextProofs.pieces_total s) as [ps H]; exists ps; split; [exact H|].
  intros ps' H'; exact (TextProofs.pieces_unique s ps' H' ps H).
Qed.
Print Assumptions C21_reading.
Example C21_reading_ex : pieces (lit "a\:\\") [Plain "a"; Esc ":"; Esc BSLASH] /\ pieces (lit "a\") [Plain "a"; Lone].
Proof. split; repeat constructor; discriminate. Qed.

Theorem C21_result : forall ctx s ps, pieces s ps ->
  ((exists p, In p ps /\ rejected ctx p) -> decodeTextValue ctx s = Raise ValueError) /\
  (~ (exists p, In p ps /\ rejected ctx p) -> decodeTextValue ctx s = Ok (flat_map (stands_for ctx) ps)).
Proof. intros ctx s ps H; rewrite TextProofs.decode_dec; exact (TextProofs.dec_pieces ctx s ps H). Qed.
Print Assumptions C21_result.
Example C21_result_ex :
  rejected (allRaise default_ctx) (Esc ":") /\ ~ rejected default_ctx (Esc ":") /\ rejected default_ctx (Esc "x") /\
  decodeTextValue (allRaise default_ctx) (lit "a\:b") = Raise ValueError /\
  decodeTextValue default_ctx (lit "a\:b") = Ok (lit "a:b") /\
  decodeTextValue default_ctx (lit "a\xb") = Raise ValueError.
Proof.
  split; [split; [unfold is_escape; cbn; intuition discriminate|reflexivity]|].
  split; [intros [_ H]; discriminate H|].
  split; [split; [unfold is_escape; cbn; intuition discriminate|reflexivity]|].
  repeat split; reflexivity.
Qed.

Theorem C21_lenient_total : forall ctx s,
  INVALID_COLON_ESCAPE_SEQUENCE ctx <> PARSER_RAISE -> INVALID_ESCAPE_SEQUENCES ctx <> PARSER_RAISE ->
  exists t, decodeTextValue ctx s = Ok t.
Proof.
  intros ctx s H1 H2; destruct (TextProofs.pieces_total s) as [ps Hps].
  destruct (C21_result ctx s ps Hps) as [_ H]; eexists; apply H.
  intros (p & _ & Hr); destruct p as [c|c|]; cbn in Hr; try contradiction.
  destruct Hr as [_ Hr]; destruct (Ascii.eqb c ":"); contradiction.
Qed.
Print Assumptions C21_lenient_total.
Example C21_lenient_total_ex :
  let ctx := mkCtx PARSER_FIX PARSER_IGNORE PARSER_FIX PARSER_FIX PARSER_FIX PARSER_FIX PARSER_FIX PARSER_FIX PARSER_FIX PARSER_FIX PARSER_FIX PARSER_FIX in
  decodeTextValue ctx (lit "\x\:y\") = Ok (lit ":y").
Proof. reflexivity. Qed.

(** C22. *)
Theorem C22_round_trip : forall s, decodeParameterValue (encodeParameterValue s) = unix_newlines s.
Proof. exact TextProofs.param_round_trip. Qed.
Print Assumptions C22_round_trip.
Example C22_round_trip_ex :
  encodeParameterValue (lit "^n^" ++ [CR; LF; LF; CR; DQUOTE]) = lit "^^n^^^n^n^n^'" /\
  unix_newlines (lit "^n^" ++ [CR; LF; LF; CR; DQUOTE]) = lit "^n^" ++ [LF; LF; LF; DQUOTE].
Proof. split; reflexivity. Qed.

Theorem C22_exact_without_cr : forall s, ~ In CR s -> decodeParameterValue (encodeParameterValue s) = s.
Proof. intros s H; rewrite TextProofs.param_round_trip; exact (TextProofs.unix_same s H). Qed.
Print Assumptions C22_exact_without_cr.
Example C22_exact_without_cr_ex : ~ In CR (lit "^'^^n" ++ [LF; DQUOTE]).
Proof. cbn; intuition discriminate. Qed.

Theorem C22_clean : forall s x, In x (encodeParameterValue s) -> x <> CR /\ x <> LF /\ x <> DQUOTE.
Proof. exact TextProofs.param_clean. Qed.
Print Assumptions C22_clean.
Example C22_clean_ex : In "n"%char (encodeParameterValue [LF]).
Proof. cbn; auto. Qed.

(** Any text, not only what the encoder writes. *)
Theorem C22_reads : forall s t, decodeParameterValue s = t <-> caret_reads s t.
Proof. exact TextProofs.caret_reads_iff. Qed.
Print Assumptions C22_reads.
Example C22_reads_ex : decodeParameterValue (lit "^x^^n^'^") = lit "^x^n" ++ [DQUOTE; "^"%char].
Proof. reflexivity. Qed.

(** C27.  What is read back from a written list, and when that is the list. *)
Theorem C27_list_read_back : forall ctx sep items, sep = ";"%char \/ sep = ","%char -> items <> [] ->
  parseTextList ctx sep (generateTextList sep items) = Ok (merged sep items).
Proof. exact TextProofs.list_read_back. Qed.
Print Assumptions C27_list_read_back.
Example C27_list_read_back_ex : generateTextList "," [lit "a\"; lit "b"; lit "c"] = lit "a\\,b,c" /\
  merged "," [lit "a\"; lit "b"; lit "c"] = [lit "a\,b"; lit "c"].
Proof. split; reflexivity. Qed.
Theorem C27_list_round_trip : forall ctx sep items, sep = ";"%char \/ sep = ","%char -> items <> [] ->
  (parseTextList ctx sep (generateTextList sep items) = Ok items <->
   Forall (fun x => ~ ends_with_backslash x) (but_last items)).
Proof. exact TextProofs.list_round_trip. Qed.
Print Assumptions C27_list_round_trip.
Example C27_list_round_trip_ex :
  generateTextList ";" [lit "a;,"; []; lit "\b"; [LF; BSLASH]] = lit "a\;\,;;\\b;\n\\" /\
  parseTextList default_ctx ";" (lit "a\;\,;;\\b;\n\\") = Ok [lit "a;,"; []; lit "\b"; [LF; BSLASH]] /\
  but_last [lit "a;,"; []; lit "\b"; [LF; BSLASH]] = [lit "a;,"; []; lit "\b"].
Proof. repeat split; reflexivity. Qed.

Theorem C27_trailing_backslash_refuted : exists items, forall ctx,
  parseTextList ctx ";" (generateTextList ";" items) <> Ok items.
Proof. exists [[BSLASH]; lit "x"]; intros ctx; vm_compute; discriminate. Qed.
Print Assumptions C27_trailing_backslash_refuted.
Example C27_trailing_backslash_refuted_ex :
  parseTextList default_ctx ";" (generateTextList ";" [lit "a\"; lit "b"]) = Ok [lit "a\;b"].
Proof. reflexivity. Qed.

Theorem C27_list_only_value_error : forall ctx sep data e, parseTextList ctx sep data = Raise e -> e = ValueError.
Proof. intros ctx sep data e; exact (TextProofs.ptl_only_value ctx sep data None [] e). Qed.
Print Assumptions C27_list_only_value_error.
Example C27_list_only_value_error_ex : parseTextList default_ctx "," (lit "a,b\x,c") = Raise ValueError.
Proof. reflexivity. Qed.

(** Two level values (ADR, N): [maxsize] components. *)
Theorem C27_nested_round_trip : forall ctx data maxsize, data <> [] -> (List.length data <= maxsize)%nat ->
  Forall (fun x => ~ ends_with_backslash x) (but_last (leaves data)) ->
  parseDoubleNestedList ctx (generateDoubleNestedList data) maxsize =
  Ok (map normal data ++ repeat (NStr []) (maxsize - List.length data)).
Proof. exact TextProofs.nested_round_trip. Qed.
Print Assumptions C27_nested_round_trip.
Example C27_nested_round_trip_ex :
  let data := [NStr (lit "a;b"); NTup [lit "c,"; []; lit "d"]; NTup [lit "e"]; NTup []; NStr [BSLASH]] in
  generateDoubleNestedList data = lit "a\;b;c\,,,d;e;;\\" /\
  map normal data = [NStr (lit "a;b"); NTup [lit "c,"; []; lit "d"]; NStr (lit "e"); NStr []; NStr [BSLASH]] /\
  Forall (fun x => ~ ends_with_backslash x) (but_last (leaves data)).
Proof.
  split; [reflexivity|split; [reflexivity|]].
  cbn. repeat constructor; rewrite <- TextProofs.ends_bs_iff; discriminate.
Qed.

Theorem C27_nested_size : forall ctx data maxsize l,
  INVALID_ADR_N_VALUES ctx = PARSER_FIX \/ INVALID_ADR_N_VALUES ctx = PARSER_RAISE ->
  parseDoubleNestedList ctx data maxsize = Ok l -> List.length l = maxsize.
Proof. exact TextProofs.nested_size. Qed.
Print Assumptions C27_nested_size.
Example C27_nested_size_ex :
  exists l, parseDoubleNestedList default_ctx (lit "a;b;c") 5 = Ok l /\ List.length l = 5%nat.
Proof. eexists; split; reflexivity. Qed.

(** C28. *)
Theorem C28_round_trip : forall y m d, 0 <= y <= 65535 -> 0 <= m <= 255 -> -128 <= d <= 127 ->
  unpackDate (packDate y m d) = (y, m, d) /\ unpackDateYear (packDate y m d) = y /\
  unpackDateMonth (packDate y m d) = m /\ unpackDateDay (packDate y m d) = d.
Proof. exact PackProofs.pack_unpack. Qed.
Print Assumptions C28_round_trip.
Example C28_round_trip_ex : unpackDate (packDate 2011 12 (-31)) = (2011, 12, -31).
Proof. reflexivity. Qed.

Theorem C28_order : forall y m d y' m' d',
  0 <= m <= 255 -> -128 <= d <= 127 -> 0 <= m' <= 255 -> -128 <= d' <= 127 ->
  (packDate y m d < packDate y' m' d' <-> y < y' \/ (y = y' /\ (m < m' \/ (m = m' /\ d < d')))).
Proof. exact PackProofs.pack_order. Qed.
Print Assumptions C28_order.
Example C28_order_ex : packDate 2011 2 28 < packDate 2011 3 1 /\ packDate 1999 12 31 < packDate 2000 1 1.
Proof. split; reflexivity. Qed.
