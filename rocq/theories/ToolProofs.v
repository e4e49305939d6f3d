(** Proofs about the checking tool. *)
From Coq Require Import Lia ZifyBool ZifyNat Permutation.
From Verif Require Import PyBase PyProofs ParserCtx TextModel LineModel LineProofs DateTimeModel PropertyModel ComponentModel ComponentSpec ComponentProofs7 VCardSpec PropValidate PropVCard PropVCardCheck ToolModel ToolSpec.

Lemma starts data pat : startswith data pat = true <-> exists b, data = pat ++ b.
Proof.
  revert data. induction pat as [|c pat IH]; intros data.
  - split; [intros _; exists data; reflexivity|destruct data; reflexivity].
  - destruct data as [|d data]; cbn [startswith app].
    + split; [discriminate|intros (b & E); discriminate E].
    + rewrite andb_true_iff, IH. destruct (Ascii.eqb_spec c d) as [->|N].
      * split; [intros [_ (b & ->)]; eauto|intros (b & E); injection E as ->; eauto].
      * split; [intros [X _]; discriminate X|intros (b & E); injection E as -> _; contradiction].
Qed.
Lemma contains_iff data pat : contains data pat = true <-> has_text_in data pat.
Proof.
  induction data as [|c data IH]; cbn [contains].
  - rewrite orb_false_r, starts. split; [intros (b & E); exists [], b; exact E|]. intros (a & b & E). destruct a; [exists b; exact E|discriminate E].
  - rewrite orb_true_iff, starts, IH. split.
    + intros [(b & E)|(a & b & E)]; [exists [], b; exact E|]. exists (c :: a), b. rewrite E. reflexivity.
    + intros (a & b & E). destruct a as [|x a]; [left; exists b; exact E|]. right. injection E as -> E. exists a, b. exact E.
Qed.

Lemma is_control_iff c : is_control c = true <-> let n := Z.of_nat (nat_of_ascii c) in n < 32 /\ n <> 9 /\ n <> 10 /\ n <> 13.
Proof.
  cbv zeta. unfold is_control, control_characters. set (n := Z.of_nat (nat_of_ascii c)). assert (0 <= n) by (subst n; lia). clearbody n. cbn [existsb].
  rewrite !orb_true_iff, !Z.eqb_eq. split; [lia|]. intros (A & B & C & D). lia.
Qed.
Lemma report_in data : forall k n i, In (Control n i) (report_controls k data) <-> k <= i /\ control_at data (i - k) n.
Proof.
  induction data as [|c data IH]; intros k n i; cbn [report_controls].
  - split; [intros []|]. intros (_ & x & _ & E & _). destruct (Z.to_nat (i - k)); discriminate E.
  - rewrite in_app_iff, IH. split.
    + intros [H|[H (x & H0 & E & R)]].
      * destruct (is_control c) eqn:C; [|destruct H]. destruct H as [H|[]]. injection H as <- <-. apply is_control_iff in C. split; [lia|].
        exists c. rewrite Z.sub_diag. split; [lia|]. split; [reflexivity|]. split; [reflexivity|exact C].
      * split; [lia|]. exists x. split; [lia|]. replace (Z.to_nat (i - k)) with (S (Z.to_nat (i - (k + 1)))) by lia. split; [exact E|exact R].
    + intros [H (x & H0 & E & En & R)]. destruct (Z.eq_dec i k) as [->|N].
      * left. rewrite Z.sub_diag in E. cbn in E. injection E as ->. assert (is_control x = true) as -> by (apply is_control_iff; cbv zeta; rewrite <- En; exact R). left. congruence.
      * right. split; [lia|]. exists x. split; [lia|]. replace (Z.to_nat (i - k)) with (S (Z.to_nat (i - (k + 1)))) in E by lia. split; [exact E|]. split; [exact En|exact R].
Qed.
Lemma report_order data : forall k, in_order (report_controls k data).
Proof.
  induction data as [|c data IH]; intro k; cbn [report_controls]; [constructor|]. destruct (is_control c); cbn [app]; [|apply IH].
  constructor; [|apply IH]. intros m j H. apply report_in in H. lia.
Qed.
Lemma filter_len {A} (f : A -> bool) l : (List.length (filter f l) <= List.length l)%nat.
Proof. induction l as [|x l IH]; cbn; [lia|]. destruct (f x); cbn; lia. Qed.
Lemma filter_none {A} (f : A -> bool) l : List.length (filter (fun x => negb (f x)) l) = List.length l -> forall x, In x l -> f x = false.
Proof.
  induction l as [|y l IH]; intros E x H; [destruct H|]. cbn in E. destruct (f y) eqn:F; cbn in E.
  - pose proof (filter_len (fun x => negb (f x)) l). lia.
  - destruct H as [<-|H]; [exact F|apply IH; [lia|exact H]].
Qed.
Lemma controls_spec data : all_controls data (controls data).
Proof.
  unfold controls. destruct (Nat.eqb_spec (List.length (filter (fun c => negb (is_control c)) data)) (List.length data)) as [E|_].
  - split; [constructor|]. intros n i. split; [intros []|]. intros (c & H0 & N & En & R). apply nth_error_In in N.
    pose proof (filter_none is_control data E c N) as F. assert (is_control c = true) by (apply is_control_iff; cbv zeta; rewrite <- En; exact R). congruence.
  - split; [apply report_order|]. intros n i. rewrite report_in, Z.sub_0_r. split; [tauto|]. intro H. split; [|exact H]. destruct H as (c & H & _). exact H.
Qed.
Lemma verdict_spec u P : (forall m, In m u <-> P m) -> tells P (verdict u).
Proof.
  intro H. destruct u as [|x u]; cbn [verdict tells]; [|split; [discriminate|exact H]]. intros p X. apply H in X. destruct X.
Qed.
Lemma is_error_iff e : is_error e = true <-> library_error e.
Proof. unfold library_error. destruct e; cbn; split; intro H; try discriminate; try tauto; intuition discriminate. Qed.

(** ** Something is read from every text that is not empty. *)
Lemma readline_len ins : ins <> [] -> (List.length (snd (readline ins)) < List.length ins)%nat /\ fst (readline ins) <> [].
Proof.
  induction ins as [|c r IH]; intro H; [contradiction|]. cbn [readline]. destruct (Ascii.eqb c LF); cbn; [split; [lia|discriminate]|].
  destruct (readline r) as [a b] eqn:E. cbn. split; [|discriminate]. destruct r as [|d r]; [cbn in E; injection E as <- <-; cbn; lia|]. destruct IH as [L _]; [discriminate|]. cbn [snd] in L. lia.
Qed.
Lemma strip_some s : s <> [] -> exists l, strip_eol s = Some l.
Proof.
  intro H. unfold strip_eol. destruct (rev s) as [|c r] eqn:E; [apply (f_equal (@rev ascii)) in E; rewrite rev_involutive in E; contradiction|].
  destruct (Ascii.eqb c LF); [destruct r as [|d r']; [eauto|destruct (Ascii.eqb d CR); eauto]|]. destruct (Ascii.eqb c CR); eauto.
Qed.
Lemma fold_some : forall fuel l0 ins, (List.length ins < fuel)%nat -> exists x, fold_read fuel l0 ins = Some x.
Proof.
  induction fuel as [|f IH]; intros l0 ins H; [lia|]. cbn [fold_read]. destruct ins as [|c r]; [cbn; eauto|].
  destruct (readline_len (c :: r)) as [L _]; [discriminate|]. destruct (readline (c :: r)) as [m ins']. cbn [snd] in L.
  destruct (strip_eol m) as [[|d s]|]; eauto. destruct (is_space d); [apply IH; cbn in *; lia|eauto].
Qed.
Lemma lines_some text : text <> [] -> exists l r, read_lines (S (List.length text)) None text = l :: r.
Proof.
  intro H. cbn [read_lines]. unfold readFoldedLine. destruct (readline_len text H) as [_ N]. destruct (readline text) as [m ins'] eqn:E. cbn [fst] in N.
  destruct (strip_some m N) as [l ->]. destruct (fold_some (S (List.length ins')) l ins') as [[[a b] c] ->]; [lia|]. eauto.
Qed.
Lemma mem_text data pat : pat <> [] -> has_text_in data pat -> data <> [].
Proof. intros P (a & b & E) ->. destruct a; [|discriminate E]. destruct pat; [contradiction|discriminate E]. Qed.

Section Tool.
Variable tzo : tzid -> Z -> Z -> Z -> Z -> Z -> Z -> bool -> bool -> Z.
Variable ctx : pctx.
Variable fl : floats.
Variable uuids : nat -> bytes.
Lemma found_line l st st' : found st = true -> parse_line tzo ctx fl uuids l st = Ok st' -> found st' = true.
Proof.
  destruct st as [inside f self opened made]. cbn [found]. intros -> H. unfold parse_line in H.
  destruct (negb inside).
  - destruct (beq l _); [injection H as <-; reflexivity|]. destruct l; [|discriminate H]. unfold blank in H. destruct (peqb _ _); [discriminate H|]. injection H as <-. reflexivity.
  - destruct (startswith l (lit "BEGIN:")); [injection H as <-; reflexivity|]. destruct (beq l (endDelimiter (cKind self))).
    + destruct (finalise tzo self); [|discriminate H]. cbn [rbind] in H. injection H as <-. reflexivity.
    + destruct (match opened with [] => false | c :: _ => beq l (endDelimiter (cKind c)) end).
      * destruct opened as [|c outer]; [discriminate H|]. destruct (finalise tzo c); [|discriminate H]. cbn [rbind] in H. destruct outer as [|d outer].
        -- destruct (addComponent self a); [|discriminate H]. cbn [rbind] in H. injection H as <-. reflexivity.
        -- destruct (addComponent d a); [|discriminate H]. cbn [rbind] in H. injection H as <-. reflexivity.
      * destruct l; [unfold blank in H; destruct (peqb _ _); [discriminate H|]; injection H as <-; reflexivity|].
        destruct (prop_parse ctx fl (a :: l)); [|discriminate H]. cbn [rbind] in H. destruct opened; [destruct (validProperty a0); [|discriminate H]|]; injection H as <-; reflexivity.
Qed.
Lemma found_lines ls : forall st st', found st = true -> parse_lines tzo ctx fl uuids ls st = Ok st' -> found st' = true.
Proof.
  induction ls as [|l ls IH]; intros st st' F H; cbn [parse_lines] in H; [injection H as <-; exact F|].
  destruct (parse_line tzo ctx fl uuids l st) as [s1|] eqn:E; [|discriminate H]. cbn [rbind] in H. eapply IH; [|exact H]. eapply found_line; eassumption.
Qed.
Lemma calendar_found text : BLANK_LINES_IN_DATA ctx = PARSER_RAISE -> text <> [] -> parseTextData tzo ctx fl uuids text <> Ok None.
Proof.
  intros B T H. unfold parseTextData, ComponentModel.parse in H. destruct (lines_some text T) as (l & r & L). rewrite L in H. cbn [parse_lines] in H.
  destruct (parse_line tzo ctx fl uuids l _) as [s1|] eqn:E; [|discriminate H]. cbn [rbind] in H.
  assert (F : found s1 = true).
  { unfold parse_line in E. cbn [negb] in E. destruct (beq l _); [injection E as <-; reflexivity|]. destruct l; [|discriminate E]. unfold blank in E. rewrite B in E. discriminate E. }
  destruct (parse_lines tzo ctx fl uuids r s1) as [s2|] eqn:E2; [|discriminate H]. cbn [rbind] in H. rewrite (found_lines _ _ _ F E2) in H. cbn [andb] in H.
  destruct (inside s2); [discriminate H|]. destruct (negb _); [discriminate H|]. cbn [rbind fst] in H. discriminate H.
Qed.
Lemma card_found text : BLANK_LINES_IN_DATA ctx = PARSER_RAISE -> text <> [] -> card_parse ctx fl text <> Some (Ok None).
Proof.
  intros B T H. destruct (proj1 (C70_single ctx fl text) None H) as (ls & C & ->). unfold lines_in in C. destruct (lines_some text T) as (l & r & L). rewrite L in C.
  inversion C; subst. contradiction.
Qed.
End Tool.
