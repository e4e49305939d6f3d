(** XML text that is written is read as the same tree. *)
From Coq Require Import Lia.
From Verif Require Import PyBase PyProofs JsonModel JsonProofs XmlModel XmlSpec.

Lemma after_app p s : after p (p ++ s) = Some s.
Proof. induction p as [|c p IH]; [reflexivity|]. cbn. rewrite Ascii.eqb_refl. exact IH. Qed.
Definition stops (s : bytes) : Prop := match s with [] => True | c :: _ => c = "<"%char end.

Lemma char_case (P : ascii -> Prop) : (forall b0 b1 b2 b3 b4 b5 b6 b7, P (Ascii b0 b1 b2 b3 b4 b5 b6 b7)) -> forall c, P c.
Proof. intros H [? ? ? ? ? ? ? ?]. apply H. Qed.

Definition escape1 (c : ascii) : bytes :=
  if Ascii.eqb c "&" then lit "&amp;" else if Ascii.eqb c "<" then lit "&lt;" else if Ascii.eqb c ">" then lit "&gt;" else [c].
Lemma escape_cons c s : escape (c :: s) = escape1 c ++ escape s.
Proof. reflexivity. Qed.
Lemma chars_read s : xml_text_ok s -> forall rest n, stops rest -> (List.length (escape s ++ rest) < n)%nat ->
  chars n (escape s ++ rest) = Some (s, rest).
Proof.
  induction 1 as [|c s [L C] _ IH]; intros rest n S N.
  - destruct n as [|n]; [lia|]. cbn [escape flat_map app]. destruct rest as [|c r]; [reflexivity|]. cbn in S. subst c. reflexivity.
  - rewrite escape_cons, <- app_assoc in *. destruct n as [|n]; [lia|]. unfold escape1 in *.
    destruct (Ascii.eqb c "&") eqn:E1; [|destruct (Ascii.eqb c "<") eqn:E2; [|destruct (Ascii.eqb c ">") eqn:E3]].
    + apply Ascii.eqb_eq in E1. subst c. cbn -[chars escape] in N. cbn -[escape]. rewrite IH; [reflexivity|exact S|lia].
    + apply Ascii.eqb_eq in E2. subst c. cbn -[chars escape] in N. cbn -[escape]. rewrite IH; [reflexivity|exact S|lia].
    + apply Ascii.eqb_eq in E3. subst c. cbn -[chars escape] in N. cbn -[escape]. rewrite IH; [reflexivity|exact S|lia].
    + cbn [app List.length] in N. cbn [app chars]. rewrite E1, E2.
      destruct (Ascii.eqb c CR) eqn:E4; [apply Ascii.eqb_eq in E4; contradiction|]. rewrite L. rewrite IH; [reflexivity|exact S|lia].
Qed.
Lemma data_read s rest : xml_text_ok s -> stops rest -> data (escape s ++ rest) = Some (s, rest).
Proof. intros H S. unfold data. apply chars_read; [exact H|exact S|lia]. Qed.

Lemma word_read s c r : forallb name_char s = true -> name_char c = false -> word (s ++ c :: r) = (s, c :: r).
Proof.
  intros H C. induction s as [|a s IH]; cbn in *; [rewrite C; reflexivity|].
  apply andb_prop in H. destruct H as [A B]. rewrite A, (IH B). reflexivity.
Qed.
Lemma ascii_all (f : ascii -> bool) s : (forall c, f c = true -> (nat_of_ascii c < 128)%nat) -> forallb f s = true -> is_ascii s = true.
Proof. intros F H. apply ascii_spec. apply Forall_forall. intros c I. apply F. rewrite forallb_forall in H. exact (H c I). Qed.
Lemma name_char_ascii c : name_char c = true -> (nat_of_ascii c < 128)%nat.
Proof. pattern c. apply char_case. intros [] [] [] [] [] [] [] [] H; vm_compute in H |- *; try discriminate H; lia. Qed.
Lemma xname_all s : xname s = true -> forallb name_char s = true /\ s <> [].
Proof. destruct s as [|c r]; [discriminate|]. unfold xname. intro H. apply andb_prop in H. destruct H. split; [assumption|discriminate]. Qed.
Lemma xname_ascii s : xname s = true -> is_ascii s = true.
Proof. intro H. apply (ascii_all name_char); [exact name_char_ascii|]. apply xname_all. exact H. Qed.
Lemma text_ascii s : xml_text_ok s -> is_ascii s = true.
Proof.
  intro H. apply ascii_spec. apply Forall_forall. intros c I. unfold xml_text_ok in H. rewrite Forall_forall in H. destruct (H c I) as [L _].
  unfold legal in L. repeat (apply orb_prop in L; destruct L as [L|L]); try (apply Nat.eqb_eq in L; lia).
  apply andb_prop in L. destruct L as [_ L]. apply Nat.ltb_lt in L. exact L.
Qed.

Fixpoint xml_ind2 (P : xml -> Prop) (H : forall tag t kids tl, Forall P kids -> P (Elem tag t kids tl)) (x : xml) : P x :=
  match x with
  | Elem tag t kids tl => H tag t kids tl ((fix go l : Forall P l := match l with [] => Forall_nil P | k :: r => Forall_cons k (xml_ind2 P H k) (go r) end) kids)
  end.

(** Elements that can be written, and what is read then. *)
Inductive fine : xml -> Prop :=
| fine_intro : forall tag t s kids tl, xname tag = true -> text_of t = Ok s -> xml_text_ok s -> xml_text_ok tl -> Forall fine kids -> fine (Elem tag t kids tl).
Definition str (t : xtext) : bytes := match t with XStr s => s | _ => [] end.
Fixpoint shape (x : xml) : node := let '(Elem tag t kids tl) := x in Node tag (str t) (map shape kids) tl.

Definition kids_string : list xml -> res bytes :=
  fix go (l : list xml) : res bytes := match l with [] => Ok [] | k :: r => do a <- xml_string [] k; do b <- go r; Ok (a ++ b) end.
Lemma xml_string_eq atts tag t kids tl : xml_string atts (Elem tag t kids tl) =
  do s <- text_of t;
  do name <- (if is_ascii tag then Ok (lit "ns0:" ++ tag) else Raise ValueError);
  do inside <- match s, kids with
               | [], [] => Ok (lit " />")
               | _, _ => do a <- cdata s; do b <- kids_string kids; Ok (lit ">" ++ a ++ b ++ lit "</" ++ name ++ lit ">")
               end;
  do t <- cdata tl;
  Ok (lit "<" ++ name ++ atts ++ inside ++ t).
Proof. reflexivity. Qed.

Definition atts_ok (atts : bytes) : Prop := match atts with [] => True | c :: _ => name_char c = false end.
Definition string_reads (x : xml) : Prop := forall atts, atts_ok atts -> exists s, xml_string atts x = Ok s /\ (exists r, s = lit "<ns0:" ++ r) /\
  forall n rest, stops rest -> (List.length s <= n)%nat -> read_element n atts (s ++ rest) = Some (shape x, rest).

Lemma kids_read kids : Forall string_reads kids -> exists s, kids_string kids = Ok s /\ (s = [] \/ exists r, s = lit "<ns0:" ++ r) /\
  forall n rest, (List.length s < n)%nat -> read_elements n (s ++ lit "</" ++ rest) = Some (map shape kids, lit "</" ++ rest).
Proof.
  induction 1 as [|k l K _ (b & Eb & Sb & Rb)].
  - exists []. split; [reflexivity|]. split; [left; reflexivity|]. intros n rest N. destruct n as [|n]; [lia|]. cbn. reflexivity.
  - destruct (K [] I) as (a & Ea & (ra & Sa) & Ra). exists (a ++ b). cbn [kids_string]. rewrite Ea. cbn [rbind]. fold kids_string. rewrite Eb. split; [reflexivity|].
    assert (La : (0 < List.length a)%nat) by (rewrite Sa; cbn; lia).
    split; [right; exists (ra ++ b); rewrite Sa, <- app_assoc; reflexivity|]. intros n rest N. rewrite app_length in N. destruct n as [|n]; [lia|].
    cbn [read_elements]. rewrite <- app_assoc.
    assert (Hn : after (lit "</") (a ++ b ++ lit "</" ++ rest) = None) by (rewrite Sa; reflexivity). rewrite Hn.
    rewrite Ra; [cbn [fst snd]; rewrite Rb by lia; reflexivity| |lia].
    destruct Sb as [-> | (r & ->)]; reflexivity.
Qed.
Lemma string_read x : fine x -> string_reads x.
Proof.
  induction x as [tag t kids tl IH] using xml_ind2. intros F atts A. inversion F as [tag' t' s kids' tl' N T X L K E]. subst.
  assert (KR : Forall string_reads kids) by (rewrite Forall_forall in *; intros k I; apply (IH k I); apply K; exact I).
  destruct (kids_read kids KR) as (b & Eb & Sb & Rb). rewrite xml_string_eq, T. cbn [rbind]. rewrite (xname_ascii tag N). cbn [rbind].
  assert (Et : str t = s) by (destruct t; cbn in *; [injection T as <-; reflexivity|injection T as <-; reflexivity|discriminate T]).
  destruct (xname_all tag N) as [NA NE].
  assert (Hw : forall c r, atts = [] -> name_char c = false -> word (tag ++ atts ++ c :: r) = (tag, atts ++ c :: r)) by (intros c r -> C; apply word_read; assumption).
  assert (HW : forall c r, name_char c = false -> word (tag ++ atts ++ c :: r) = (tag, atts ++ c :: r)).
  { intros c r C. destruct atts as [|a atts]; [apply word_read; assumption|]. apply word_read; assumption. }
  unfold cdata. rewrite (text_ascii s X), (text_ascii tl L). cbn [rbind]. rewrite Eb. cbn [rbind].
  assert (D : s = [] /\ kids = [] \/ match s, kids with [], [] => Ok (lit " />") | _, _ => Ok (lit ">" ++ escape s ++ b ++ lit "</" ++ (lit "ns0:" ++ tag) ++ lit ">") end =
              Ok (lit ">" ++ escape s ++ b ++ lit "</" ++ (lit "ns0:" ++ tag) ++ lit ">")) by (destruct s; [destruct kids; [left; split; reflexivity|right; reflexivity]|right; reflexivity]).
  destruct D as [[-> ->] | D].
  - cbn [rbind]. eexists. split; [reflexivity|]. split; [eexists; reflexivity|]. intros n rest S B. destruct n as [|n]; [cbn in B; lia|].
    cbn [read_element]. rewrite <- !app_assoc. change (lit "<" ++ lit "ns0:" ++ tag ++ atts ++ lit " />" ++ escape tl ++ rest) with (lit "<ns0:" ++ (tag ++ atts ++ lit " />" ++ escape tl ++ rest)).
    rewrite after_app. change (lit " />" ++ escape tl ++ rest) with (" "%char :: (lit "/>" ++ escape tl ++ rest)). rewrite HW by reflexivity. cbn [fst snd].
    rewrite N, after_app. change (" "%char :: (lit "/>" ++ escape tl ++ rest)) with (lit " />" ++ (escape tl ++ rest)). rewrite after_app. cbn [fst snd].
    rewrite data_read by assumption. cbn [shape map]. rewrite Et. reflexivity.
  - rewrite D. cbn [rbind]. eexists. split; [reflexivity|]. split; [eexists; reflexivity|]. intros n rest S B. destruct n as [|n]; [cbn in B; lia|].
    cbn [read_element]. rewrite <- !app_assoc. rewrite !app_length in B. cbn [List.length lit list_ascii_of_string] in B.
    match goal with |- context[after (lit "<ns0:") ?x] => change x with (lit "<ns0:" ++ (tag ++ atts ++ lit ">" ++ escape s ++ b ++ lit "</" ++ lit "ns0:" ++ tag ++ lit ">" ++ escape tl ++ rest)) end.
    rewrite after_app. change (lit ">" ++ escape s ++ b ++ lit "</" ++ lit "ns0:" ++ tag ++ lit ">" ++ escape tl ++ rest) with (">"%char :: (escape s ++ b ++ lit "</" ++ lit "ns0:" ++ tag ++ lit ">" ++ escape tl ++ rest)).
    rewrite HW by reflexivity. cbn [fst snd]. rewrite N, after_app.
    match goal with |- context[after (lit " />") (?c :: ?r)] => change (after (lit " />") (c :: r)) with (@None bytes); change (after (lit ">") (c :: r)) with (Some r) end.
    cbv iota. rewrite data_read; [|exact X|destruct Sb as [-> | (r & ->)]; reflexivity]. cbn [fst snd].
    rewrite Rb by lia. cbn [fst snd].
    replace (lit "</" ++ lit "ns0:" ++ tag ++ lit ">" ++ escape tl ++ rest) with ((lit "</ns0:" ++ tag ++ lit ">") ++ (escape tl ++ rest)) by (rewrite <- !app_assoc; reflexivity).
    rewrite after_app. cbn [fst snd]. rewrite data_read by assumption. cbn [shape]. rewrite Et. reflexivity.
Qed.

(** Indentation only adds blanks where there are children. *)
Inductive sim : xml -> node -> Prop :=
| sim_leaf : forall tag t tl tl', blank tl' = true -> sim (Elem tag t [] tl) (Node tag (str t) [] tl')
| sim_branch : forall tag t kids tl t' l tl', kids <> [] -> blank t' = true -> blank tl' = true -> Forall2 sim kids l ->
    sim (Elem tag t kids tl) (Node tag t' l tl').
Inductive raw : xml -> Prop :=
| raw_leaf : forall tag t s, xname tag = true -> text_of t = Ok s -> xml_text_ok s -> raw (Elem tag t [] [])
| raw_branch : forall tag kids, xname tag = true -> Forall raw kids -> raw (Elem tag XNone kids []).

Lemma blank_line n : blank (new_line n) = true /\ xml_text_ok (new_line n).
Proof.
  unfold new_line. generalize (2 * n)%nat. intro k. split.
  - unfold blank. cbn [forallb]. induction k as [|k IH]; [reflexivity|exact IH].
  - constructor; [split; [reflexivity|discriminate]|]. induction k as [|k IH]; [constructor|]. constructor; [split; [reflexivity|discriminate]|exact IH].
Qed.
Definition indent_kids (level : nat) : list xml -> res (list xml) :=
  fix go (l : list xml) : res (list xml) :=
    match l with
    | [] => Ok []
    | k :: r => do k <- indentNode (S level) k; do t <- go r; Ok (put_tail (new_line (match r with [] => level | _ => S level end)) k :: t)
    end.
Lemma indent_eq level tag kids tl : indentNode level (Elem tag XNone kids tl) =
  match kids with [] => Ok (Elem tag XNone kids tl) | _ => do l <- indent_kids level kids; Ok (Elem tag (XStr (new_line (S level))) l tl) end.
Proof. destruct kids; reflexivity. Qed.
Definition indents (x : xml) : Prop := forall level, exists x', indentNode level x = Ok x' /\
  (forall tl, blank tl = true -> xml_text_ok tl -> fine (put_tail tl x') /\ sim x (shape (put_tail tl x'))) /\ put_tail [] x' = x'.
Lemma indent_kids_ok kids level : Forall indents kids -> exists l, indent_kids level kids = Ok l /\ Forall fine l /\ Forall2 sim kids (map shape l).
Proof.
  induction 1 as [|k r K _ (l & El & Fl & Sl)]; [exists []; repeat split; constructor|].
  destruct (K (S level)) as (x' & Ex & Hx & _). cbn [indent_kids]. rewrite Ex. cbn [rbind]. fold (indent_kids level). rewrite El. cbn [rbind]. eexists. split; [reflexivity|].
  destruct (blank_line (match r with [] => level | _ => S level end)) as [B T]. destruct (Hx _ B T) as [F S].
  split; [constructor; assumption|]. cbn [map]. constructor; assumption.
Qed.
Lemma raw_indents x : raw x -> indents x.
Proof.
  induction x as [tag t kids tl IH] using xml_ind2. intros R level. inversion R as [tag' t' s N T X|tag' kids' N K]; subst.
  - exists (Elem tag t [] []). split; [|split; [|reflexivity]].
    + destruct t as [|s'|f]; [reflexivity| |discriminate T]. cbn. destruct (existsb _ s'); reflexivity.
    + intros tl B L. split; [eapply fine_intro; try eassumption; constructor|apply sim_leaf; exact B].
  - rewrite indent_eq. destruct kids as [|k r].
    + exists (Elem tag XNone [] []). split; [reflexivity|]. split; [|reflexivity]. intros tl B L.
      split; [apply (fine_intro tag XNone [] [] tl); try assumption; try constructor; reflexivity|apply (sim_leaf tag XNone [] tl); exact B].
    + assert (KI : Forall indents (k :: r)) by (rewrite Forall_forall in *; intros y I; apply (IH y I); apply K; exact I).
      destruct (indent_kids_ok (k :: r) level KI) as (l & El & Fl & Sl). rewrite El. cbn [rbind]. eexists. split; [reflexivity|]. split; [|reflexivity].
      intros tl B L. cbn [put_tail shape str]. destruct (blank_line (S level)) as [Bn Tn].
      split; [apply (fine_intro tag (XStr (new_line (S level))) (new_line (S level)) l tl); try assumption; reflexivity|apply sim_branch; [discriminate|exact Bn|exact B|exact Sl]].
Qed.

Lemma string_tail atts x s : put_tail [] x = x -> xml_string atts x = Ok s -> xml_string atts (put_tail [LF] x) = Ok (s ++ [LF]).
Proof.
  destruct x as [tag t kids tl]. cbn [put_tail]. intro E. injection E as <-. rewrite !xml_string_eq.
  destruct (text_of t) as [a|]; [|discriminate]. cbn [rbind]. destruct (is_ascii tag); [|discriminate]. cbn [rbind].
  match goal with |- (do i <- ?m; _) = _ -> _ => destruct m as [i|] end; [|discriminate]. cbn [rbind cdata is_ascii forallb escape flat_map]. intro H. injection H as <-.
  cbn. rewrite <- !app_assoc, ?app_nil_r. reflexivity.
Qed.
Lemma document x : raw x -> exists s y, toString x = Ok s /\ read_document s = Some y /\ sim x y.
Proof.
  intro R. destruct (raw_indents x R O) as (x' & E & H & P). destruct (H [LF] eq_refl) as [F SM]; [constructor; [split; [reflexivity|discriminate]|constructor]|].
  destruct (H [] eq_refl (Forall_nil _)) as [F0 _]. rewrite P in F0.
  destruct (string_read x' F0 xmlns) as (s0 & E0 & _); [reflexivity|].
  destruct (string_read _ F xmlns) as (s & Es & _ & Rs); [reflexivity|]. pose proof (string_tail xmlns x' s0 P E0) as T. rewrite Es in T. injection T as ->.
  exists (declaration ++ s0 ++ [LF]), (shape (put_tail [LF] x')). split; [|split; [|exact SM]].
  - unfold toString. rewrite E. cbn [rbind]. rewrite E0. reflexivity.
  - unfold read_document. match goal with |- (match after ?d _ with _ => _ end) = _ => change d with declaration end. rewrite after_app.
    specialize (Rs (S (List.length (s0 ++ [LF]))) [] I ltac:(lia)). rewrite app_nil_r in Rs.
    change (lit " xmlns:ns0=" ++ [DQUOTE] ++ lit "urn:ietf:params:xml:ns:icalendar-2.0" ++ [DQUOTE]) with xmlns. rewrite Rs. reflexivity.
Qed.
