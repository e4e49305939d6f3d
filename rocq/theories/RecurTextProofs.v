(** Proofs about the text form of recurrence rules. *)
From Coq Require Import Lia ZifyBool ZifyNat Permutation.
From Verif Require Import PyBase PyProofs DateTimeModel DateTimeSpec DateTimeSpec2 DateTimeText DateTimeTextProofs.
From Verif Require Import RecurModel RecurSpec.
Ltac Zify.zify_post_hook ::= Z.div_mod_to_equations.

(** ** Splitting and joining *)
Lemma split_char_no c s : cin c s = false -> split_char c s = [s].
Proof.
  induction s as [|x s IH]; cbn; auto. intro H. apply orb_false_iff in H as [H1 H2].
  rewrite H1, IH by exact H2. reflexivity.
Qed.
Lemma split_char_app c s t : cin c s = false -> split_char c (s ++ c :: t) = s :: split_char c t.
Proof.
  induction s as [|x s IH]; cbn.
  - intros _. rewrite Ascii.eqb_refl. reflexivity.
  - intro H. apply orb_false_iff in H as [H1 H2]. rewrite H1, IH by exact H2. reflexivity.
Qed.
Lemma split_join c l : l <> [] -> Forall (fun s => cin c s = false) l -> split_char c (join_char c l) = l.
Proof.
  induction l as [|x l IH]; [congruence|]. intros _ F. inversion F as [|? ? Hx Fl]; subst.
  destruct l as [|y l]; [apply split_char_no; exact Hx|].
  change (join_char c (x :: y :: l)) with (x ++ c :: join_char c (y :: l)).
  rewrite split_char_app by exact Hx. rewrite IH; [reflexivity|discriminate|exact Fl].
Qed.
Lemma join_flat c x r : join_char c (x :: r) = x ++ flat_map (fun v => c :: v) r.
Proof.
  revert x; induction r as [|y r IH]; intro x; [cbn; rewrite app_nil_r; reflexivity|].
  change (join_char c (x :: y :: r)) with (x ++ c :: join_char c (y :: r)). rewrite IH. reflexivity.
Qed.
Lemma cin_app c a b : cin c (a ++ b) = cin c a || cin c b.
Proof. induction a as [|x a IH]; cbn; auto. rewrite IH. apply orb_assoc. Qed.
Lemma cin_join c d l : c <> d -> Forall (fun s => cin c s = false) l -> cin c (join_char d l) = false.
Proof.
  intros Hn F. destruct l as [|x l]; [reflexivity|]. rewrite join_flat, cin_app. inversion F as [|? ? Hx Fl]; subst.
  rewrite Hx. cbn. clear F. induction l as [|y l IH]; [reflexivity|]. inversion Fl; subst. cbn.
  rewrite cin_app, IH by assumption. destruct (Ascii.eqb_spec c d); [congruence|]. rewrite H1. reflexivity.
Qed.

(** ** Characters of printed numbers *)
Lemma all_digits_cin c s : all_digits s = true -> is_digit c = false -> cin c s = false.
Proof.
  intros D H. destruct (cin c s) eqn:E; auto. apply cin_In in E. unfold all_digits in D. rewrite forallb_forall in D.
  rewrite (D c E) in H. discriminate.
Qed.
Lemma pystr_cin c n : is_digit c = false -> c <> "-"%char -> cin c (pystr n) = false.
Proof.
  intros H Hm. unfold pystr. destruct (Z.ltb_spec n 0).
  - cbn. destruct (Ascii.eqb_spec c "-"); [congruence|]. cbn. apply all_digits_cin; [apply udigits_spec; lia|exact H].
  - apply all_digits_cin; [apply udigits_spec; lia|exact H].
Qed.
Lemma pyint_pystr n : pyint (pystr n) = Ok n.
Proof.
  unfold pystr. destruct (Z.ltb_spec n 0).
  - destruct (udigits_spec (- n) ltac:(lia)) as (D & N & R & _).
    unfold pyint. cbn [lstrip is_space]. change (is_space "-") with false. cbn iota.
    rewrite Ascii.eqb_refl. rewrite lstrip_digits by exact D. rewrite span_digits_all by exact D.
    destruct (udigits (- n)); [congruence|]. cbn [lstrip]. rewrite R. f_equal. lia.
  - destruct (udigits_spec n ltac:(lia)) as (D & N & R & _). rewrite pyint_digits, R by assumption. reflexivity.
Qed.

Lemma mapr_map {A B C} (f : B -> res C) (g : A -> B) (h : A -> C) l :
  (forall x, In x l -> f (g x) = Ok (h x)) -> mapr f (map g l) = Ok (map h l).
Proof.
  induction l as [|x l IH]; intro H; [reflexivity|]. cbn. rewrite (H x) by (left; reflexivity). cbn.
  rewrite IH by (intros y Hy; apply H; right; exact Hy). reflexivity.
Qed.
Lemma mapr_Forall {A B} (f : A -> res B) (P : B -> Prop) l ys :
  (forall x y, f x = Ok y -> P y) -> mapr f l = Ok ys -> Forall P ys.
Proof.
  intro H. revert ys; induction l as [|x l IH]; intros ys E; cbn in E; [injection E as <-; constructor|].
  destruct (f x) eqn:Ef; [|discriminate]. cbn in E. destruct (mapr f l) eqn:El; [|discriminate]. cbn in E.
  injection E as <-. constructor; eauto.
Qed.
Lemma mapr_err {A B} (f : A -> res B) (Q : exn -> Prop) l e :
  (forall x e, f x = Raise e -> Q e) -> mapr f l = Raise e -> Q e.
Proof.
  intro H. induction l as [|x l IH]; cbn; [discriminate|]. destruct (f x) eqn:Ef; cbn.
  - destruct (mapr f l) eqn:El; cbn; [discriminate|]. intro K; injection K as <-; auto.
  - intro K; injection K as <-. eauto.
Qed.

(** ** One list *)
Lemma parseList_text mn mx neg l : l <> [] ->
  Forall (fun n => parse_num mn mx neg (pystr n) = Ok n) l ->
  parseList (join_char "," (map pystr l)) mn mx neg = Ok l.
Proof.
  intros N F. unfold parseList. rewrite split_join.
  - rewrite (mapr_map _ pystr (fun n => n)); [rewrite map_id; reflexivity|]. rewrite Forall_forall in F. exact F.
  - destruct l; [congruence|discriminate].
  - apply Forall_forall. intros s Hs. apply in_map_iff in Hs as (n & <- & _). apply pystr_cin; [reflexivity|discriminate].
Qed.
Lemma parse_num_text mn mx neg n :
  (neg = false -> 0 <= n) -> (forall m, mn = Some m -> m <= Z.abs n) -> (forall m, mx = Some m -> Z.abs n <= m) ->
  parse_num mn mx neg (pystr n) = Ok n.
Proof.
  intros H1 H2 H3. unfold parse_num. rewrite pyint_pystr. cbn [rbind].
  destruct neg; cbn [negb andb]; [|destruct (Z.ltb_spec n 0); [specialize (H1 eq_refl); lia|]];
  (destruct mn as [m|]; [specialize (H2 m eq_refl); destruct (Z.ltb_spec (Z.abs n) m); [lia|]|];
   (destruct mx as [m'|]; [specialize (H3 m' eq_refl); destruct (Z.ltb_spec m' (Z.abs n)); [lia|]|]; reflexivity)).
Qed.

Lemma span_num_app s t : forallb is_numch s = true ->
  (match t with c :: _ => is_numch c = false | [] => True end) -> span_num (s ++ t) = (s, t).
Proof.
  induction s as [|c s IH]; cbn; intros H Ht.
  - destruct t as [|x t]; auto. cbn. rewrite Ht. reflexivity.
  - apply andb_prop in H as [Hc Hs]. rewrite Hc, IH by auto. reflexivity.
Qed.
Lemma digit_numch c : is_digit c = true -> is_numch c = true.
Proof.
  destruct c as [b0 b1 b2 b3 b4 b5 b6 b7].
  destruct b0, b1, b2, b3, b4, b5, b6, b7; intro H; first [discriminate H | reflexivity].
Qed.
Lemma digits_numch s : all_digits s = true -> forallb is_numch s = true.
Proof.
  unfold all_digits. rewrite !forallb_forall. intros H x Hx. apply digit_numch; auto.
Qed.
Lemma pystr_numch n : forallb is_numch (pystr n) = true.
Proof.
  unfold pystr. destruct (Z.ltb_spec n 0).
  - cbn [forallb]. change (is_numch "-") with true. apply digits_numch. apply udigits_spec; lia.
  - apply digits_numch. apply udigits_spec; lia.
Qed.
Lemma wd_cases w : 0 <= w <= 6 -> w = 0 \/ w = 1 \/ w = 2 \/ w = 3 \/ w = 4 \/ w = 5 \/ w = 6.
Proof. lia. Qed.
Lemma weekday_back w : 0 <= w <= 6 -> assoc (weekday_text w) cWeekdayMap = Some w.
Proof. intro H. destruct (wd_cases w H) as [->|[->|[->|[->|[->|[->| ->]]]]]]; reflexivity. Qed.
Lemma weekday_cin c w : cin c (lit "SUMOTUWETHFRSA") = false -> cin c (weekday_text w) = false.
Proof.
  intro H. unfold weekday_text. cbn in H.
  repeat match type of H with _ || _ = false => apply orb_false_iff in H as [? H] end.
  repeat match goal with |- context [if ?b then _ else _] => destruct b end; cbn;
  repeat match goal with E : Ascii.eqb c _ = false |- _ => rewrite E; clear E end; reflexivity.
Qed.
Lemma parse_dw_text nw : Z.abs (fst nw) <= 53 -> 0 <= snd nw <= 6 -> parse_dw (byday_text nw) = Ok nw.
Proof.
  destruct nw as [n w]; cbn [fst snd]. intros Hn Hw. unfold parse_dw, byday_text. cbn [fst snd].
  destruct (Z.eqb_spec n 0) as [->|E]; cbn [negb].
  - rewrite (span_num_app [] (weekday_text w)); [|reflexivity|].
    + cbn [rbind]. rewrite weekday_back by exact Hw. reflexivity.
    + destruct (wd_cases w Hw) as [->|[->|[->|[->|[->|[->| ->]]]]]]; reflexivity.
  - rewrite span_num_app; [|apply pystr_numch|].
    + assert (N : pystr n <> []).
      { unfold pystr. destruct (Z.ltb_spec n 0); [discriminate|]. apply udigits_spec; lia. }
      destruct (pystr n) as [|c t] eqn:Ep; [congruence|]. rewrite <- Ep, pyint_pystr. cbn [rbind].
      destruct (Z.ltb_spec (Z.abs n) 1); [lia|]. destruct (Z.ltb_spec 53 (Z.abs n)); [lia|].
      cbn [rbind]. rewrite weekday_back by exact Hw. reflexivity.
    + destruct (wd_cases w Hw) as [->|[->|[->|[->|[->|[->| ->]]]]]]; reflexivity.
Qed.
Lemma byday_cin c nw : cin c (lit "SUMOTUWETHFRSA-") = false -> is_digit c = false -> cin c (byday_text nw) = false.
Proof.
  intros H D. unfold byday_text. rewrite cin_app. change (lit "SUMOTUWETHFRSA-") with (lit "SUMOTUWETHFRSA" ++ ["-"%char]) in H.
  rewrite cin_app in H. apply orb_false_iff in H as [H1 H2]. rewrite weekday_cin by exact H1.
  rewrite orb_false_r. destruct (negb _); [|reflexivity]. apply pystr_cin; [exact D|].
  intros ->. cbn in H2. discriminate.
Qed.
Lemma parseListDW_text l : l <> [] -> Forall (fun nw => Z.abs (fst nw) <= 53 /\ 0 <= snd nw <= 6) l ->
  parseListDW (join_char "," (map byday_text l)) = Ok l.
Proof.
  intros N F. unfold parseListDW. rewrite split_join.
  - rewrite (mapr_map _ byday_text (fun n => n)); [rewrite map_id; reflexivity|].
    rewrite Forall_forall in F. intros x Hx. destruct (F x Hx). apply parse_dw_text; assumption.
  - destruct l; [congruence|discriminate].
  - apply Forall_forall. intros s Hs. apply in_map_iff in Hs as (n & <- & _). apply byday_cin; reflexivity.
Qed.

(** ** The parts of a rule *)
Definition part_name (p : part) : bytes :=
  match p with
  | PFreq => lit "FREQ" | PUntil => lit "UNTIL" | PCount => lit "COUNT" | PInterval => lit "INTERVAL"
  | PBySecond => lit "BYSECOND" | PByMinute => lit "BYMINUTE" | PByHour => lit "BYHOUR" | PByDay => lit "BYDAY"
  | PByMonthDay => lit "BYMONTHDAY" | PByYearDay => lit "BYYEARDAY" | PByWeekNo => lit "BYWEEKNO"
  | PByMonth => lit "BYMONTH" | PBySetPos => lit "BYSETPOS" | PWkst => lit "WKST"
  end.
Definition tok (pv : part * bytes) : bytes := part_name (fst pv) ++ "="%char :: snd pv.
Definition lpart {A} (p : part) (f : A -> bytes) (l : option (list A)) : list (part * bytes) :=
  match l with None | Some [] => [] | Some l => [(p, join_char "," (map f l))] end.
Definition limit_parts (r : rule) : list (part * bytes) :=
  if rUseCount r then [(PCount, pystr (rCount r))]
  else match rUntil r with
       | Some d => if rUseUntil r then [(PUntil, getText d)] else []
       | None => []
       end.
Definition parts (r : rule) : list (part * bytes) :=
  [(PFreq, freq_text (rFreq r))] ++ limit_parts r ++
  (if 1 <? rInterval r then [(PInterval, pystr (rInterval r))] else []) ++
  lpart PBySecond pystr (rBySeconds r) ++ lpart PByMinute pystr (rByMinutes r) ++
  lpart PByHour pystr (rByHours r) ++ lpart PByDay byday_text (rByDay r) ++
  lpart PByMonthDay pystr (rByMonthDay r) ++ lpart PByYearDay pystr (rByYearDay r) ++
  lpart PByWeekNo pystr (rByWeekNo r) ++ lpart PByMonth pystr (rByMonth r) ++
  lpart PBySetPos pystr (rBySetPos r) ++
  (if negb (rWeekstart r =? 1) then [(PWkst, weekday_text (rWeekstart r))] else []).

Definition toks (l : list (part * bytes)) : bytes := flat_map (fun pv => ";"%char :: tok pv) l.
Lemma toks_app a b : toks (a ++ b) = toks a ++ toks b.
Proof. apply flat_map_app. Qed.
Lemma toks_map l : toks l = flat_map (fun v => ";"%char :: v) (map tok l).
Proof. induction l as [|x l IH]; cbn; [reflexivity|]. f_equal. f_equal. exact IH. Qed.
Lemma toks_lpart {A} p (f : A -> bytes) l : toks (lpart p f l) = generateList (part_name p) (option_map (map f) l).
Proof.
  destruct l as [[|x l]|]; try reflexivity. cbn [lpart toks flat_map option_map map]. unfold generateList.
  rewrite app_nil_r. unfold tok. cbn [fst snd]. reflexivity.
Qed.

Lemma generate_parts r : (rUseUntil r = true -> rUntil r <> None) ->
  rule_generate r = join_char ";" (map tok (parts r)).
Proof.
  intro HU. unfold parts. cbn [app map]. rewrite join_flat, <- toks_map.
  rewrite !toks_app, !toks_lpart. unfold rule_generate. change (tok (PFreq, freq_text (rFreq r))) with (lit "FREQ=" ++ freq_text (rFreq r)).
  rewrite <- !app_assoc. f_equal. f_equal. unfold num_texts, day_texts. cbn [part_name].
  set (tail := generateList (lit "BYSECOND") _ ++ _).
  assert (E : forall x, toks [x] = ";"%char :: tok x) by (intro x; unfold toks; cbn [flat_map]; apply app_nil_r).
  assert (ET : tail = generateList (lit "BYSECOND") (option_map (map pystr) (rBySeconds r)) ++
    generateList (lit "BYMINUTE") (option_map (map pystr) (rByMinutes r)) ++
    generateList (lit "BYHOUR") (option_map (map pystr) (rByHours r)) ++
    generateList (lit "BYDAY") (option_map (map byday_text) (rByDay r)) ++
    generateList (lit "BYMONTHDAY") (option_map (map pystr) (rByMonthDay r)) ++
    generateList (lit "BYYEARDAY") (option_map (map pystr) (rByYearDay r)) ++
    generateList (lit "BYWEEKNO") (option_map (map pystr) (rByWeekNo r)) ++
    generateList (lit "BYMONTH") (option_map (map pystr) (rByMonth r)) ++
    generateList (lit "BYSETPOS") (option_map (map pystr) (rBySetPos r)) ++
    toks (if negb (rWeekstart r =? 1) then [(PWkst, weekday_text (rWeekstart r))] else [])).
  { unfold tail. repeat f_equal. destruct (negb _); [rewrite E|]; reflexivity. }
  rewrite <- ET. clear ET. clearbody tail.
  assert (EI : (if 1 <? rInterval r then lit ";INTERVAL=" ++ pystr (rInterval r) else []) =
               toks (if 1 <? rInterval r then [(PInterval, pystr (rInterval r))] else [])).
  { destruct (1 <? rInterval r); [rewrite E|]; reflexivity. }
  rewrite <- EI. clear EI. set (iv := if 1 <? rInterval r then _ else _). clearbody iv.
  unfold limit_parts. destruct (rUseCount r); [rewrite E; reflexivity|].
  destruct (rUseUntil r); [|destruct (rUntil r); reflexivity].
  destruct (rUntil r) as [d|]; [|exfalso; apply HU; reflexivity]. rewrite E. reflexivity.
Qed.

Section Ctx.
Variable ctx : pctx.

(** ** Reading tokens *)
Definition read_parts := fix go (l : list (part * bytes)) (r : rule) : res rule :=
  match l with [] => Ok r | (p, v) :: t => do r' <- parse_part ctx p v r; go t r' end.
Lemma read_parts_app a b r : read_parts (a ++ b) r = do r' <- read_parts a r; read_parts b r'.
Proof.
  revert r; induction a as [|[p v] a IH]; intro r; cbn; [reflexivity|].
  destruct (parse_part ctx p v r); cbn; auto.
Qed.

Lemma assoc_part p : assoc (part_name p) cRecurMap = Some p.
Proof. destruct p; reflexivity. Qed.
Lemma part_name_noeq p : cin "=" (part_name p) = false.
Proof. destruct p; reflexivity. Qed.
Lemma part_name_nosemi p : cin ";" (part_name p) = false.
Proof. destruct p; reflexivity. Qed.

Lemma parse_token_tok pv r : cin "=" (snd pv) = false -> parse_token ctx (tok pv) r = parse_part ctx (fst pv) (snd pv) r.
Proof.
  intro H. unfold parse_token, tok. rewrite split_char_app by apply part_name_noeq. rewrite split_char_no by exact H.
  rewrite assoc_part. reflexivity.
Qed.
Definition plain (pv : part * bytes) : Prop := cin "=" (snd pv) = false /\ cin ";" (snd pv) = false.
Lemma parse_tokens_tok l r : Forall plain l -> parse_tokens ctx (map tok l) r = read_parts l r.
Proof.
  intro F. revert r; induction F as [|[p v] l [H1 H2] F IH]; intro r; [reflexivity|].
  cbn [map parse_tokens read_parts]. rewrite parse_token_tok by exact H1. cbn [fst snd].
  destruct (parse_part ctx p v r); cbn; auto.
Qed.
Lemma rule_parse_tok l : l <> [] -> Forall plain l -> rule_parse ctx (join_char ";" (map tok l)) = read_parts l rule_init.
Proof.
  intros N F. unfold rule_parse. rewrite split_join.
  - apply parse_tokens_tok; exact F.
  - destruct l; [congruence|discriminate].
  - apply Forall_forall. intros s Hs. apply in_map_iff in Hs as (pv & <- & Hpv). rewrite Forall_forall in F.
    destruct (F pv Hpv) as [_ H]. unfold tok. rewrite cin_app, part_name_nosemi. cbn. exact H.
Qed.

(** ** Order does not matter *)
Lemma parse_num_err mn mx neg s e : parse_num mn mx neg s = Raise e -> e = ValueError.
Proof.
  unfold parse_num. destruct (pyint s) as [n|x] eqn:E; cbn [rbind].
  - destruct (negb neg && _); [congruence|]. destruct (match mn with Some _ => _ | None => _ end); [congruence|].
    destruct (match mx with Some _ => _ | None => _ end); congruence.
  - intro K; injection K as <-. eapply pyint_only_value; exact E.
Qed.
Lemma parse_dw_err s e : parse_dw s = Raise e -> e = ValueError.
Proof.
  unfold parse_dw. destruct (span_num s) as [ns rest].
  assert (K : forall e, match ns with
             | [] => Ok 0
             | _ => do n <- pyint ns;
                    if Z.abs n <? 1 then Raise ValueError
                    else if 53 <? Z.abs n then Raise ValueError
                    else Ok n
             end = Raise e -> e = ValueError).
  { intro e'. destruct ns as [|c ns]; [discriminate|]. destruct (pyint (c :: ns)) as [n|x] eqn:E; cbn [rbind].
    - destruct (Z.abs n <? 1); [congruence|]. destruct (53 <? Z.abs n); congruence.
    - intro J; injection J as <-. eapply pyint_only_value; exact E. }
  destruct (match ns with [] => _ | _ => _ end) as [n|x]; cbn [rbind].
  - destruct (assoc rest cWeekdayMap); congruence.
  - intro J; injection J as <-. apply K; reflexivity.
Qed.
Lemma once_err {A} (old : option (list A)) new set e :
  (forall e, new = Raise e -> e = ValueError) -> once old new set = Raise e -> e = ValueError.
Proof.
  intro H. unfold once. destruct old; [congruence|]. destruct new; cbn; [discriminate|]. intro K; injection K as <-; auto.
Qed.
Lemma parseList_err s mn mx neg e : parseList s mn mx neg = Raise e -> e = ValueError.
Proof. unfold parseList. apply (mapr_err _ (fun e => e = ValueError)). intros; eapply parse_num_err; eauto. Qed.
Lemma parseListDW_err s e : parseListDW s = Raise e -> e = ValueError.
Proof. unfold parseListDW. apply (mapr_err _ (fun e => e = ValueError)). intros; eapply parse_dw_err; eauto. Qed.
Lemma parse_part_err p v r e : parse_part ctx p v r = Raise e -> e = ValueError.
Proof.
  destruct p; cbn [parse_part];
    try (apply once_err; intros; first [eapply parseList_err; eassumption | eapply parseListDW_err; eassumption]).
  - destruct (assoc v cFreqMap); congruence.
  - destruct (rUseCount r); [congruence|].
    pose proof (dt_parse_only_value ctx false v (match rUntil r with Some d => d | None => newDefault end)) as K.
    destruct (dt_parse ctx false v _) as [d [u|x]]; [discriminate|]. intro J; injection J as <-. apply K; reflexivity.
  - destruct (rUseUntil r); [congruence|]. destruct (pyint v) as [n|x] eqn:E; cbn [rbind].
    + destruct (n <? 1); congruence.
    + intro J; injection J as <-. eapply pyint_only_value; exact E.
  - destruct (pyint v) as [n|x] eqn:E; cbn [rbind].
    + destruct (n <? 1); congruence.
    + intro J; injection J as <-. eapply pyint_only_value; exact E.
  - destruct (assoc v cWeekdayMap); congruence.
Qed.
Lemma rule_parse_err s e : rule_parse ctx s = Raise e -> e = ValueError.
Proof.
  unfold rule_parse. generalize rule_init. induction (split_char ";" s) as [|t l IH]; intro r; cbn; [discriminate|].
  destruct (parse_token ctx t r) as [r'|x] eqn:E; cbn; [apply IH|]. intro K; injection K as <-.
  unfold parse_token in E. destruct (split_char "=" t) as [|n [|v [|? ?]]]; try congruence.
  destruct (assoc n cRecurMap); [|congruence]. eapply parse_part_err; exact E.
Qed.

Ltac vals := repeat match goal with
  | H : _ = Raise ?x |- _ => 
      first [apply parseList_err in H | apply parseListDW_err in H | apply pyint_only_value in H]; subst x
  end.

(** The shape of one step: it may depend on the rule only through its own field (and the
    two limit flags). *)
Lemma parse_part_comm p q v w r : p <> q ->
  (do a <- parse_part ctx p v r; parse_part ctx q w a) = (do a <- parse_part ctx q w r; parse_part ctx p v a).
Proof.
  intro N.
  assert (E : forall x, parse_part ctx p v r = Raise x -> x = ValueError) by (intros; eapply parse_part_err; eauto).
  assert (F : forall x, parse_part ctx q w r = Raise x -> x = ValueError) by (intros; eapply parse_part_err; eauto).
  destruct r as [fr uc ct uu ul iv bs bm bh bd bmd byd bwn bmo bsp ws].
  Local Opaque assoc.
  destruct p, q; try congruence; clear N; cbn in *; unfold once in *; cbn in *;
  repeat (match goal with
    | |- context [assoc ?a ?b] => destruct (assoc a b) in *
    | |- context [pyint ?a] => destruct (pyint a) in *
    | |- context [?a <? 1] => destruct (a <? 1) in *
    | |- context [parseList ?a ?b ?c ?d] => destruct (parseList a b c d) in *
    | |- context [parseListDW ?a] => destruct (parseListDW a) in *
    | |- context [if ?x then _ else _] => is_var x; destruct x
    | |- context [match ?x with Some _ => Raise _ | None => _ end] => is_var x; destruct x
    | |- context [dt_parse ?a ?b ?c ?d] => destruct (dt_parse a b c d) as [? [?|?]] in *
    end; cbn in *);
  repeat match goal with
    | E : forall x, Raise ?e = Raise x -> x = ValueError |- _ => pose proof (E e eq_refl); clear E; subst end;
  try reflexivity; try congruence.
Qed.

Lemma read_parts_perm l l' : Permutation l l' -> NoDup (map fst l) -> forall r, read_parts l r = read_parts l' r.
Proof.
  induction 1 as [|[p v] l l' P IH|[p v] [q w] l|l l' l'' P1 IH1 P2 IH2]; intros N r; cbn [read_parts].
  - reflexivity.
  - inversion N; subst. destruct (parse_part ctx p v r); cbn; auto.
  - cbn in N. inversion N as [|? ? N1 N2]; subst.
    assert (D : q <> p) by (intros ->; apply N1; left; reflexivity).
    pose proof (parse_part_comm q p w v r D) as C.
    assert (A : forall p v q w, (do r' <- parse_part ctx p v r; do r'' <- parse_part ctx q w r'; read_parts l r'') =
      (do r'' <- (do r' <- parse_part ctx p v r; parse_part ctx q w r'); read_parts l r'')).
    { intros p0 v0 q0 w0. destruct (parse_part ctx p0 v0 r); reflexivity. }
    etransitivity; [apply A|]. etransitivity; [|symmetry; apply A]. rewrite C. reflexivity.
  - rewrite IH1 by exact N. apply IH2. eapply Permutation_NoDup; [|exact N]. apply Permutation_map. exact P1.
Qed.

(** ** Reading back the canonical list *)
Definition put_bysecond o r := mkRule (rFreq r) (rUseCount r) (rCount r) (rUseUntil r) (rUntil r) (rInterval r) o (rByMinutes r)
    (rByHours r) (rByDay r) (rByMonthDay r) (rByYearDay r) (rByWeekNo r) (rByMonth r) (rBySetPos r) (rWeekstart r).
Definition put_byminute o r := mkRule (rFreq r) (rUseCount r) (rCount r) (rUseUntil r) (rUntil r) (rInterval r) (rBySeconds r) o
    (rByHours r) (rByDay r) (rByMonthDay r) (rByYearDay r) (rByWeekNo r) (rByMonth r) (rBySetPos r) (rWeekstart r).
Definition put_byhour o r := mkRule (rFreq r) (rUseCount r) (rCount r) (rUseUntil r) (rUntil r) (rInterval r) (rBySeconds r) (rByMinutes r)
    o (rByDay r) (rByMonthDay r) (rByYearDay r) (rByWeekNo r) (rByMonth r) (rBySetPos r) (rWeekstart r).
Definition put_byday o r := mkRule (rFreq r) (rUseCount r) (rCount r) (rUseUntil r) (rUntil r) (rInterval r) (rBySeconds r) (rByMinutes r)
    (rByHours r) o (rByMonthDay r) (rByYearDay r) (rByWeekNo r) (rByMonth r) (rBySetPos r) (rWeekstart r).
Definition put_bymonthday o r := mkRule (rFreq r) (rUseCount r) (rCount r) (rUseUntil r) (rUntil r) (rInterval r) (rBySeconds r) (rByMinutes r)
    (rByHours r) (rByDay r) o (rByYearDay r) (rByWeekNo r) (rByMonth r) (rBySetPos r) (rWeekstart r).
Definition put_byyearday o r := mkRule (rFreq r) (rUseCount r) (rCount r) (rUseUntil r) (rUntil r) (rInterval r) (rBySeconds r) (rByMinutes r)
    (rByHours r) (rByDay r) (rByMonthDay r) o (rByWeekNo r) (rByMonth r) (rBySetPos r) (rWeekstart r).
Definition put_byweekno o r := mkRule (rFreq r) (rUseCount r) (rCount r) (rUseUntil r) (rUntil r) (rInterval r) (rBySeconds r) (rByMinutes r)
    (rByHours r) (rByDay r) (rByMonthDay r) (rByYearDay r) o (rByMonth r) (rBySetPos r) (rWeekstart r).
Definition put_bymonth o r := mkRule (rFreq r) (rUseCount r) (rCount r) (rUseUntil r) (rUntil r) (rInterval r) (rBySeconds r) (rByMinutes r)
    (rByHours r) (rByDay r) (rByMonthDay r) (rByYearDay r) (rByWeekNo r) o (rBySetPos r) (rWeekstart r).
Definition put_bysetpos o r := mkRule (rFreq r) (rUseCount r) (rCount r) (rUseUntil r) (rUntil r) (rInterval r) (rBySeconds r) (rByMinutes r)
    (rByHours r) (rByDay r) (rByMonthDay r) (rByYearDay r) (rByWeekNo r) (rByMonth r) o (rWeekstart r).

(** Reading one list part. *)
Lemma read_lpart {A} p (f : A -> bytes) l r put :
  (l = None \/ l = Some [] -> put None r = r) ->
  (forall l', l = Some l' -> l' <> [] -> parse_part ctx p (join_char "," (map f l')) r = Ok (put (Some l') r)) ->
  read_parts (lpart p f l) r = Ok (put (nonempty l) r).
Proof.
  intros H1 H2. destruct l as [[|x l]|]; cbn [lpart nonempty read_parts].
  - rewrite H1 by auto. reflexivity.
  - rewrite (H2 (x :: l)) by (auto; discriminate). reflexivity.
  - rewrite H1 by auto. reflexivity.
Qed.

Lemma freq_back f : assoc (freq_text f) cFreqMap = Some f.
Proof. destruct f; reflexivity. Qed.

Lemma read_limit r0 r : limits_ok r -> (rUseCount r = true -> 1 <= rCount r) ->
  match rUntil r with Some d => until_ok d | None => True end ->
  rUseCount r0 = false -> rCount r0 = 0 -> rUseUntil r0 = false -> rUntil r0 = None ->
  read_parts (limit_parts r) r0 = Ok (mkRule (rFreq r0) (rUseCount r) (rCount r) (rUseUntil r)
    (option_map said (rUntil r)) (rInterval r0) (rBySeconds r0) (rByMinutes r0)
    (rByHours r0) (rByDay r0) (rByMonthDay r0) (rByYearDay r0) (rByWeekNo r0) (rByMonth r0) (rBySetPos r0) (rWeekstart r0)).
Proof.
  intros (L1 & L2 & L3) HC HU E1 E2 E3 E4. unfold limit_parts.
  destruct (rUseCount r) eqn:C.
  - cbn [read_parts parse_part]. rewrite E3, pyint_pystr. cbn [rbind].
    destruct (Z.ltb_spec (rCount r) 1); [specialize (HC eq_refl); lia|]. cbn [rbind]. unfold set_count. rewrite E3, E4, L1 by reflexivity.
    destruct (rUntil r) as [d|]; [|reflexivity]. assert (rUseUntil r = true) by (apply L3; discriminate). rewrite L1 in H0 by reflexivity. discriminate.
  - rewrite L2 by reflexivity. destruct (rUntil r) as [d|].
    + assert (U : rUseUntil r = true) by (apply L3; discriminate). rewrite U.
      cbn [read_parts parse_part]. rewrite E1, E4. destruct HU as [P Z0].
      assert (T : dt_parseText ctx false (getText d) = Ok (said d)).
      { apply text_round_trip; [exact P|]. intros H1 H2. specialize (Z0 H1 H2). destruct (mTZID d); auto. exfalso; apply (Z0 n); reflexivity. }
      unfold dt_parseText in T. destruct (dt_parse ctx false (getText d) newDefault) as [d' [[]|]]; [|discriminate].
      injection T as ->. cbn [rbind]. unfold set_until. rewrite E1, E2. reflexivity.
    + destruct (rUseUntil r); [exfalso; apply L3; reflexivity|]. cbn [read_parts option_map]. rewrite <- E1, <- E2, <- E3 at 1.
      rewrite <- E4 at 1. destruct r0; reflexivity.
Qed.

Lemma Forall_impl' {A} (P Q : A -> Prop) l : (forall a, P a -> Q a) -> Forall P l -> Forall Q l.
Proof. intros H F. eapply Forall_impl; eauto. Qed.

Ltac rd_nums := intros l' E' N'; cbn [parse_part]; unfold once; cbn -[parseList parseListDW rbind];
  rewrite parseList_text; [reflexivity|exact N'|];
  match goal with H : all_in _ ?o |- _ => rewrite E' in H; cbn [all_in] in H; eapply Forall_impl'; [|exact H] end;
  intros n Hn; cbv beta in Hn; apply parse_num_text; intros; try congruence;
  repeat match goal with H : Some ?a = Some ?b |- _ => assert (a = b) by congruence; clear H; subst end; lia.
Ltac rd_none := intro; cbn; reflexivity.

Lemma read_canon r : rule_ok r -> read_parts (parts r) rule_init = Ok (canon r).
Proof.
  intros ((R1 & R2 & R3 & R4 & R5 & R6 & R7 & R8 & R9 & R10 & R11) & L & U).
  unfold parts. rewrite read_parts_app. cbn [read_parts parse_part]. rewrite freq_back. cbn [rbind].
  rewrite read_parts_app, read_limit by (auto; reflexivity). cbn [rbind]. cbn -[limit_parts read_parts lpart Z.ltb Z.eqb].
  set (r1 := mkRule _ _ _ _ _ _ _ _ _ _ _ _ _ _ _ _).
  rewrite read_parts_app.
  assert (E : read_parts (if 1 <? rInterval r then [(PInterval, pystr (rInterval r))] else []) r1 = Ok (set_interval (rInterval r) r1)).
  { destruct (Z.ltb_spec 1 (rInterval r)).
    - cbn [read_parts parse_part]. rewrite pyint_pystr. cbn [rbind]. destruct (Z.ltb_spec (rInterval r) 1); [lia|]. reflexivity.
    - replace (rInterval r) with 1 by lia. reflexivity. }
  rewrite E. cbn [rbind]. clear E. unfold set_interval; subst r1. cbn -[limit_parts read_parts lpart Z.ltb Z.eqb].
  rewrite read_parts_app, (read_lpart _ _ _ _ put_bysecond); [|rd_none|rd_nums]. cbn [rbind]; unfold put_bysecond; cbn -[limit_parts read_parts lpart Z.ltb Z.eqb].
  rewrite read_parts_app, (read_lpart _ _ _ _ put_byminute); [|rd_none|rd_nums]. cbn [rbind]; unfold put_byminute; cbn -[limit_parts read_parts lpart Z.ltb Z.eqb].
  rewrite read_parts_app, (read_lpart _ _ _ _ put_byhour); [|rd_none|rd_nums]. cbn [rbind]; unfold put_byhour; cbn -[limit_parts read_parts lpart Z.ltb Z.eqb].
  rewrite read_parts_app, (read_lpart _ _ _ _ put_byday); [|rd_none|].
  2:{ intros l' E' N'; cbn [parse_part]; unfold once; cbn -[parseList parseListDW rbind].
      rewrite parseListDW_text; [reflexivity|exact N'|]. rewrite E' in R6. exact R6. }
  cbn [rbind]; unfold put_byday; cbn -[limit_parts read_parts lpart Z.ltb Z.eqb].
  rewrite read_parts_app, (read_lpart _ _ _ _ put_bymonthday); [|rd_none|rd_nums]. cbn [rbind]; unfold put_bymonthday; cbn -[limit_parts read_parts lpart Z.ltb Z.eqb].
  rewrite read_parts_app, (read_lpart _ _ _ _ put_byyearday); [|rd_none|rd_nums]. cbn [rbind]; unfold put_byyearday; cbn -[limit_parts read_parts lpart Z.ltb Z.eqb].
  rewrite read_parts_app, (read_lpart _ _ _ _ put_byweekno); [|rd_none|rd_nums]. cbn [rbind]; unfold put_byweekno; cbn -[limit_parts read_parts lpart Z.ltb Z.eqb].
  rewrite read_parts_app, (read_lpart _ _ _ _ put_bymonth); [|rd_none|rd_nums]. cbn [rbind]; unfold put_bymonth; cbn -[limit_parts read_parts lpart Z.ltb Z.eqb].
  rewrite read_parts_app, (read_lpart _ _ _ _ put_bysetpos); [|rd_none|].
  2:{ intros l' E' N'; cbn [parse_part]; unfold once; cbn -[parseList parseListDW rbind].
      rewrite parseList_text; [reflexivity|exact N'|]. apply Forall_forall. intros n _. apply parse_num_text; congruence. }
  cbn [rbind]; unfold put_bysetpos; cbn -[limit_parts read_parts lpart Z.ltb Z.eqb].
  unfold canon. destruct (Z.eqb_spec (rWeekstart r) 1) as [->|W]; cbn [negb read_parts].
  - reflexivity.
  - cbn [parse_part]. rewrite weekday_back by exact R11. reflexivity.
Qed.

(** ** Characters of the parts *)
Lemma fmt0_cin c w n : 0 <= n -> is_digit c = false -> cin c (fmt0 w n) = false.
Proof. intros H D. apply all_digits_cin; [apply fmt0_spec; exact H|exact D]. Qed.
Lemma getText_cin c d : printable d -> is_digit c = false -> cin c (lit "TZ+-") = false -> cin c (getText d) = false.
Proof.
  intros (A & B & C & D & E & F) Hd Hc. cbn in Hc.
  repeat match type of Hc with _ || _ = false => apply orb_false_iff in Hc as [? Hc] end.
  unfold getText, tz_sign.
  repeat match goal with |- context [if ?b then _ else _] => destruct b | |- context [match mTZID d with _ => _ end] => destruct (mTZID d) end;
  rewrite ?cin_app, ?fmt0_cin by (auto; lia); cbn;
  repeat match goal with E : Ascii.eqb c _ = false |- _ => rewrite E; clear E end; reflexivity.
Qed.
Lemma parts_plain r : rule_ok r -> Forall plain (parts r).
Proof.
  intros (_ & _ & U).
  assert (N : forall A p (f : A -> bytes) l, (forall x, cin "=" (f x) = false /\ cin ";" (f x) = false) -> Forall plain (lpart p f l)).
  { intros A p f l H. destruct l as [[|x l]|]; cbn [lpart]; try constructor; [|constructor].
    split; cbn [snd]; apply cin_join; try discriminate; apply Forall_forall; intros s Hs; apply in_map_iff in Hs as (y & <- & _); apply H. }
  assert (PS : forall n, cin "=" (pystr n) = false /\ cin ";" (pystr n) = false)
    by (intro n; split; apply pystr_cin; (reflexivity || discriminate)).
  unfold parts. apply Forall_app; split.
  { constructor; [|constructor]. unfold plain; cbn [snd]. destruct (rFreq r); split; reflexivity. }
  apply Forall_app; split.
  { unfold limit_parts. destruct (rUseCount r); [constructor; [apply PS|constructor]|].
    destruct (rUntil r) as [d|]; [|constructor]. destruct (rUseUntil r); [|constructor]. constructor; [|constructor].
    destruct U as [P _]. split; cbn [snd]; apply getText_cin; auto. }
  apply Forall_app; split. { destruct (1 <? rInterval r); constructor; [apply PS|constructor]. }
  do 3 (apply Forall_app; split; [apply N; exact PS|]).
  apply Forall_app; split. { apply N. intro x. split; apply byday_cin; reflexivity. }
  do 5 (apply Forall_app; split; [apply N; exact PS|]).
  destruct (negb _); constructor; [|constructor]. split; cbn [snd]; apply weekday_cin; reflexivity.
Qed.
Lemma parts_cons r : parts r <> [].
Proof. discriminate. Qed.

Lemma lpart_fst {A} p (f : A -> bytes) l : map fst (lpart p f l) = [] \/ map fst (lpart p f l) = [p].
Proof. destruct l as [[|x l]|]; auto. Qed.
Lemma parts_nodup r : NoDup (map fst (parts r)).
Proof.
  unfold parts. rewrite !map_app.
  assert (L : exists l, map fst (limit_parts r) = l /\ (l = [] \/ l = [PCount] \/ l = [PUntil])).
  { eexists; split; [reflexivity|]. unfold limit_parts. destruct (rUseCount r); auto. destruct (rUntil r); auto. destruct (rUseUntil r); auto. }
  destruct L as (l & -> & L).
  assert (I : exists l, map fst (if 1 <? rInterval r then [(PInterval, pystr (rInterval r))] else []) = l /\ (l = [] \/ l = [PInterval])).
  { eexists; split; [reflexivity|]. destruct (1 <? rInterval r); auto. }
  destruct I as (l2 & -> & I).
  assert (W : exists l, map fst (if negb (rWeekstart r =? 1) then [(PWkst, weekday_text (rWeekstart r))] else []) = l /\ (l = [] \/ l = [PWkst])).
  { eexists; split; [reflexivity|]. destruct (negb _); auto. }
  destruct W as (l3 & -> & W).
  assert (K : forall (a b : list part) , NoDup b -> (a = [] \/ exists p, a = [p] /\ ~ In p b) -> NoDup (a ++ b)).
  { intros a b Nb [->|(p & -> & Hp)]; cbn; [exact Nb|constructor; assumption]. }
  pose proof (lpart_fst PBySecond pystr (rBySeconds r)) as A1. pose proof (lpart_fst PByMinute pystr (rByMinutes r)) as A2.
  pose proof (lpart_fst PByHour pystr (rByHours r)) as A3. pose proof (lpart_fst PByDay byday_text (rByDay r)) as A4.
  pose proof (lpart_fst PByMonthDay pystr (rByMonthDay r)) as A5. pose proof (lpart_fst PByYearDay pystr (rByYearDay r)) as A6.
  pose proof (lpart_fst PByWeekNo pystr (rByWeekNo r)) as A7. pose proof (lpart_fst PByMonth pystr (rByMonth r)) as A8.
  pose proof (lpart_fst PBySetPos pystr (rBySetPos r)) as A9.
  set (m1 := map fst (lpart PBySecond _ _)) in *. set (m2 := map fst (lpart PByMinute _ _)) in *. set (m3 := map fst (lpart PByHour _ _)) in *.
  set (m4 := map fst (lpart PByDay _ _)) in *. set (m5 := map fst (lpart PByMonthDay _ _)) in *. set (m6 := map fst (lpart PByYearDay _ _)) in *.
  set (m7 := map fst (lpart PByWeekNo _ _)) in *. set (m8 := map fst (lpart PByMonth _ _)) in *. set (m9 := map fst (lpart PBySetPos _ _)) in *.
  clearbody m1 m2 m3 m4 m5 m6 m7 m8 m9.
  assert (G : forall (p : part) m b, m = [] \/ m = [p] -> NoDup b -> ~ In p b -> NoDup (m ++ b)).
  { intros p m b [->| ->] Hb Hp; cbn; [exact Hb|constructor; assumption]. }
  assert (NI : forall p (m b : list part) q, m = [] \/ m = [q] -> p <> q -> ~ In p b -> ~ In p (m ++ b)).
  { intros p m b q [->| ->] Hpq Hb; cbn; clear - Hpq Hb; intuition. }
  assert (LI : forall (p : part) b, p <> PCount -> p <> PUntil -> ~ In p b -> ~ In p (l ++ b)).
  { intros p b H1 H2 Hb. destruct L as [->|[->| ->]]; cbn; clear - H1 H2 Hb; intuition. }
  assert (GL : forall b, NoDup b -> ~ In PCount b -> ~ In PUntil b -> NoDup (l ++ b)).
  { intros b Hb H1 H2. destruct L as [->|[->| ->]]; cbn; auto; constructor; assumption. }
  assert (Last : NoDup l3) by (clear - W; destruct W as [->| ->]; repeat constructor; cbn; tauto).
  assert (NL : forall p, p <> PWkst -> ~ In p l3) by (clear - W; intros p Hp; destruct W as [->| ->]; cbn; intuition).
  Ltac ni := match goal with
    | L : (forall p b, p <> PCount -> _) |- ~ In _ (?l ++ _) => apply L; [discriminate|discriminate|ni]
    | NL : (forall p, p <> PWkst -> ~ In p ?l) |- ~ In _ ?l => apply NL; discriminate
    | NI : (forall p (m b : list part) q, m = [] \/ _ -> _), A : ?m = [] \/ ?m = [_] |- ~ In _ (?m ++ _) => apply (NI _ _ _ _ A); [discriminate|ni]
    end.
  cbn [map app fst].
  constructor; [ni|]. apply GL; [|ni|ni]. apply (G _ _ _ I); [|ni].
  apply (G _ _ _ A1); [|ni]. apply (G _ _ _ A2); [|ni]. apply (G _ _ _ A3); [|ni]. apply (G _ _ _ A4); [|ni].
  apply (G _ _ _ A5); [|ni]. apply (G _ _ _ A6); [|ni]. apply (G _ _ _ A7); [|ni]. apply (G _ _ _ A8); [|ni].
  apply (G _ _ _ A9); [|ni]. exact Last.
Qed.

Theorem text_rule_round_trip r : rule_ok r -> rule_parse ctx (rule_generate r) = Ok (canon r).
Proof.
  intro H. rewrite generate_parts; [|intro; destruct H as (_ & (_ & _ & L) & _); apply L; assumption].
  rewrite rule_parse_tok; [apply read_canon; exact H|apply parts_cons|apply parts_plain; exact H].
Qed.
(** Any order of the parts. *)
Theorem any_order r l : rule_ok r -> Permutation l (map tok (parts r)) ->
  rule_parse ctx (join_char ";" l) = Ok (canon r).
Proof.
  intros H P. destruct (Permutation_map_inv _ _ P) as (l' & -> & P').
  rewrite rule_parse_tok.
  - rewrite <- (read_parts_perm (parts r) l' P' (parts_nodup r)). apply read_canon. exact H.
  - intros ->. apply Permutation_sym, Permutation_nil in P'. unfold parts in P'. discriminate.
  - eapply Permutation_Forall; [exact P'|]. apply parts_plain. exact H.
Qed.
Theorem text_any_order r l : rule_ok r -> Permutation l (split_char ";" (rule_generate r)) ->
  rule_parse ctx (join_char ";" l) = Ok (canon r).
Proof.
  intros H P. apply any_order; [exact H|].
  rewrite generate_parts in P; [|intro; destruct H as (_ & (_ & _ & L) & _); apply L; assumption].
  rewrite split_join in P; [exact P|discriminate|].
  pose proof (parts_plain r H) as F. apply Forall_forall. intros s Hs. apply in_map_iff in Hs as (pv & <- & Hpv).
  rewrite Forall_forall in F. destruct (F pv Hpv) as [_ K]. unfold tok. rewrite cin_app, part_name_nosemi. cbn. exact K.
Qed.
End Ctx.
