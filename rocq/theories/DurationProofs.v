(** Proofs about durations. *)
From Coq Require Import Lia ZifyBool ZifyNat.
From Verif Require Import PyBase PyProofs ParserCtx DurationModel.
Ltac Zify.zify_post_hook ::= Z.div_mod_to_equations.

Lemma total_setDuration n : getTotalSeconds (setDuration n) = n.
Proof.
  unfold setDuration. set (r := if n <? 0 then - n else n).
  destruct (Z.eqb_spec (r mod (7*24*60*60)) 0) as [E|E].
  - unfold getTotalSeconds; cbn -[Z.div Z.modulo Z.mul Z.add].
    subst r. destruct (Z.leb_spec 0 n), (Z.ltb_spec n 0); cbn [negb]; lia.
  - unfold getTotalSeconds; cbn -[Z.div Z.modulo Z.mul Z.add].
    subst r. destruct (Z.leb_spec 0 n), (Z.ltb_spec n 0); cbn [negb]; lia.
Qed.

(** Canonical duration values: what setDuration produces. *)
Definition canonical (d : dur) : Prop :=
  (dDays d = 0 /\ dHours d = 0 /\ dMinutes d = 0 /\ dSeconds d = 0 /\ 0 <= dWeeks d) \/
  (dWeeks d = 0 /\ 0 <= dDays d /\ 0 <= dHours d /\ 0 <= dMinutes d /\ 0 <= dSeconds d).

Lemma setDuration_fields n :
  let d := setDuration n in
  (mForward d = true <-> 0 <= n) /\
  (if Z.abs n mod 604800 =? 0
   then dWeeks d = Z.abs n / 604800 /\ dDays d = 0 /\ dHours d = 0 /\ dMinutes d = 0 /\ dSeconds d = 0
   else dWeeks d = 0 /\ dDays d = Z.abs n / 86400 /\ dHours d = Z.abs n / 3600 mod 24 /\
        dMinutes d = Z.abs n / 60 mod 60 /\ dSeconds d = Z.abs n mod 60).
Proof.
  cbv zeta. unfold setDuration. replace (if n <? 0 then - n else n) with (Z.abs n) by (destruct (Z.ltb_spec n 0); lia).
  change (7*24*60*60) with 604800. cbv zeta.
  destruct (Z.eqb_spec (Z.abs n mod 604800) 0) as [E|E]; cbn -[Z.div Z.modulo Z.mul Z.add Z.leb].
  - split; [lia|]. repeat split; reflexivity.
  - split; [lia|]. repeat split; lia.
Qed.

Lemma setDuration_canonical n : canonical (setDuration n).
Proof.
  pose proof (setDuration_fields n) as [_ H]. cbv zeta in H. unfold canonical.
  destruct (Z.abs n mod 604800 =? 0).
  - left. destruct H as (H & ? & ? & ? & ?). repeat split; auto. lia.
  - right. destruct H as (? & H1 & H2 & H3 & H4). repeat split; auto; lia.
Qed.

(** ** Parsing printed numbers. *)
Lemma strtoul_rest_udigits n c r : 0 <= n -> is_digit c = false ->
  strtoul_rest (udigits n ++ c :: r) = Ok (n, c :: r).
Proof.
  intros H Hc. unfold strtoul_rest. destruct (udigits_spec n H) as (D & N & R & _).
  rewrite span_digits_app by auto. rewrite pyint_digits by auto. cbn [rbind]. rewrite R. reflexivity.
Qed.

Lemma pystr_pos n : 0 <= n -> pystr n = udigits n.
Proof. intro H. unfold pystr. destruct (Z.ltb_spec n 0); [lia|reflexivity]. Qed.

Lemma udigits_head n : 0 <= n -> exists c s, udigits n = c :: s /\ is_digit c = true.
Proof.
  intro H. destruct (udigits_spec n H) as (D & N & _ & _). destruct (udigits n) as [|c s]; [congruence|].
  exists c, s. split; auto. cbn in D. apply andb_prop in D. tauto.
Qed.

Lemma digit_neq c x : is_digit c = true -> is_digit x = false -> Ascii.eqb c x = false.
Proof. intros H1 H2. destruct (Ascii.eqb_spec c x); [subst; congruence|reflexivity]. Qed.

Section RT.
Variable ctx : pctx.

Definition opt (b : bool) (n : Z) (c : ascii) : bytes := if b then udigits n ++ [c] else [].

Lemma parse_secs_ok n d : parse_secs n ["S"%char] d = (set_seconds n d, Ok tt).
Proof. reflexivity. Qed.

(** After "T": a non-empty time part. *)
Lemma parse_time_ok h mi s d :
  0 <= h -> 0 <= mi -> 0 <= s -> nz h || nz mi || nz s = true ->
  parse_time ctx ("T"%char :: opt (nz h) h "H" ++ opt (nz mi || (nz h && nz s)) mi "M" ++ opt (nz s) s "S") d =
  ((if nz s then set_seconds s else fun x => x)
    ((if nz mi || (nz h && nz s) then set_minutes mi else fun x => x)
      ((if nz h then set_hours h else fun x => x) d)), Ok tt).
Proof.
  intros Hh Hm Hs Hn. unfold parse_time. cbn [tl].
  assert (ND : forall c, In c ["H"%char;"M"%char;"S"%char] -> is_digit c = false)
    by (intros c [<-|[<-|[<-|[]]]]; reflexivity).
  destruct (nz h) eqn:Eh; destruct (nz mi) eqn:Em; destruct (nz s) eqn:Es; try discriminate;
    cbn [orb andb opt]; unfold opt; cbn [app]; rewrite ?app_nil_r, <- ?app_assoc; cbn [app];
    (match goal with |- context [match udigits ?n ++ _ with _ => _ end] =>
       destruct (udigits_head n) as (c & t & E & Hc); [assumption|]; rewrite E; cbn [app];
       rewrite (app_comm_cons t), <- E end);
    rewrite strtoul_rest_udigits by (auto; apply ND; cbn; tauto);
    unfold mlift; cbn [mbind];
    unfold parse_hrs, parse_mins, parse_secs, mbind, mlift, mupd; cbn [head_r Ascii.eqb Bool.eqb tl];
    repeat (match goal with |- context [match udigits ?n ++ _ with _ => _ end] =>
       let c := fresh "c" in let t := fresh "t" in let E := fresh "E" in let Hc := fresh "Hc" in
       destruct (udigits_head n) as (c & t & E & Hc); [assumption|]; rewrite E; cbn [app];
       rewrite (app_comm_cons t), <- E end;
       rewrite strtoul_rest_udigits by (auto; apply ND; cbn; tauto); cbn [head_r Ascii.eqb Bool.eqb tl]);
    reflexivity.
Qed.
End RT.

Section RT2.
Variable ctx : pctx.

Definition zero_dur (d : dur) : bool :=
  negb (nz (dWeeks d) || nz (dDays d) || nz (dHours d) || nz (dMinutes d) || nz (dSeconds d)).

(** Apply a printed duration to a previous object. *)
Definition overlay (d old : dur) : dur :=
  let keep (n o : Z) := if n =? 0 then o else n in
  mkDur (mForward d || zero_dur d)
        (keep (dWeeks d) (dWeeks old)) (keep (dDays d) (dDays old))
        (keep (dHours d) (dHours old))
        (if nz (dMinutes d) || (nz (dHours d) && nz (dSeconds d)) then dMinutes d else dMinutes old)
        (if zero_dur d then 0 else keep (dSeconds d) (dSeconds old)).

Lemma parse_gen_sign (b : bool) r old : (exists c t, r = c :: t /\ Ascii.eqb c "-" = false /\ Ascii.eqb c "+" = false) ->
  dur_parse ctx ((if b then lit "-" else []) ++ "P"%char :: r) old =
  (let (d', x) := parse_dates ctx r (set_fwd (negb b) old) in (d', index_to_value x)).
Proof. intros _. destruct b; reflexivity. Qed.

Lemma parse_dates_W n old : 0 <= n ->
  parse_dates ctx (udigits n ++ ["W"%char]) old = (set_weeks n old, Ok tt).
Proof.
  intro H. destruct (udigits_head n H) as (c & t & E & Hc).
  unfold parse_dates, mbind at 1, mlift at 1. rewrite E at 1. cbn [app head_r].
  rewrite (digit_neq c "T") by (auto; reflexivity). cbn [negb].
  unfold mbind at 1, mlift at 1. rewrite strtoul_rest_udigits by auto.
  reflexivity.
Qed.

Lemma parse_dates_D n r old : 0 <= n -> (r = [] \/ exists t, r = "T"%char :: t) ->
  parse_dates ctx (udigits n ++ "D"%char :: r) old =
  match r with [] => (set_days n old, Ok tt) | _ => parse_time ctx r (set_days n old) end.
Proof.
  intros H Hr. destruct (udigits_head n H) as (c & t & E & Hc).
  unfold parse_dates, mbind at 1, mlift at 1. rewrite E at 1. cbn [app head_r].
  rewrite (digit_neq c "T") by (auto; reflexivity). cbn [negb].
  unfold mbind at 1, mlift at 1. rewrite strtoul_rest_udigits by auto.
  destruct Hr as [->|[t' ->]]; reflexivity.
Qed.

Lemma parse_dates_T r old : parse_dates ctx ("T"%char :: r) old = parse_time ctx ("T"%char :: r) old.
Proof. reflexivity. Qed.

Lemma dur_roundtrip_over d old : canonical d ->
  dur_parse ctx (dur_generate d) old = (overlay d old, Ok tt).
Proof.
  intro C. unfold dur_generate.
  assert (P : 0 <= dWeeks d /\ 0 <= dDays d /\ 0 <= dHours d /\ 0 <= dMinutes d /\ 0 <= dSeconds d)
    by (destruct C; lia). destruct P as (Pw & Pd & Ph & Pm & Ps).
  rewrite !pystr_pos by assumption.
  set (neg := negb (mForward d) && _).
  change (lit "P") with ["P"%char]. change (lit "W") with ["W"%char]. change (lit "D") with ["D"%char].
  change (lit "T") with ["T"%char]. change (lit "H") with ["H"%char]. change (lit "M") with ["M"%char].
  change (lit "S") with ["S"%char]. cbn [app].
  assert (G : forall r, dur_parse ctx ((if neg then lit "-" else []) ++ "P"%char :: r) old =
              (let (d', x) := parse_dates ctx r (set_fwd (negb neg) old) in (d', index_to_value x)))
    by (intro r; destruct neg; reflexivity).
  rewrite G. clear G.
  assert (Hneg : negb neg = mForward d || zero_dur d).
  { subst neg. unfold zero_dur. destruct (mForward d); cbn; auto. }
  rewrite Hneg. clear Hneg neg. unfold overlay.
  destruct (nz (dWeeks d)) eqn:Ew.
  - assert (dDays d = 0 /\ dHours d = 0 /\ dMinutes d = 0 /\ dSeconds d = 0) as (-> & -> & -> & ->).
    { unfold nz in Ew. destruct C; lia. }
    rewrite parse_dates_W by exact Pw. cbn [index_to_value].
    assert (zero_dur d = false) as -> by (unfold zero_dur; rewrite Ew; reflexivity).
    assert (dWeeks d =? 0 = false) as -> by (unfold nz in Ew; destruct (dWeeks d =? 0); auto).
    reflexivity.
  - assert (dWeeks d = 0) as Ew0 by (unfold nz in Ew; lia).
    rewrite Ew0. cbn [Z.eqb].
    assert (Ez : zero_dur d = negb (nz (dDays d) || nz (dHours d) || nz (dMinutes d) || nz (dSeconds d)))
      by (unfold zero_dur; rewrite Ew; reflexivity).
    rewrite Ez.
    destruct (nz (dHours d) || nz (dMinutes d) || nz (dSeconds d)) eqn:Et.
    + pose proof (parse_time_ok ctx (dHours d) (dMinutes d) (dSeconds d)) as PT. unfold opt in PT.
      assert (Ez2 : nz (dDays d) || nz (dHours d) || nz (dMinutes d) || nz (dSeconds d) = true)
        by (rewrite <- !orb_assoc in *; rewrite Et; apply orb_true_r).
      rewrite Ez2. cbn [negb].
      destruct (nz (dDays d)) eqn:Ed.
      * rewrite <- app_assoc. cbn [app].
        rewrite parse_dates_D by eauto. rewrite PT by assumption. cbn [index_to_value].
        unfold nz in *. destruct (dDays d =? 0) eqn:?; [discriminate|].
        destruct (dHours d =? 0) eqn:?, (dMinutes d =? 0) eqn:?, (dSeconds d =? 0) eqn:?; reflexivity.
      * cbn [app]. rewrite parse_dates_T. rewrite PT by assumption. cbn [index_to_value].
        unfold nz in *. destruct (dDays d =? 0) eqn:?; [|discriminate].
        destruct (dHours d =? 0) eqn:?, (dMinutes d =? 0) eqn:?, (dSeconds d =? 0) eqn:?; reflexivity.
    + apply orb_false_elim in Et as [Et Es]. apply orb_false_elim in Et as [Eh Em].
      rewrite Eh, Em, Es, !orb_false_r.
      destruct (nz (dDays d)) eqn:Ed.
      * assert (dDays d =? 0 = false) as Ed0 by (unfold nz in Ed; destruct (dDays d =? 0); auto).
        rewrite Ed0, app_nil_r. rewrite parse_dates_D by auto. cbn [index_to_value negb].
        unfold nz in *. destruct (dHours d =? 0); [|discriminate]. destruct (dSeconds d =? 0); [|discriminate].
        reflexivity.
      * assert (dDays d =? 0 = true) as Ed0 by (unfold nz in Ed; destruct (dDays d =? 0); auto).
        rewrite Ed0. cbn [app].
        unfold nz in *. destruct (dHours d =? 0); [|discriminate]. destruct (dSeconds d =? 0); [|discriminate].
        reflexivity.
Qed.

Lemma dur_roundtrip d : canonical d ->
  exists d', dur_parseText ctx (dur_generate d) = Ok d' /\
    getTotalSeconds d' = getTotalSeconds d /\
    (getTotalSeconds d <> 0 -> d' = d).
Proof.
  intro C. unfold dur_parseText. rewrite dur_roundtrip_over by exact C.
  eexists. split; [reflexivity|].
  assert (P : 0 <= dWeeks d /\ 0 <= dDays d /\ 0 <= dHours d /\ 0 <= dMinutes d /\ 0 <= dSeconds d)
    by (destruct C; lia).
  change (newDuration 0 0 0 0 0) with (mkDur true 0 0 0 0 0).
  unfold overlay. cbn [dWeeks dDays dHours dMinutes dSeconds].
  assert (K : forall n, (if n =? 0 then 0 else n) = n) by (intro n; destruct (Z.eqb_spec n 0); lia).
  rewrite !K.
  destruct (zero_dur d) eqn:Z0.
  - unfold zero_dur, nz in Z0.
    assert (dWeeks d = 0 /\ dDays d = 0 /\ dHours d = 0 /\ dMinutes d = 0 /\ dSeconds d = 0) as (E1 & E2 & E3 & E4 & E5) by lia.
    unfold getTotalSeconds. cbn [mForward dWeeks dDays dHours dMinutes dSeconds].
    rewrite E1, E2, E3, E4, E5. cbn. destruct (mForward d); cbn; split; auto; lia.
  - rewrite orb_false_r.
    assert (E : (if nz (dMinutes d) || nz (dHours d) && nz (dSeconds d) then dMinutes d else 0) = dMinutes d).
    { unfold nz. destruct (Z.eqb_spec (dMinutes d) 0); cbn [negb orb]; auto.
      destruct (_ && _); lia. }
    rewrite E. split; [destruct d; reflexivity|]. intros _. destruct d; reflexivity.
Qed.

Lemma strtoul_rest_value r e : strtoul_rest r = Raise e -> e = ValueError.
Proof.
  unfold strtoul_rest. destruct (span_digits r) as [ds t]. destruct (pyint ds) as [n|x] eqn:E; cbn; [discriminate|].
  intro H; injection H as <-. eapply pyint_only_value; eauto.
Qed.

Definition only_vi {A} (r : res A) : Prop := match r with Ok _ => True | Raise e => e = ValueError \/ e = IndexError end.

Lemma only_vi_bind {S A B} (m : M S A) (k : A -> M S B) s :
  only_vi (snd (m s)) -> (forall a s', only_vi (snd (k a s'))) -> only_vi (snd (mbind m k s)).
Proof.
  intros H1 H2. unfold mbind. destruct (m s) as [s' [a|e]]; cbn in *; auto.
Qed.

Lemma only_vi_head r s : only_vi (snd (@mlift dur _ (head_r r) s)).
Proof. destruct r; cbn; auto. Qed.

Lemma only_vi_strtoul r s : only_vi (snd (@mlift dur _ (strtoul_rest r) s)).
Proof.
  cbn. destruct (strtoul_rest r) as [a|e] eqn:E; cbn; auto. left. eapply strtoul_rest_value; eauto.
Qed.

Ltac vi := repeat first
  [ apply only_vi_head | apply only_vi_strtoul
  | apply only_vi_bind; [|intros ? ?]
  | match goal with
    | |- only_vi (snd (mret _ _)) => exact I
    | |- only_vi (snd (mupd _ _)) => exact I
    | |- only_vi (snd (mraise _ _)) => cbn; auto
    | |- only_vi (snd ((match ?x with _ => _ end) _)) => destruct x
    end ].

Lemma parse_secs_vi n r s : only_vi (snd (parse_secs n r s)).
Proof. unfold parse_secs. vi. Qed.
Lemma parse_mins_vi n r s : only_vi (snd (parse_mins n r s)).
Proof. unfold parse_mins. vi; apply parse_secs_vi. Qed.
Lemma parse_hrs_vi n r s : only_vi (snd (parse_hrs n r s)).
Proof. unfold parse_hrs. vi; apply parse_mins_vi. Qed.
Lemma parse_time_vi r s : only_vi (snd (parse_time ctx r s)).
Proof. unfold parse_time. vi; apply parse_hrs_vi. Qed.
Lemma parse_dates_vi r s : only_vi (snd (parse_dates ctx r s)).
Proof. unfold parse_dates. vi; apply parse_time_vi. Qed.

Lemma dur_parse_only_value data d e : snd (dur_parse ctx data d) = Raise e -> e = ValueError.
Proof.
  unfold dur_parse. assert (H : only_vi (snd (dur_parse_body ctx data d))).
  { unfold dur_parse_body. vi; first [apply parse_dates_vi|apply parse_time_vi]. }
  destruct (dur_parse_body ctx data d) as [d' [a|x]]; cbn in *; [discriminate|].
  destruct H as [->| ->]; cbn; congruence.
Qed.
End RT2.

(** ** What a successful parse produces. *)
Lemma span_digits_digits s : all_digits (fst (span_digits s)) = true.
Proof.
  induction s as [|c r IH]; [reflexivity|]. cbn [span_digits]. destruct (is_digit c) eqn:E; [|reflexivity].
  destruct (span_digits r) as [a b]. cbn [fst] in *. cbn. rewrite E. exact IH.
Qed.

Lemma digit_val_nonneg c : is_digit c = true -> 0 <= digit_val c.
Proof. intro H. unfold is_digit, digit_val in *. lia. Qed.

Lemma read_digits_nonneg s : forall a, 0 <= a -> all_digits s = true -> 0 <= read_digits a s.
Proof.
  induction s as [|c r IH]; intros a Ha D; [exact Ha|].
  cbn in D. apply andb_prop in D as [D1 D2]. cbn [read_digits]. apply IH; [|exact D2].
  pose proof (digit_val_nonneg c D1). lia.
Qed.

Lemma strtoul_rest_nonneg r n t : strtoul_rest r = Ok (n, t) -> 0 <= n.
Proof.
  unfold strtoul_rest. pose proof (span_digits_digits r) as D. revert D. destruct (span_digits r) as [ds rest]. cbn [fst]. intro D.
  destruct ds as [|c ds]; [cbn; discriminate|].
  rewrite pyint_digits by (auto; discriminate). cbn [rbind]. intro H.
  assert (E : read_digits 0 (c :: ds) = n) by congruence. rewrite <- E.
  apply read_digits_nonneg; [reflexivity|exact D].
Qed.

Definition dur_ok (d : dur) : Prop :=
  dWeeks d = 0 /\ 0 <= dDays d /\ 0 <= dHours d /\ 0 <= dMinutes d /\ 0 <= dSeconds d.

(** [m] run on a good object with a successful result gives a good object. *)
Definition keeps (P Q : dur -> Prop) (m : M dur unit) : Prop :=
  forall d d', P d -> m d = (d', Ok tt) -> Q d'.

Lemma parse_secs_keeps n r : 0 <= n -> keeps dur_ok dur_ok (parse_secs n r).
Proof.
  intros Hn d d' H E. unfold parse_secs, mbind, mlift, mupd, mret, mraise in E.
  destruct (head_r r) as [c|x]; [|discriminate]. destruct (Ascii.eqb c "S"); [|discriminate].
  destruct (tl r); [|discriminate]. injection E as <-. unfold dur_ok in *. cbn. tauto.
Qed.
Lemma parse_mins_keeps n r : 0 <= n -> keeps dur_ok dur_ok (parse_mins n r).
Proof.
  intros Hn d d' H E. unfold parse_mins, mbind, mlift, mupd, mret in E.
  destruct (head_r r) as [c|x]; [|discriminate]. destruct (Ascii.eqb c "M").
  - assert (H' : dur_ok (set_minutes n d)) by (unfold dur_ok in *; cbn; tauto).
    destruct (tl r) as [|c' r']; [injection E as <-; exact H'|].
    destruct (strtoul_rest (c' :: r')) as [[k t]|x] eqn:K; [|discriminate].
    apply strtoul_rest_nonneg in K. eapply parse_secs_keeps; eauto.
  - eapply parse_secs_keeps; eauto.
Qed.
Lemma parse_hrs_keeps n r : 0 <= n -> keeps dur_ok dur_ok (parse_hrs n r).
Proof.
  intros Hn d d' H E. unfold parse_hrs, mbind, mlift, mupd, mret in E.
  destruct (head_r r) as [c|x]; [|discriminate]. destruct (Ascii.eqb c "H").
  - assert (H' : dur_ok (set_hours n d)) by (unfold dur_ok in *; cbn; tauto).
    destruct (tl r) as [|c' r']; [injection E as <-; exact H'|].
    destruct (strtoul_rest (c' :: r')) as [[k t]|x] eqn:K; [|discriminate].
    apply strtoul_rest_nonneg in K. eapply parse_mins_keeps; eauto.
  - eapply parse_mins_keeps; eauto.
Qed.

Section RT3.
Variable ctx : pctx.
Lemma parse_time_keeps r : keeps dur_ok dur_ok (parse_time ctx r).
Proof.
  intros d d' H E. unfold parse_time, mbind, mlift, mupd, mret, mraise in E.
  destruct (tl r) as [|c r'].
  - destruct (peqb _ _); [discriminate|]. injection E as <-. exact H.
  - destruct (strtoul_rest (c :: r')) as [[k t]|x] eqn:K; [|discriminate].
    apply strtoul_rest_nonneg in K. eapply parse_hrs_keeps; eauto.
Qed.

Definition blank (d : dur) : Prop :=
  dWeeks d = 0 /\ dDays d = 0 /\ dHours d = 0 /\ dMinutes d = 0 /\ dSeconds d = 0.

Lemma ok_canonical d : dur_ok d -> canonical d.
Proof. intro H. right. exact H. Qed.
Lemma blank_ok d : blank d -> dur_ok d.
Proof. unfold blank, dur_ok. lia. Qed.

Lemma parse_dates_keeps r : keeps blank canonical (parse_dates ctx r).
Proof.
  intros d d' H E. unfold parse_dates, mbind, mlift, mupd, mret, mraise in E.
  destruct (head_r r) as [c|x]; [|discriminate].
  destruct (negb (Ascii.eqb c "T")).
  - destruct (strtoul_rest r) as [[n t]|x] eqn:K; [|discriminate]. apply strtoul_rest_nonneg in K.
    destruct (head_r t) as [c'|x]; [|discriminate].
    destruct (Ascii.eqb c' "W").
    + assert (d' = set_weeks n d) as ->.
      { destruct (tl t); [injection E as <-; reflexivity|]. destruct (negb _); [injection E as <-; reflexivity|discriminate]. }
      left. unfold blank in H. cbn. tauto.
    + destruct (Ascii.eqb c' "D"); [|discriminate].
      assert (H' : dur_ok (set_days n d)) by (unfold blank, dur_ok in *; cbn; lia).
      destruct (tl t) as [|c2 t2]; [injection E as <-; apply ok_canonical; exact H'|].
      destruct (negb _); [discriminate|]. apply ok_canonical. eapply parse_time_keeps; eauto.
  - apply ok_canonical. eapply parse_time_keeps; eauto using blank_ok.
Qed.

Lemma dur_parse_canonical s d : dur_parseText ctx s = Ok d -> canonical d.
Proof.
  unfold dur_parseText, dur_parse.
  destruct (dur_parse_body ctx s (newDuration 0 0 0 0 0)) as [d' r] eqn:E.
  destruct r as [[]|x]; [|destruct x; discriminate].
  cbn [index_to_value]. intro H. injection H as <-.
  unfold dur_parse_body, mbind, mlift, mupd, mret, mraise in E.
  destruct (head_r s) as [c|x]; [|discriminate].
  destruct (Ascii.eqb c "-" || Ascii.eqb c "+").
  - destruct (head_r (tl s)) as [c'|x]; [|discriminate]. destruct (negb _); [discriminate|].
    eapply parse_dates_keeps; [|exact E]. unfold blank. cbn. auto.
  - destruct (head_r s) as [c'|x]; [|discriminate]. destruct (negb _); [discriminate|].
    eapply parse_dates_keeps; [|exact E]. unfold blank. cbn. auto.
Qed.

(** Text that parses once keeps its meaning when written and parsed again. *)
Lemma dur_text_stable s d : dur_parseText ctx s = Ok d ->
  exists d', dur_parseText ctx (dur_generate d) = Ok d' /\ getTotalSeconds d' = getTotalSeconds d.
Proof.
  intro H. apply dur_parse_canonical in H. destruct (dur_roundtrip ctx d H) as (d' & A & B & _). eauto.
Qed.

Lemma dur_text_total n : exists d', dur_parseText ctx (dur_generate (setDuration n)) = Ok d' /\
  getTotalSeconds d' = n /\ (n <> 0 -> d' = setDuration n).
Proof.
  destruct (dur_roundtrip ctx _ (setDuration_canonical n)) as (d' & A & B & C).
  exists d'. rewrite total_setDuration in *. auto.
Qed.

(** Parsing on an object whose fields are all zero is the same as on a new object. *)
Lemma dur_parse_fresh_like s old : blank old -> 
  match dur_parse ctx s old with
  | (d, Ok _) => dur_parseText ctx s = Ok d
  | (_, Raise e) => dur_parseText ctx s = Raise e
  end.
Proof.
  intro B. unfold dur_parseText, dur_parse.
  assert (E : dur_parse_body ctx s old = dur_parse_body ctx s (newDuration 0 0 0 0 0)).
  { unfold blank in B. destruct old as [b w d h m x]; cbn in B. destruct B as (-> & -> & -> & -> & ->).
    unfold dur_parse_body, mbind at 1 4. destruct b; reflexivity. }
  rewrite E. destruct (dur_parse_body ctx s (newDuration 0 0 0 0 0)) as [d [u|e]]; cbn; auto.
  destruct e; reflexivity.
Qed.

Lemma reuse_refuted : exists s old, 
  snd (dur_parse ctx s old) = Ok tt /\
  dur_parseText ctx s = Ok (setDuration 3600) /\
  getTotalSeconds (fst (dur_parse ctx s old)) = 90000.
Proof. exists (lit "PT1H"), (setDuration 86400). split; [reflexivity|]. split; reflexivity. Qed.
End RT3.
