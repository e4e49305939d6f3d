From Verif Require Import PyBase PyProofs ParserCtx TextModel TextSpec TextProofs LineModel LineSpec.
From Coq Require Import Lia ZifyBool ZifyNat.
Ltac Zify.zify_post_hook ::= Z.div_mod_to_equations.

Lemma is_cont_spec c : is_cont c = true <-> continuation c.
Proof.
  unfold continuation; destruct c as [[] [] [] [] [] [] [] []]; vm_compute; split; intros H; try discriminate; try reflexivity;
  try (split; [repeat constructor|repeat constructor]; fail); destruct H as [H1 H2];
  repeat match goal with H : (_ <= _)%nat |- _ => apply Nat.leb_le in H; vm_compute in H; try discriminate end.
Qed.

Lemma cont_dec c : {continuation c} + {~ continuation c}.
Proof. destruct (is_cont c) eqn:H; [left; apply is_cont_spec; assumption|right; rewrite <- is_cont_spec; congruence]. Qed.

Definition at_ (temp : bytes) (i : nat) (P : ascii -> Prop) : Prop := exists c, nth_error temp i = Some c /\ P c.
Definition lead (temp : bytes) (i : nat) : Prop := at_ temp i (fun c => ~ continuation c).
Definition cont (temp : bytes) (i : nat) : Prop := at_ temp i continuation.

Lemma zget_nat temp i : zget temp (Z.of_nat i) = sget temp i.
Proof.
  unfold zget. destruct (Z.ltb_spec (Z.of_nat i) 0); [lia|].
  destruct (Z.leb_spec 0 (Z.of_nat i)); [|lia]. cbn [andb].
  destruct (Z.ltb_spec (Z.of_nat i) (Z.of_nat (List.length temp))); [rewrite Nat2Z.id; reflexivity|].
  unfold sget. replace (nth_error temp i) with (@None ascii); [reflexivity|].
  symmetry; apply nth_error_None; lia.
Qed.

Lemma step_back_to temp j : forall d fuel, (d < fuel)%nat -> lead temp j ->
  (forall i, (j < i <= j + d)%nat -> cont temp i) ->
  step_back fuel temp (Z.of_nat (j + d)) = Some (Ok (Z.of_nat j)).
Proof.
  induction d as [|d IH]; intros fuel Hf Hl Hc; (destruct fuel as [|fuel]; [lia|]); cbn [step_back]; rewrite zget_nat; unfold sget.
  - rewrite Nat.add_0_r. destruct Hl as (c & -> & Hn). rewrite <- is_cont_spec in Hn.
    destruct (is_cont c); [congruence|reflexivity].
  - destruct (Hc (j + S d)%nat) as (c & -> & Hn); [lia|]. apply is_cont_spec in Hn; rewrite Hn.
    replace (Z.of_nat (j + S d) - 1) with (Z.of_nat (j + d)) by lia.
    apply IH; [lia|assumption|]. intros i Hi; apply Hc; lia.
Qed.

(** the last lead octet at or before o *)
Lemma last_lead temp s o : (s <= o)%nat -> (o < List.length temp)%nat -> lead temp s ->
  exists j, (s <= j <= o)%nat /\ lead temp j /\ (forall i, (j < i <= o)%nat -> cont temp i).
Proof.
  intros Hso Ho Hs. remember (o - s)%nat as d eqn:Hd. revert o Hso Ho Hd; induction d as [|d IH]; intros o Hso Ho Hd.
  - exists s; split; [lia|split; [assumption|]]. intros i Hi; lia.
  - destruct (nth_error temp o) as [c|] eqn:Hc; [|apply nth_error_None in Hc; lia].
    destruct (cont_dec c) as [Hk|Hk].
    + destruct (IH (o - 1)%nat) as (j & Hj & Hl & Hx); [lia|lia|lia|].
      exists j; split; [lia|split; [assumption|]]. intros i Hi.
      destruct (Nat.eq_dec i o) as [->|Hne]; [exists c; auto|apply Hx; lia].
    + exists o; split; [lia|split; [exists c; auto|]]. intros i Hi; lia.
Qed.

Lemma step_back_last temp s o : (s <= o)%nat -> (o < List.length temp)%nat -> lead temp s ->
  exists j, (s <= j <= o)%nat /\ lead temp j /\ (forall i, (j < i <= o)%nat -> cont temp i) /\
  step_back (S (S (Z.to_nat (Z.of_nat o + Z.of_nat (List.length temp))))) temp (Z.of_nat o) = Some (Ok (Z.of_nat j)).
Proof.
  intros H1 H2 H3; destruct (last_lead temp s o H1 H2 H3) as (j & Hj & Hl & Hc).
  exists j; repeat split; [lia|lia|assumption|assumption|].
  replace o with (j + (o - j))%nat at 2 by lia.
  apply step_back_to; [lia|assumption|]. intros i Hi; apply Hc; lia.
Qed.

Lemma zslice_nat temp a b : (a <= b <= List.length temp)%nat -> zslice temp (Z.of_nat a) (Z.of_nat b) = slice temp a b.
Proof.
  intros H; unfold zslice, znorm.
  destruct (Z.ltb_spec (Z.of_nat a) 0); [lia|]. destruct (Z.ltb_spec (Z.of_nat b) 0); [lia|].
  f_equal; lia.
Qed.

(** ** A run of continuation octets: the loop never ends *)
Lemma fold_stuck temp p L : (73 <= L)%nat -> (p + L < List.length temp)%nat ->
  (forall i, (p < i <= p + L)%nat -> cont temp i) ->
  forall fuel s wrap, (s <= p)%nat -> lead temp s -> (s + wrap <= p + L)%nat ->
  fold_loop fuel temp (Z.of_nat s) (Z.of_nat s) (Z.of_nat wrap) = None.
Proof.
  intros HL Hn Hc; induction fuel as [|f IH]; intros s wrap Hs Hl Hw; [reflexivity|]; cbn [fold_loop]; cbv zeta.
  destruct (Z.ltb_spec (Z.of_nat s) (Z.of_nat (List.length temp))); [|lia].
  destruct (Z.leb_spec (Z.of_nat (List.length temp)) (Z.of_nat s + Z.of_nat wrap)); [lia|].
  rewrite <- Nat2Z.inj_add.
  destruct (step_back_last temp s (s + wrap)) as (j & Hj & Hlj & Hcj & ->); [lia|lia|assumption|].
  assert (Hjp : (j <= p)%nat).
  { destruct (Nat.le_gt_cases j p) as [|Hgt]; [assumption|]. exfalso.
    destruct (Hc j) as (c & E1 & K1); [lia|]. destruct Hlj as (c' & E2 & K2). congruence. }
  replace (Z.of_nat s + (Z.of_nat j - Z.of_nat s)) with (Z.of_nat j) by lia.
  change 73 with (Z.of_nat 73). rewrite IH; [reflexivity|lia|assumption|lia].
Qed.

Lemma skipn_skipn' {A} (l : list A) : forall a b, skipn a (skipn b l) = skipn (a + b) l.
Proof.
  induction l as [|x l IH]; intros a b; [rewrite !skipn_nil; reflexivity|].
  destruct b as [|b]; [rewrite Nat.add_0_r; reflexivity|]. rewrite Nat.add_succ_r; cbn [skipn]; apply IH.
Qed.

(** ** Otherwise it ends *)
Inductive folded : nat -> bytes -> list bytes -> Prop :=
| fo_last : forall wrap rest, (List.length rest <= wrap)%nat -> rest <> [] -> folded wrap rest [rest]
| fo_more : forall wrap a c b ls, a <> [] -> (List.length a <= wrap)%nat -> ~ continuation c ->
    folded 73 (c :: b) ls -> folded wrap (a ++ c :: b) (a :: ls).

Fixpoint joined (ls : list bytes) : bytes :=
  match ls with
  | [] => []
  | [x] => x
  | x :: r => x ++ CR :: LF :: SPC :: joined r
  end.

Lemma physical_joined ls : ls <> [] -> physical ls = joined ls ++ [CR; LF].
Proof.
  induction ls as [|x [|y r] IH]; intros H; [congruence|reflexivity|].
  change (physical (x :: y :: r)) with (x ++ CR :: LF :: SPC :: physical (y :: r)).
  change (joined (x :: y :: r)) with (x ++ CR :: LF :: SPC :: joined (y :: r)).
  rewrite IH by congruence. rewrite <- app_assoc; reflexivity.
Qed.

Lemma joined_cons x ls : ls <> [] -> joined (x :: ls) = x ++ CR :: LF :: SPC :: joined ls.
Proof. destruct ls; [congruence|reflexivity]. Qed.

Lemma folded_ne w r ls : folded w r ls -> ls <> [].
Proof. intros H; inversion H; discriminate. Qed.

Lemma fold_ends temp : (forall p, (0 < p)%nat -> (exists i, (p < i <= p + 73)%nat /\ ~ cont temp i)) ->
  (exists i, (0 < i <= 74)%nat /\ ~ cont temp i) ->
  forall fuel s wrap, (List.length temp - s < fuel)%nat -> (s < List.length temp)%nat -> lead temp s ->
  wrap = 73%nat \/ (s = O /\ wrap = 74%nat) -> (s = O -> wrap = 74%nat) ->
  exists ls, fold_loop fuel temp (Z.of_nat s) (Z.of_nat s) (Z.of_nat wrap) = Some (Ok (joined ls)) /\
    folded wrap (skipn s temp) ls.
Proof.
  intros Hg Hg0; induction fuel as [|f IH]; intros s wrap Hf Hs Hl Hw Hw0; [lia|]; cbn [fold_loop]; cbv zeta.
  destruct (Z.ltb_spec (Z.of_nat s) (Z.of_nat (List.length temp))); [|lia].
  assert (Hlen : List.length (skipn s temp) = (List.length temp - s)%nat) by apply skipn_length.
  destruct (Z.leb_spec (Z.of_nat (List.length temp)) (Z.of_nat s + Z.of_nat wrap)).
  - exists [skipn s temp]; split.
    + rewrite zslice_nat by lia. unfold slice. rewrite firstn_all2 by lia. reflexivity.
    + constructor; [lia|]. intros He; rewrite He in Hlen; cbn in Hlen; lia.
  - rewrite <- Nat2Z.inj_add.
    destruct (step_back_last temp s (s + wrap)) as (j & Hj & Hlj & Hcj & ->); [lia|lia|assumption|].
    assert (Hprog : (s < j)%nat).
    { destruct (Nat.eq_dec j s) as [->|]; [exfalso|lia].
      assert (Hx : exists i, (s < i <= s + wrap)%nat /\ ~ cont temp i).
      { destruct (Nat.eq_dec s 0) as [Hz|Hz].
        - rewrite (Hw0 Hz), Hz; exact Hg0.
        - destruct Hw as [-> |[Hz' _]]; [apply Hg; lia|lia]. }
      destruct Hx as (i & Hi & Hni). apply Hni, Hcj; assumption. }
    replace (Z.of_nat s + (Z.of_nat j - Z.of_nat s)) with (Z.of_nat j) by lia.
    change 73 with (Z.of_nat 73).
    destruct (IH j 73%nat) as (ls & -> & Hls); [lia|lia|assumption|left; reflexivity|lia|].
    exists (slice temp s j :: ls); split.
    + rewrite joined_cons by (eapply folded_ne; exact Hls). rewrite zslice_nat by lia. reflexivity.
    + destruct Hlj as (c & Hc & Hnc).
      assert (Hsk : skipn j temp = c :: skipn (S j) temp).
      { clear -Hc; revert j Hc; induction temp as [|x t IHt]; intros [|j] Hc; try discriminate.
        - injection Hc as ->; reflexivity.
        - apply IHt; assumption. }
      assert (Hsp : skipn s temp = slice temp s j ++ c :: skipn (S j) temp).
      { rewrite <- Hsk. unfold slice. replace (skipn j temp) with (skipn (j - s) (skipn s temp)).
        - symmetry; apply firstn_skipn.
        - rewrite skipn_skipn'. f_equal; lia. }
      rewrite Hsp. apply fo_more; [|unfold slice; rewrite firstn_length; lia|assumption|rewrite <- Hsk; assumption].
      intros He. apply (f_equal (@List.length ascii)) in He. unfold slice in He; rewrite firstn_length in He. cbn in He; lia.
Qed.

(** Runs. *)
Lemma nth_skip {A} (l : list A) k i : nth_error (skipn k l) i = nth_error l (k + i).
Proof. revert l; induction k as [|k IH]; intros [|x l]; cbn; try reflexivity; [destruct i; reflexivity|apply IH]. Qed.

Lemma run_positions n s : has_run n s <-> exists k, forall i, (k <= i < k + n)%nat -> cont s i.
Proof.
  split.
  - intros (a & m & b & -> & Hm & Hf); exists (List.length a); intros i Hi.
    rewrite Forall_forall in Hf. unfold cont, at_.
    rewrite nth_error_app2, nth_error_app1 by lia.
    destruct (nth_error m (i - List.length a)) as [c|] eqn:Hc; [|apply nth_error_None in Hc; lia].
    exists c; split; [reflexivity|apply Hf; eapply nth_error_In; eassumption].
  - intros (k & Hk). destruct n as [|n]; [exists [], [], s; repeat split; constructor|].
    assert (Hlen : (k + S n <= List.length s)%nat).
    { destruct (Hk (k + n)%nat) as (c & Hc & _); [lia|]. assert (nth_error s (k + n) <> None) as Hx by congruence. apply nth_error_Some in Hx; lia. }
    exists (firstn k s), (firstn (S n) (skipn k s)), (skipn (S n) (skipn k s)); repeat split.
    + rewrite firstn_skipn, firstn_skipn; reflexivity.
    + rewrite firstn_length, skipn_length; lia.
    + apply Forall_forall; intros c Hc. apply In_nth_error in Hc; destruct Hc as [i Hi].
      assert (Hi' : (i < S n)%nat). { assert (nth_error (firstn (S n) (skipn k s)) i <> None) as Hx by congruence. apply nth_error_Some in Hx. rewrite firstn_length in Hx; lia. }
      assert (He : nth_error (skipn k s) i = Some c).
      { rewrite <- (firstn_skipn (S n) (skipn k s)), nth_error_app1; [assumption|]. apply nth_error_Some; congruence. }
      rewrite nth_skip in He. destruct (Hk (k + i)%nat) as (c' & Hc' & Hcc); [lia|]. congruence.
Qed.

Lemma cont_lead temp i : cont temp i -> lead temp i -> False.
Proof. intros (c & E1 & H1) (c' & E2 & H2); congruence. Qed.

Lemma fold_loop_diverges temp : lead temp 0 -> has_run 73 (skipn 2 temp) -> forall fuel, fold_loop fuel temp 0 0 74 = None.
Proof.
  intros Hl Hr fuel; apply run_positions in Hr; destruct Hr as (k & Hk).
  assert (Hk' : forall i, (k + 2 <= i < k + 2 + 73)%nat -> cont temp i).
  { intros i Hi. destruct (Hk (i - 2)%nat) as (c & Hc & Hcc); [lia|]. rewrite nth_skip in Hc.
    replace (2 + (i - 2))%nat with i in Hc by lia. exists c; auto. }
  assert (Hlen : (k + 74 < List.length temp)%nat).
  { destruct (Hk' (k + 74)%nat) as (c & Hc & _); [lia|]. apply nth_error_Some; congruence. }
  destruct (last_lead temp 0 (k + 74)) as (p & Hp & Hlp & Hcp); [lia|lia|assumption|].
  assert (p <= k + 1)%nat.
  { destruct (Nat.le_gt_cases p (k + 1)); [assumption|]. exfalso; apply (cont_lead temp p); [apply Hk'; lia|exact Hlp]. }
  apply (fold_stuck temp p (k + 74 - p)%nat) with (s := O) (wrap := 74%nat); [lia|lia| |lia|assumption|lia].
  intros i Hi; apply Hcp; lia.
Qed.

Lemma all_or temp (a n : nat) : (forall i, (a < i <= a + n)%nat -> cont temp i) \/ (exists i, (a < i <= a + n)%nat /\ ~ cont temp i).
Proof.
  induction n as [|n [IH|(i & Hi & Hn)]]; [left; intros i Hi; lia| |right; exists i; split; [lia|assumption]].
  destruct (nth_error temp (a + S n)) as [c|] eqn:Hc.
  - destruct (cont_dec c) as [Hk|Hk].
    + left; intros i Hi. destruct (Nat.eq_dec i (a + S n)) as [->|]; [exists c; auto|apply IH; lia].
    + right; exists (a + S n)%nat; split; [lia|]. intros (c' & E1 & H1); congruence.
  - right; exists (a + S n)%nat; split; [lia|]. intros (c' & E1 & H1); congruence.
Qed.

Lemma fold_loop_ends temp : lead temp 0 -> ~ has_run 73 (skipn 2 temp) ->
  exists ls, fold_loop (S (List.length temp)) temp 0 0 74 = Some (Ok (joined ls)) /\ folded 74 temp ls.
Proof.
  intros Hl Hr. rewrite run_positions in Hr.
  assert (H1 : forall p, (0 < p)%nat -> exists i, (p < i <= p + 73)%nat /\ ~ cont temp i).
  { intros p Hp; destruct (all_or temp p 73) as [Ha|Ha]; [exfalso|exact Ha].
    apply Hr; exists (p - 1)%nat; intros i Hi. destruct (Ha (i + 2)%nat) as (c & Hc & Hcc); [lia|].
    exists c; split; [rewrite nth_skip; replace (2 + i)%nat with (i + 2)%nat by lia; exact Hc|exact Hcc]. }
  assert (H2 : exists i, (0 < i <= 74)%nat /\ ~ cont temp i).
  { destruct (all_or temp 0 74) as [Ha|Ha]; [exfalso|exact Ha].
    apply Hr; exists 0%nat; intros i Hi. destruct (Ha (i + 2)%nat) as (c & Hc & Hcc); [lia|].
    exists c; split; [rewrite nth_skip; replace (2 + i)%nat with (i + 2)%nat by lia; exact Hc|exact Hcc]. }
  assert (Hpos : (0 < List.length temp)%nat) by (destruct Hl as (c & Hc & _); apply nth_error_Some; congruence).
  apply (fold_ends temp H1 H2 (S (List.length temp)) 0 74); [lia|lia|assumption|right; auto|auto].
Qed.

Lemma short_no_run temp : (List.length temp < 75)%nat -> ~ has_run 73 (skipn 2 temp).
Proof.
  intros Hl Hr; apply run_positions in Hr; destruct Hr as (k & Hk).
  destruct (Hk (k + 72)%nat) as (c & Hc & _); [lia|].
  assert (nth_error (skipn 2 temp) (k + 72) <> None) as Hx by congruence. apply nth_error_Some in Hx. rewrite skipn_length in Hx; lia.
Qed.

Lemma fold_line_diverges temp : lead temp 0 -> has_run 73 (skipn 2 temp) -> forall fuel, fold_line fuel temp = None.
Proof.
  intros Hl Hr fuel; unfold fold_line. destruct (Nat.ltb_spec (List.length temp) 75) as [Hs|Hs].
  - exfalso; apply (short_no_run temp); assumption.
  - rewrite fold_loop_diverges by assumption; reflexivity.
Qed.

Lemma fold_line_ends temp : lead temp 0 -> ~ has_run 73 (skipn 2 temp) ->
  exists ls, fold_line (S (List.length temp)) temp = Some (Ok (physical ls)) /\ folded 74 temp ls.
Proof.
  intros Hl Hr; unfold fold_line. destruct (Nat.ltb_spec (List.length temp) 75) as [Hs|Hs].
  - exists [temp]; split; [reflexivity|]. constructor; [lia|]. destruct Hl as (c & Hc & _); intros ->; discriminate.
  - destruct (fold_loop_ends temp Hl Hr) as (ls & -> & Hls); exists ls; split; [|assumption].
    rewrite physical_joined by (eapply folded_ne; exact Hls); reflexivity.
Qed.

Lemma fold_loop_more temp r f1 : forall f2 s w wr, (f1 <= f2)%nat -> fold_loop f1 temp s w wr = Some r -> fold_loop f2 temp s w wr = Some r.
Proof.
  revert r; induction f1 as [|f1 IH]; intros r f2 s w wr Hf; [discriminate|].
  destruct f2 as [|f2]; [lia|]; cbn [fold_loop]; cbv zeta.
  destruct (w <? _); [|auto]. destruct (_ <=? _); [auto|].
  destruct (step_back _ _ _) as [[o|e]|]; auto.
  destruct (fold_loop f1 temp o _ 73) as [r1|] eqn:H1; [|discriminate].
  rewrite (IH _ f2 _ _ _ ltac:(lia) H1). auto.
Qed.
Lemma fold_line_more temp f1 f2 r : (f1 <= f2)%nat -> fold_line f1 temp = Some r -> fold_line f2 temp = Some r.
Proof.
  intros Hf; unfold fold_line; destruct (_ <? 75)%nat; [auto|].
  destruct (fold_loop f1 temp 0 0 74) as [x|] eqn:H1; [|discriminate].
  rewrite (fold_loop_more _ _ _ _ _ _ _ Hf H1); auto.
Qed.

Lemma fold_line_unique temp f1 f2 r1 r2 : fold_line f1 temp = Some r1 -> fold_line f2 temp = Some r2 -> r1 = r2.
Proof.
  intros H1 H2. destruct (Nat.le_ge_cases f1 f2) as [H|H].
  - apply (fold_line_more _ _ _ _ H) in H1; congruence.
  - apply (fold_line_more _ _ _ _ H) in H2; congruence.
Qed.

(** ** What is written *)
Lemma folded_concat w temp ls : folded w temp ls -> List.concat ls = temp.
Proof. induction 1; cbn [List.concat]; [apply app_nil_r|rewrite IHfolded; reflexivity]. Qed.

Lemma folded_short w temp ls : folded w temp ls ->
  match ls with x :: r => (List.length x <= w)%nat /\ Forall (fun y => (List.length y <= 73)%nat) r | [] => True end.
Proof.
  induction 1 as [w rest H Hn|w a c b ls Ha Hl Hc Hf IH]; [split; [assumption|constructor]|].
  split; [assumption|]. inversion Hf; subst; destruct IH; constructor; auto.
Qed.

Lemma folded_short_lines temp ls : folded 74 temp ls -> short_lines ls.
Proof.
  intros H; apply folded_short in H; destruct ls as [|x r]; [exact I|]. destruct H as [H1 H2]; split; [assumption|].
  eapply Forall_impl; [|exact H2]. cbv beta; cbn [List.length]; intros; lia.
Qed.

(** characters are not split *)
Lemma utf8_split chars : Forall utf8_char chars -> forall a c b, List.concat chars = a ++ c :: b -> ~ continuation c ->
  exists l1 l2, chars = l1 ++ l2 /\ List.concat l1 = a /\ List.concat l2 = c :: b.
Proof.
  induction 1 as [|x chars Hx _ IH]; intros a c b He Hc; [destruct a; discriminate|].
  destruct Hx as (d & r & -> & Hd & Hr & _); cbn [List.concat] in He.
  destruct a as [|d' a].
  - exists [], ((d :: r) :: chars); split; [reflexivity|split; [reflexivity|exact He]].
  - cbn [app] in He; injection He as <- He.
    assert (Hs : exists a', a = r ++ a' /\ List.concat chars = a' ++ c :: b).
    { clear -He Hr Hc. revert a He; induction Hr as [|y r Hy _ IHr]; intros a He; [exists a; auto|].
      destruct a as [|y' a]; cbn [app] in He.
      - injection He as -> _; contradiction.
      - injection He as <- He. destruct (IHr a He) as (a' & -> & He'); exists a'; auto. }
    destruct Hs as (a' & -> & He'). destruct (IH a' c b He' Hc) as (l1 & l2 & -> & <- & H2).
    exists ((d :: r) :: l1), l2; auto.
Qed.

Lemma folded_utf8 w temp ls : folded w temp ls -> forall chars, Forall utf8_char chars -> List.concat chars = temp ->
  exists css, List.concat css = chars /\ map (@List.concat ascii) css = ls.
Proof.
  induction 1 as [w rest Hl Hn|w a c b ls Ha Hl Hc Hf IH]; intros chars Hu He.
  - exists [chars]; cbn; rewrite app_nil_r, He; auto.
  - destruct (utf8_split chars Hu a c b He Hc) as (l1 & l2 & -> & H1 & H2).
    apply Forall_app in Hu; destruct Hu as [Hu1 Hu2].
    destruct (IH l2 Hu2 H2) as (css & <- & <-). exists (l1 :: css); cbn; rewrite H1; auto.
Qed.

Lemma utf8_lead chars : Forall utf8_char chars -> chars <> [] -> lead (List.concat chars) 0.
Proof.
  intros H Hn; destruct H as [|x l (c & r & -> & Hc & _) _]; [congruence|]. exists c; auto.
Qed.

Lemma utf8_no_run chars : Forall utf8_char chars -> ~ has_run 4 (List.concat chars).
Proof.
  intros Hu Hr. apply run_positions in Hr; destruct Hr as (k & Hk).
  revert k Hk; induction Hu as [|x l Hx Hl IH]; intros k Hk.
  - destruct (Hk k) as (c & Hc & _); [lia|]. destruct k; discriminate.
  - destruct Hx as (c & r & -> & Hc & Hr & Hlen). cbn [List.concat] in Hk.
    destruct (Nat.le_gt_cases (S (List.length r)) k) as [Hge|Hlt].
    + apply (IH (k - S (List.length r))%nat). intros i Hi.
      destruct (Hk (i + S (List.length r))%nat) as (c' & Hc' & Hcc); [lia|].
      rewrite nth_error_app2 in Hc' by (cbn [List.length]; lia). cbn [List.length] in Hc'.
      replace (i + S (List.length r) - S (List.length r))%nat with i in Hc' by lia. exists c'; auto.
    + destruct k as [|k].
      * destruct (Hk 0%nat) as (c' & Hc' & Hcc); [lia|]. injection Hc' as ->; contradiction.
      * (* the run reaches the next character *)
        assert (Hi : (S k <= S (List.length r) < S k + 4)%nat) by lia.
        destruct (Hk (S (List.length r)) Hi) as (c' & Hc' & Hcc).
        rewrite nth_error_app2 in Hc' by (cbn [List.length]; lia). cbn [List.length] in Hc'. rewrite Nat.sub_diag in Hc'.
        destruct Hl as [|y l' (d & r' & -> & Hd & _) _]; [discriminate|]. injection Hc' as ->; contradiction.
Qed.

Lemma has_run_mono n m s : (n <= m)%nat -> has_run m s -> has_run n s.
Proof. intros Hnm; rewrite !run_positions; intros (k & Hk); exists k; intros i Hi; apply Hk; lia. Qed.
Lemma has_run_skip n k s : has_run n (skipn k s) -> has_run n s.
Proof.
  rewrite !run_positions; intros (j & Hj); exists (k + j)%nat; intros i Hi.
  destruct (Hj (i - k)%nat) as (c & Hc & Hcc); [lia|]. rewrite nth_skip in Hc.
  replace (k + (i - k))%nat with i in Hc by lia. exists c; auto.
Qed.

Lemma fold_utf8 chars : Forall utf8_char chars -> chars <> [] ->
  exists css, fold_line (S (List.length (List.concat chars))) (List.concat chars) = Some (Ok (physical (map (@List.concat ascii) css))) /\
    List.concat css = chars /\ short_lines (map (@List.concat ascii) css).
Proof.
  intros Hu Hn.
  destruct (fold_line_ends (List.concat chars)) as (ls & Hf & Hls).
  - apply utf8_lead; assumption.
  - intros Hr; apply (utf8_no_run chars Hu). eapply has_run_mono; [|eapply has_run_skip; exact Hr]. lia.
  - destruct (folded_utf8 _ _ _ Hls chars Hu eq_refl) as (css & H1 & H2). exists css; rewrite H2. split; [assumption|split; [assumption|]].
    apply (folded_short_lines (List.concat chars)); assumption.
Qed.

(** ** Unfolding *)
Lemma unfold_skip x s : ~ In CR x -> unfold_text (x ++ s) = x ++ unfold_text s.
Proof.
  induction x as [|c x IH]; intros H; [reflexivity|]; cbn [app].
  assert (Hc : Ascii.eqb c CR = false) by (apply Ascii.eqb_neq; intros ->; apply H; left; reflexivity).
  assert (Hu : forall t, unfold_text (c :: t) = c :: unfold_text t).
  { intros t; cbn [unfold_text]; rewrite Hc; cbn [andb]. destruct t as [|d [|e t]]; reflexivity. }
  rewrite Hu, IH; [reflexivity|]. intros Hi; apply H; right; assumption.
Qed.

Lemma unfold_physical ls : ls <> [] -> ~ In CR (List.concat ls) -> unfold_text (physical ls) = List.concat ls ++ [CR; LF].
Proof.
  induction ls as [|x [|y r] IH]; intros Hn Hc; [congruence| |].
  - cbn [physical List.concat] in *. rewrite app_nil_r in *. rewrite unfold_skip by assumption. reflexivity.
  - change (physical (x :: y :: r)) with (x ++ CR :: LF :: SPC :: physical (y :: r)).
    change (List.concat (x :: y :: r)) with (x ++ List.concat (y :: r)) in *. rewrite in_app_iff in Hc.
    rewrite unfold_skip by tauto.
    change (unfold_text (CR :: LF :: SPC :: physical (y :: r))) with (unfold_text (physical (y :: r))).
    rewrite IH by (try congruence; tauto). rewrite app_assoc; reflexivity.
Qed.

(** ** Reading files *)
Lemma readline_app x s : ~ In LF x -> readline (x ++ LF :: s) = (x ++ [LF], s).
Proof.
  induction x as [|c x IH]; intros H; cbn [app readline]; [reflexivity|].
  destruct (eqb_case c LF) as [[-> _]|[_ ->]]; [exfalso; apply H; left; reflexivity|].
  rewrite IH; [reflexivity|]. intros Hi; apply H; right; assumption.
Qed.
Lemma strip_eol_crlf x : strip_eol (x ++ [CR; LF]) = Some x.
Proof. unfold strip_eol; rewrite rev_app_distr; cbn. rewrite rev_involutive; reflexivity. Qed.

Lemma read_phys x s : ~ In LF x -> readline (x ++ CR :: LF :: s) = (x ++ [CR; LF], s).
Proof.
  intros H; change (x ++ CR :: LF :: s) with (x ++ [CR] ++ LF :: s); rewrite app_assoc, readline_app.
  - rewrite <- app_assoc; reflexivity.
  - rewrite in_app_iff; intros [Hi|[Hi|[]]]; [contradiction|discriminate].
Qed.

(** the text that follows: end of file or a line that is not a continuation *)
Definition next_ok (l1 : option bytes) (ins : bytes) (rest : bytes) : Prop :=
  match l1 with
  | None => rest = [] /\ ins = []
  | Some l => exists x, readline rest = (x, ins) /\ strip_eol x = Some l /\ match l with c :: _ => is_space c = false | [] => True end
  end.

Lemma fold_read_end fuel l0 rest l1 ins : (0 < fuel)%nat -> next_ok l1 ins rest -> fold_read fuel l0 rest = Some (l0, l1, ins).
Proof.
  intros Hf Hn; destruct fuel as [|fuel]; [lia|]; cbn [fold_read]. destruct l1 as [l|]; cbn [next_ok] in Hn.
  - destruct Hn as (x & -> & -> & Hl). destruct l as [|c r]; [reflexivity|]. rewrite Hl; reflexivity.
  - destruct Hn as [-> ->]; reflexivity.
Qed.

Lemma fold_read_phys ls : forall fuel l0 rest l1 ins, (List.length ls < fuel)%nat -> ls <> [] ->
  ~ In LF (List.concat ls) -> next_ok l1 ins rest ->
  fold_read fuel l0 (SPC :: physical ls ++ rest) = Some (l0 ++ List.concat ls, l1, ins).
Proof.
  induction ls as [|x [|y r] IH]; intros fuel l0 rest l1 ins Hf Hne Hn Hx; [congruence| |]; (destruct fuel as [|fuel]; [lia|]); cbn [fold_read].
  - cbn [physical List.concat] in *; rewrite app_nil_r in *. rewrite <- app_assoc; cbn [app].
    change (SPC :: x ++ CR :: LF :: rest) with ((SPC :: x) ++ CR :: LF :: rest).
    rewrite read_phys, strip_eol_crlf by (intros [H|H]; [discriminate|contradiction]).
    change (is_space SPC) with true; cbv iota. apply fold_read_end; [cbn [List.length] in Hf; lia|assumption].
  - change (physical (x :: y :: r)) with (x ++ CR :: LF :: SPC :: physical (y :: r)).
    change (List.concat (x :: y :: r)) with (x ++ List.concat (y :: r)) in *. rewrite in_app_iff in Hn.
    rewrite <- app_assoc; cbn [app].
    change (SPC :: x ++ CR :: LF :: SPC :: physical (y :: r) ++ rest) with ((SPC :: x) ++ CR :: LF :: SPC :: physical (y :: r) ++ rest).
    rewrite read_phys, strip_eol_crlf by (intros [H|H]; [discriminate|tauto]).
    change (is_space SPC) with true; cbv iota.
    rewrite (IH fuel (l0 ++ x) rest l1 ins); [rewrite app_assoc; reflexivity|cbn [List.length] in *; lia|congruence|tauto|assumption].
Qed.

Definition loose (ls : list bytes) : Prop :=
  match ls with x :: _ => match x with c :: _ => is_space c = false | [] => False end | [] => False end /\ ~ In LF (List.concat ls).

Lemma physical_len ls : (List.length ls <= List.length (physical ls))%nat.
Proof.
  induction ls as [|x [|y r] IH]; [cbn; lia|cbn [physical List.length]; rewrite app_length; cbn [List.length]; lia|].
  change (physical (x :: y :: r)) with (x ++ CR :: LF :: SPC :: physical (y :: r)).
  rewrite app_length; cbn [List.length] in *; lia.
Qed.

Definition first_line (ls : list bytes) : bytes := match ls with x :: _ => x | [] => [] end.
Definition later_lines (ls : list bytes) (rest : bytes) : bytes :=
  match ls with _ :: (y :: r) => SPC :: physical (y :: r) ++ rest | _ => rest end.

Lemma phys_readline ls rest : ls <> [] -> ~ In LF (List.concat ls) ->
  readline (physical ls ++ rest) = (first_line ls ++ [CR; LF], later_lines ls rest).
Proof.
  intros Hne Hn; destruct ls as [|x [|y r]]; [congruence| |].
  - cbn [physical List.concat first_line later_lines] in *; rewrite app_nil_r in Hn. rewrite <- app_assoc; cbn [app]. apply read_phys; assumption.
  - change (physical (x :: y :: r)) with (x ++ CR :: LF :: SPC :: physical (y :: r)).
    change (List.concat (x :: y :: r)) with (x ++ List.concat (y :: r)) in *. rewrite in_app_iff in Hn.
    rewrite <- app_assoc; cbn [app first_line later_lines]. apply read_phys; tauto.
Qed.

Lemma fold_read_later ls rest l1 ins : ls <> [] -> ~ In LF (List.concat ls) -> next_ok l1 ins rest ->
  fold_read (S (List.length (later_lines ls rest))) (first_line ls) (later_lines ls rest) = Some (List.concat ls, l1, ins).
Proof.
  intros Hne Hn Hx; destruct ls as [|x [|y r]]; [congruence| |].
  - cbn [first_line later_lines List.concat]; rewrite app_nil_r; apply fold_read_end; [lia|assumption].
  - cbn [first_line later_lines]. change (List.concat (x :: y :: r)) with (x ++ List.concat (y :: r)) in *. rewrite in_app_iff in Hn.
    apply fold_read_phys; [|congruence|tauto|assumption].
    pose proof (physical_len (y :: r)). cbn [List.length] in *; rewrite app_length; unfold bytes in *; lia.
Qed.

Lemma next_ok_phys lss : Forall loose lss ->
  exists l1 ins, next_ok l1 ins (flat_map physical lss) /\
    (match lss with
     | [] => l1 = None /\ ins = []
     | ls :: r => l1 = Some (first_line ls) /\ ins = later_lines ls (flat_map physical r)
     end).
Proof.
  destruct lss as [|ls r]; intros H; [exists None, []; cbn; auto|].
  inversion H as [|a b [Hl Hn] Hr]; subst. exists (Some (first_line ls)), (later_lines ls (flat_map physical r)); split; [|auto].
  destruct ls as [|x t]; [destruct Hl|]. cbn [flat_map].
  exists (x ++ [CR; LF]); split; [apply (phys_readline (x :: t)); [congruence|assumption]|].
  split; [apply strip_eol_crlf|]. cbn [first_line]; destruct x; [exact I|assumption].
Qed.

Lemma read_lines_la ls lss : forall fuel, loose ls -> Forall loose lss -> (List.length lss < fuel)%nat ->
  read_lines fuel (Some (first_line ls)) (later_lines ls (flat_map physical lss)) = map (@List.concat ascii) (ls :: lss).
Proof.
  revert ls; induction lss as [|m lss IH]; intros ls fuel Hl Hls Hf; (destruct fuel as [|fuel]; [lia|]); cbn [read_lines readFoldedLine].
  - destruct (next_ok_phys [] Hls) as (l1 & ins & Hx & -> & ->). destruct Hl as [H1 H2].
    rewrite (fold_read_later ls _ _ _ ltac:(destruct ls; [destruct H1|congruence]) H2 Hx).
    destruct fuel; reflexivity.
  - destruct (next_ok_phys (m :: lss) Hls) as (l1 & ins & Hx & -> & ->). destruct Hl as [H1 H2].
    rewrite (fold_read_later ls _ _ _ ltac:(destruct ls; [destruct H1|congruence]) H2 Hx).
    inversion Hls; subst. rewrite IH; [reflexivity|assumption|assumption|cbn [List.length] in Hf; lia].
Qed.

Lemma read_lines_phys lss fuel : Forall loose lss -> (List.length lss < fuel)%nat ->
  read_lines fuel None (flat_map physical lss) = map (@List.concat ascii) lss.
Proof.
  intros Hl Hf; destruct lss as [|ls lss]; [destruct fuel; reflexivity|].
  inversion Hl as [|a b Hls Hr]; subst. destruct fuel as [|fuel]; [lia|].
  rewrite <- (read_lines_la ls lss (S fuel)) by (auto; cbn [List.length] in Hf; lia).
  cbn [read_lines readFoldedLine flat_map].
  destruct Hls as [H1 H2]. rewrite (phys_readline ls) by (try assumption; intros ->; destruct H1).
  rewrite strip_eol_crlf; reflexivity.
Qed.

Lemma starts_lead l : starts_char l -> lead l 0.
Proof. destruct l as [|c r]; [intros []|intros H; exists c; auto]. Qed.

Lemma folded_loose temp ls : folded 74 temp ls -> loose_line temp -> loose ls.
Proof.
  intros H (H1 & _ & H2); split; [|rewrite (folded_concat _ _ _ H); assumption].
  inversion H as [w r Hl Hn|w a c b l Ha Hl Hc Hf]; subst; [exact H1|].
  destruct a; [congruence|exact H1].
Qed.

Lemma file_round_trip lines texts : Forall loose_line lines ->
  Forall2 (fun l t => exists fuel, fold_line fuel l = Some (Ok t)) lines texts ->
  Forall starts_char lines ->
  forall fuel, (List.length lines < fuel)%nat -> read_lines fuel None (List.concat texts) = lines.
Proof.
  intros Hl Ht Hf fuel Hfu.
  assert (H : exists lss, Forall loose lss /\ flat_map physical lss = List.concat texts /\ map (@List.concat ascii) lss = lines).
  { clear fuel Hfu; induction Ht as [|l t lines texts (fu & Ht) _ IH]; [exists []; repeat split; constructor|].
    inversion Hl; subst; inversion Hf; subst. destruct IH as (lss & L1 & L2 & L3); [assumption|assumption|].
    apply starts_lead in H3.
    assert (G2 : ~ has_run 73 (skipn 2 l)) by (intros Hr; rewrite (fold_line_diverges l H3 Hr) in Ht; discriminate).
    destruct (fold_line_ends l H3 G2) as (ls & Hls & Hfo).
    pose proof (fold_line_unique _ _ _ _ _ Ht Hls) as He. injection He as ->.
    exists (ls :: lss); split; [constructor; [eapply folded_loose; eassumption|assumption]|].
    split; [cbn [flat_map List.concat]; rewrite L2; reflexivity|cbn [map]; rewrite L3, (folded_concat _ _ _ Hfo); reflexivity]. }
  destruct H as (lss & L1 & L2 & <-). rewrite <- L2. apply read_lines_phys; [assumption|rewrite map_length in Hfu; assumption].
Qed.

Lemma terminates_iff temp : starts_char temp ->
  (has_run 73 (skipn 2 temp) <-> forall fuel, fold_line fuel temp = None) /\
  (~ has_run 73 (skipn 2 temp) -> exists out, fold_line (S (List.length temp)) temp = Some (Ok out)).
Proof.
  intros Hs; apply starts_lead in Hs.
  assert (H2 : ~ has_run 73 (skipn 2 temp) -> exists out, fold_line (S (List.length temp)) temp = Some (Ok out)).
  { intros Hr; destruct (fold_line_ends temp Hs Hr) as (ls & -> & _); eexists; reflexivity. }
  split; [split|exact H2].
  - intros Hr; apply fold_line_diverges; assumption.
  - intros Hd.
    assert (Hdec : has_run 73 (skipn 2 temp) \/ ~ has_run 73 (skipn 2 temp)).
    { generalize (skipn 2 temp) as s; clear; intros s.
      assert (D : forall n, (exists k, (k < n)%nat /\ forall i, (k <= i < k + 73)%nat -> cont s i) \/
                            ~ (exists k, (k < n)%nat /\ forall i, (k <= i < k + 73)%nat -> cont s i)).
      { induction n as [|n [(k & Hk & Hc)|IH]]; [right; intros (k & Hk & _); lia|left; exists k; split; [lia|assumption]|].
        destruct (all_or (SPC :: s) n 73) as [Ha|(i & Hi & Hn)].
        - left; exists n; split; [lia|]. intros i Hi. destruct (Ha (S i)) as (c & Hc & Hcc); [lia|]. exists c; auto.
        - right; intros (k & Hk & Hc). destruct (Nat.eq_dec k n) as [->|].
          + apply Hn. destruct (Hc (i - 1)%nat) as (c & E1 & Hcc); [lia|]. exists c; split; [|assumption].
            destruct i as [|i]; [lia|]. cbn. replace (S i - 1)%nat with i in E1 by lia. assumption.
          + apply IH; exists k; split; [lia|assumption]. }
      destruct (D (S (List.length s))) as [(k & _ & Hc)|Hn]; [left; apply run_positions; eauto|].
      right; rewrite run_positions; intros (k & Hk); apply Hn; exists k; split; [|assumption].
      destruct (Hk k) as (c & Hc & _); [lia|]. assert (nth_error s k <> None) as Hx by congruence. apply nth_error_Some in Hx; lia. }
    destruct Hdec as [Hr|Hr]; [assumption|]. destruct (H2 Hr) as (out & Ho). rewrite Hd in Ho; discriminate.
Qed.

Lemma no_loss temp fuel out : starts_char temp -> fold_line fuel temp = Some (Ok out) ->
  exists ls, out = physical ls /\ List.concat ls = temp /\ ls <> [] /\ short_lines ls /\ Forall starts_char ls.
Proof.
  intros Hs Ho; pose proof (starts_lead _ Hs) as Hl.
  assert (Hr : ~ has_run 73 (skipn 2 temp)) by (intros Hr; rewrite fold_line_diverges in Ho by assumption; discriminate).
  destruct (fold_line_ends temp Hl Hr) as (ls & Hf & Hfo).
  pose proof (fold_line_unique _ _ _ _ _ Ho Hf) as He; injection He as ->.
  exists ls; split; [reflexivity|]. split; [eapply folded_concat; eassumption|]. split; [eapply folded_ne; eassumption|].
  split; [eapply folded_short_lines; eassumption|].
  clear -Hfo Hs; induction Hfo as [w r Hl Hn|w a c b ls Ha Hl Hc Hf IH]; [constructor; [assumption|constructor]|].
  constructor; [destruct a; [congruence|exact Hs]|]. apply IH; exact Hc.
Qed.
