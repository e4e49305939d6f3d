(** Proofs about tz source files. *)
From Coq Require Import Lia.
From Verif Require Import PyBase PyProofs ZonalModel ZonalSpec RecurTextProofs ZonalProofs3 TzFileModel TzFileSpec.

(** ** Lines *)
Definition nl (s : bytes) : bytes := s ++ [LF].
Lemma chop_nl s : chop (nl s) = s. Proof. apply removelast_last. Qed.
Lemma file_lines_nl s t : one_line s -> file_lines (nl s ++ t) = nl s :: file_lines t.
Proof.
  unfold nl. induction s as [|c s IH]; intro N; [reflexivity|]. cbn [app file_lines].
  destruct (Ascii.eqb c LF) eqn:E; [apply Ascii.eqb_eq in E; destruct N; left; auto|].
  rewrite IH by (intro I; apply N; right; exact I). reflexivity.
Qed.
Lemma file_lines_text l : Forall one_line l -> file_lines (text l) = map nl l.
Proof. induction 1 as [|s l N _ IH]; [reflexivity|]. unfold text. cbn [map List.concat]. change (s ++ [LF]) with (nl s). rewrite file_lines_nl by exact N. f_equal. exact IH. Qed.
(** Any file that ends with a line feed is such a text. *)
Lemma file_lines_join s : file_lines s = [] \/ exists l last, file_lines s = map nl l ++ last /\ Forall one_line l /\ s = text l ++ List.concat last /\
  (last = [] \/ exists t, last = [t] /\ t <> [] /\ one_line t).
Proof.
  induction s as [|c s IH]; [left; reflexivity|]. right. cbn [file_lines]. destruct (Ascii.eqb c LF) eqn:E.
  - apply Ascii.eqb_eq in E. subst c. destruct IH as [E|(l & last & E & F & S & L)].
    + exists [[]], []. rewrite E. repeat split; [repeat constructor; intros []| |left; reflexivity].
      destruct s as [|d s]; [reflexivity|]. cbn [file_lines] in E. destruct (Ascii.eqb d LF); [discriminate|]. destruct (file_lines s); discriminate.
    + exists ([] :: l), last. rewrite E. repeat split; [constructor; [intros []|exact F]| |exact L].
      unfold text in *. cbn [map List.concat app]. f_equal. exact S.
  - apply Ascii.eqb_neq in E. destruct IH as [E'|(l & last & E' & F & S & L)].
    + exists [], [[c]]. rewrite E'. repeat split; [constructor| |right; exists [c]; split; [reflexivity|split; [discriminate|intros [H|[]]; auto]]].
      destruct s as [|d s]; [reflexivity|]. cbn [file_lines] in E'. destruct (Ascii.eqb d LF); [discriminate|]. destruct (file_lines s); discriminate.
    + rewrite E'. destruct l as [|a l]; cbn [map app].
      * destruct L as [->|(t & -> & T1 & T2)]; cbn [app].
        -- exists [], [[c]]. cbn in S. subst s. repeat split; [constructor|right; exists [c]; split; [reflexivity|split; [discriminate|intros [H|[]]; auto]]].
        -- exists [], [c :: t]. cbn in S. rewrite app_nil_r in S. subst s. repeat split; [constructor|cbn; rewrite app_nil_r; reflexivity|].
           right. exists (c :: t). split; [reflexivity|]. split; [discriminate|]. intros [H|H]; auto.
      * exists ((c :: a) :: l), last. inversion F as [|? ? A1 A2]; subst. repeat split; [constructor; [intros [H|H]; auto|assumption]|exact L].
Qed.

(** ** The loops *)
Definition run (d : tzdata) (ls : list bytes) : res tzdata := match ls with [] => Ok d | s :: r => tz_line (map nl r) d s end.
Fixpoint tail_of (ls : list bytes) : list bytes * list bytes :=
  match ls with
  | [] => ([], [])
  | s :: r => if continued s then let '(cs, t) := tail_of r in (s :: cs, t)
              else if skipped s then tail_of r else ([], s :: r)
  end.
Lemma run_next d r : match map nl r with [] => Ok d | l :: f' => tz_line f' d (chop l) end = run d r.
Proof. destruct r as [|s r]; [reflexivity|]. cbn [map run]. rewrite chop_nl. reflexivity. Qed.
Definition zone_loop (d : tzdata) : bytes -> list bytes -> res tzdata :=
  fix zone_loop (os : bytes) (f : list bytes) {struct f} : res tzdata :=
    match f with
    | [] => addZone d os
    | l :: f' =>
      let nextline := chop l in
      if continued nextline then zone_loop (os ++ LF :: nextline) f'
      else if skipped nextline then zone_loop os f'
      else do d <- addZone d os; tz_line f' d nextline
    end.
Lemma tz_line_eq f d line : tz_line f d line =
  let next d := match f with [] => Ok d | l :: f' => tz_line f' d (chop l) end in
  if skipped line then next d
  else if startswith line (lit "Rule") then do d <- parseRule d line; next d
  else if startswith line (lit "Zone") then zone_loop d line f
  else if startswith line (lit "Link") then do d <- parseLink d line; next d
  else if nonempty (lstrip line) then Raise AssertionError
  else next d.
Proof. destruct f; reflexivity. Qed.
Lemma loop_tail d r : forall os, zone_loop d os (map nl r) = do d <- addZone d (os ++ List.concat (map (cons LF) (fst (tail_of r)))); run d (snd (tail_of r)).
Proof.
  induction r as [|l r IH]; intro os.
  - cbn. rewrite app_nil_r. destruct (addZone d os); reflexivity.
  - cbn [map]. unfold zone_loop; fold (zone_loop d). cbv zeta. rewrite chop_nl. cbn [tail_of]. destruct (continued l) eqn:C.
    + rewrite IH. destruct (tail_of r) as [cs t]. cbn [fst snd map List.concat]. rewrite <- app_assoc. reflexivity.
    + destruct (skipped l) eqn:K; [apply IH|]. cbn [fst snd map List.concat]. rewrite app_nil_r. reflexivity.
Qed.
Lemma run_cons d s r : run d (s :: r) =
  if skipped s then run d r
  else if startswith s (lit "Rule") then do d <- parseRule d s; run d r
  else if startswith s (lit "Zone") then do d <- addZone d (s ++ List.concat (map (cons LF) (fst (tail_of r)))); run d (snd (tail_of r))
  else if startswith s (lit "Link") then do d <- parseLink d s; run d r
  else if nonempty (lstrip s) then Raise AssertionError
  else run d r.
Proof.
  unfold run at 1. rewrite tz_line_eq. cbv zeta. rewrite loop_tail, run_next.
  destruct (parseRule d s) as [d1|e]; cbn [rbind]; [rewrite run_next|]; (destruct (parseLink d s) as [d2|e2]; cbn [rbind]; [rewrite run_next|]); reflexivity.
Qed.
Lemma parse_run d l : Forall one_line l -> tz_parse d (text l) = run d l.
Proof. intro F. unfold tz_parse. rewrite (file_lines_text l F). apply run_next. Qed.

(** ** What lines say *)
Lemma starts_begins s k : startswith s k = true <-> begins k s.
Proof.
  split.
  - revert s. induction k as [|c k IH]; intros s H; [exists s; reflexivity|]. destruct s as [|d s]; [discriminate|]. cbn in H. apply andb_true_iff in H as [E H].
    apply Ascii.eqb_eq in E. subst d. destruct (IH s H) as [t ->]. exists t. reflexivity.
  - intros [t ->]. induction k as [|c k IH]; [destruct t; reflexivity|]. cbn. rewrite Ascii.eqb_refl. exact IH.
Qed.
Lemma skipped_remark s : skipped s = true <-> remark s.
Proof.
  unfold skipped, remark. rewrite orb_true_iff, starts_begins, negb_true_iff. split.
  - intros [[t E]|E]; [right; exists t; exact E|left; destruct s; [reflexivity|discriminate]].
  - intros [->|[r ->]]; [right; reflexivity|left; exists r; reflexivity].
Qed.
Lemma continued_indented s : continued s = true <-> indented s.
Proof.
  unfold continued, indented, blank. rewrite orb_true_iff, !starts_begins. split.
  - intros [[t E]|[t E]]; [exists TAB|exists SPC]; exists t; auto.
  - intros (c & r & -> & [-> | ->]); [right|left]; exists r; reflexivity.
Qed.
Lemma empty_lstrip s : empty_line s -> lstrip s = [].
Proof. induction 1 as [|c s H _ IH]; [reflexivity|]. cbn. rewrite H. exact IH. Qed.
Lemma lstrip_empty s : lstrip s = [] -> empty_line s.
Proof. induction s as [|c s IH]; intro H; [constructor|]. cbn in H. destruct (is_space c) eqn:E; [constructor; [exact E|apply IH; exact H]|discriminate]. Qed.
Lemma empty_not s k c r : k = c :: r -> is_space c = false -> empty_line s -> startswith s k = false.
Proof.
  intros -> N E. destruct s as [|d s]; [reflexivity|]. cbn. destruct (Ascii.eqb c d) eqn:Q; [|reflexivity]. apply Ascii.eqb_eq in Q. subst d.
  inversion E; congruence.
Qed.
Lemma not_starts (b : bool) (P : Prop) : (b = true <-> P) -> ~ P -> b = false.
Proof. intros H N. destruct b; [destruct N; apply H; reflexivity|reflexivity]. Qed.

(** ** The dictionaries *)
Lemma known_store {A} k (v : A) d n : known n (store k v d) = if beq n k then Some v else known n d.
Proof.
  induction d as [|[k' v'] d IH]; cbn [store known]; [reflexivity|]. destruct (beq k k') eqn:E; cbn [known].
  - apply beq_eq in E. subst k'. destruct (beq n k); reflexivity.
  - destruct (beq n k') eqn:E'; [|exact IH]. apply beq_eq in E'. subst k'. destruct (beq n k) eqn:Q; [|reflexivity]. apply beq_eq in Q. subst. rewrite beq_refl in E. discriminate.
Qed.
Lemma known_append {A} k (v : A) d n : known n (append_to k v d) =
  if beq n k then Some (match known n d with Some l => l ++ [v] | None => [v] end) else known n d.
Proof.
  induction d as [|[k' v'] d IH]; cbn [append_to known]; [destruct (beq n k); reflexivity|]. destruct (beq k k') eqn:E; cbn [known].
  - apply beq_eq in E. subst k'. destruct (beq n k); reflexivity.
  - destruct (beq n k') eqn:E'; [|exact IH]. apply beq_eq in E'. subst k'. destruct (beq n k) eqn:Q; [|reflexivity]. apply beq_eq in Q. subst. rewrite beq_refl in E. discriminate.
Qed.
Lemma last_cons {A} (o : option A) x l : last_of (Some x) l = last_of o (x :: l).
Proof. unfold last_of. cbn [rev]. destruct (rev l); reflexivity. Qed.
Definition add_fact (d : tzdata) (f : fact) : tzdata :=
  match f with
  | FRule r => mkTzdata (append_to (rlName r) r (tzRules d)) (tzZones d) (tzLinks d)
  | FZone z => mkTzdata (tzRules d) (store (znName z) z (tzZones d)) (tzLinks d)
  | FLink to from => mkTzdata (tzRules d) (tzZones d) (store to from (tzLinks d))
  end.
Lemma facts_learnt fs : forall d, learnt d fs (fold_left add_fact fs d).
Proof.
  induction fs as [|f fs IH]; intros d n; [cbn; split; [destruct (known n (tzRules d)); cbn; rewrite ?app_nil_r; reflexivity|split; reflexivity]|].
  cbn [fold_left]. destruct (IH (add_fact d f) n) as (R & Z & L). rewrite R, Z, L. clear R Z L IH. unfold rules_said, zones_said, links_said.
  destruct f as [r|z|to from]; cbn [add_fact tzRules tzZones tzLinks flat_map app].
  - rewrite known_append. split; [|split; reflexivity]. destruct (beq n (rlName r)); cbn [app]; [|reflexivity].
    unfold more_rules. destruct (known n (tzRules d)) as [l|]; [rewrite <- app_assoc; reflexivity|reflexivity].
  - rewrite known_store. split; [reflexivity|]. split; [|reflexivity]. destruct (beq n (znName z)); cbn [app]; [apply last_cons|reflexivity].
  - rewrite known_store. split; [reflexivity|]. split; [reflexivity|]. destruct (beq n to); cbn [app]; [apply last_cons|reflexivity].
Qed.

(** ** Zones *)
Lemma zone_rest_lines zs mid : zone_rest zs mid -> zone_lines (filter continued mid) = Ok zs /\ (forall l, tail_of (mid ++ l) = (filter continued mid ++ fst (tail_of l), snd (tail_of l))).
Proof.
  induction 1 as [|s zs l R _ [Z T]|z s zs l (I & G & until & L & U) _ [Z T]].
  - split; [reflexivity|]. intro l. cbn. destruct (tail_of l); reflexivity.
  - cbn [filter app tail_of]. destruct (continued s) eqn:C.
    + destruct R as [R|(I & a & b & more & L)].
      { apply continued_indented in C. destruct C as (c & r & -> & B). destruct R as [R|(r' & R)]; [discriminate|]. injection R as -> _. destruct B; discriminate. }
      split.
      * cbn [zone_lines]. destruct s as [|c s]; [discriminate|]. cbn [nonempty]. unfold zonerule_parse. rewrite (laid_out_fields _ _ L).
        change (skipn (2 - 2) (lit "#" :: a :: b :: more)) with (lit "#" :: a :: b :: more). cbn [rbind]. rewrite Z. cbn [rbind zGmtoff]. rewrite beq_refl. reflexivity.
      * intro l'. rewrite T. reflexivity.
    + assert (K : skipped s = true).
      { destruct R as [R|(I & _)]; [apply skipped_remark; exact R|]. apply continued_indented in I. congruence. }
      rewrite K. split; [exact Z|exact T].
  - cbn [filter app tail_of]. assert (C : continued s = true) by (apply continued_indented; exact I). rewrite C. split.
    + cbn [zone_lines]. destruct s as [|c s]; [discriminate|]. cbn [nonempty]. rewrite (zone_line_parse z until _ L U). cbn [rbind]. rewrite Z. cbn [rbind].
      destruct (beq (zGmtoff z) (lit "#")) eqn:B; [apply beq_eq in B; contradiction|reflexivity].
    + intro l'. rewrite T. reflexivity.
Qed.
Lemma no_more_run l : no_more l -> forall d, fst (tail_of l) = [] /\ run d (snd (tail_of l)) = run d l.
Proof.
  induction 1 as [|s l R _ IH|s l N M]; intro d; [split; reflexivity| |].
  - cbn [tail_of]. assert (C : continued s = false).
    { apply (not_starts _ _ (continued_indented s)). intros (c & r & -> & B). destruct R as [R|(r' & R)]; [discriminate|]. injection R as -> _. destruct B; discriminate. }
    rewrite C. assert (K : skipped s = true) by (apply skipped_remark; exact R). rewrite K. destruct (IH d) as [A B]. split; [exact A|].
    rewrite run_cons, K. exact B.
  - cbn [tail_of]. rewrite (not_starts _ _ (continued_indented s) N), (not_starts _ _ (skipped_remark s) M). split; reflexivity.
Qed.
Lemma joined s cs : s ++ List.concat (map (cons LF) cs) = join_char LF (s :: cs).
Proof.
  revert s. induction cs as [|c cs IH]; intro s; [apply app_nil_r|]. change (join_char LF (s :: c :: cs)) with (s ++ LF :: join_char LF (c :: cs)).
  rewrite <- IH. reflexivity.
Qed.
Lemma zone_said n z s zs cs : zone_line n z s -> one_line s -> Forall one_line cs -> zone_lines cs = Ok zs ->
  zone_parse (s ++ List.concat (map (cons LF) cs)) = Ok (mkZone n (z :: zs)).
Proof.
  intros (B & until & L & U) N F Z. rewrite joined. unfold zone_parse. rewrite split_join.
  - rewrite (laid_out_fields _ _ L). unfold zonerule_parse. rewrite (laid_out_fields _ _ L).
    change (skipn (2 - 0) (lit "Zone" :: n :: zonerule_fields z ++ until)) with (zonerule_fields z ++ until).
    destruct z as [g r f u]. cbn [zonerule_fields app zGmtoff zRule zFormat zUntil] in *. subst u. cbn [rbind]. rewrite Z. destruct until; reflexivity.
  - discriminate.
  - constructor; [apply not_in_cin; exact N|]. eapply Forall_impl; [|exact F]. intros a H. apply not_in_cin; exact H.
Qed.

(** ** Links: split() and the columns *)
Lemma blank_space c : blank c -> is_space c = true.
Proof. intros [-> | ->]; reflexivity. Qed.
Lemma not_space_field c s : is_space c = false -> (s = [] \/ field s) -> field (c :: s).
Proof.
  intros N H. assert (K : forall x, is_space x = true -> ~ In x s -> ~ In x (c :: s)) by (intros x X NI [E|I]; [congruence|auto]).
  destruct H as [->|(_ & A & B & C)]; (split; [discriminate|]); repeat split; apply K; auto.
Qed.
Lemma words_laid n : forall s, (List.length s <= n)%nat -> Forall (fun c => is_space c = true -> blank c) s -> laid_out (words s) s.
Proof.
  induction n as [|n IH]; intros s Le F; [destruct s; [apply lo_end; constructor|cbn in Le; lia]|].
  destruct s as [|c s]; [apply lo_end; constructor|]. inversion F as [|? ? H F']; subst. cbn [List.length] in Le. cbn [words].
  destruct (is_space c) eqn:E; [apply lo_blank; [auto|apply IH; [lia|exact F']]|].
  destruct s as [|d s]; [apply lo_last; apply not_space_field; auto|]. cbn [List.length] in Le. inversion F' as [|? ? H' F2]; subst. destruct (is_space d) eqn:E'.
  - cbn [words]. rewrite E'. apply (lo_field [c] d s (words s)); [apply not_space_field; auto|auto|apply IH; [lia|exact F2]].
  - assert (L : laid_out (words (d :: s)) (d :: s)) by (apply IH; [cbn [List.length]; lia|exact F']).
    remember (words (d :: s)) as ws eqn:Q0. clear Q0. remember (d :: s) as u eqn:Q3. destruct L as [w W|f Ff|f c' r' l Ff Bc Lr|c' r' l Bc Lr].
    + subst w. inversion W as [|? ? B _]; subst. apply blank_space in B. congruence.
    + apply lo_last. apply not_space_field; [exact E|right; exact Ff].
    + apply (lo_field (c :: f) c' r' l); [apply not_space_field; [exact E|right; exact Ff]|exact Bc|exact Lr].
    + injection Q3 as -> _. apply blank_space in Bc. congruence.
Qed.
Lemma words_split s : Forall (fun c => is_space c = true -> blank c) s -> words s = fields s.
Proof. intro F. symmetry. apply laid_out_fields. apply (words_laid (List.length s)); auto. Qed.
Lemma link_said d to from s : link_line to from s -> parseLink d s = Ok (add_fact d (FLink to from)).
Proof. intros (_ & B & more & L). unfold parseLink. rewrite (words_split s B), (laid_out_fields _ _ L). reflexivity. Qed.

(** ** All of it *)
Lemma begins_other k s : begins k s -> forall k' , List.length k' = List.length k -> k' <> k -> startswith s k' = false.
Proof.
  intros [t ->] k' E N. apply (not_starts _ _ (starts_begins _ _)). intros [t' H]. apply N. clear N. revert k' E H. induction k as [|c k IH]; intros [|c' k'] E H; try discriminate; [reflexivity|].
  cbn in H. injection H as -> H. f_equal. apply IH; [injection E; auto|exact H].
Qed.
Lemma begins_skip c k s : begins (c :: k) s -> c <> "#"%char -> skipped s = false.
Proof. intros [t ->] N. apply (not_starts _ _ (skipped_remark _)). intros [H|[r H]]; [discriminate|]. injection H as H _. auto. Qed.
Lemma says_run l fs : says l fs -> Forall one_line l -> forall d, run d l = Ok (fold_left add_fact fs d).
Proof.
  induction 1 as [|s l fs R _ IH|r s l fs (B & more & L) _ IH|n z s zs mid l fs Z R M _ IH|to from s l fs K _ IH]; intros F d.
  - reflexivity.
  - inversion F; subst. rewrite run_cons, IH by assumption. destruct (skipped s) eqn:E; [reflexivity|].
    destruct R as [R|R]; [apply skipped_remark in R; congruence|].
    rewrite (empty_not s (lit "Rule") _ _ eq_refl eq_refl R), (empty_not s (lit "Zone") _ _ eq_refl eq_refl R), (empty_not s (lit "Link") _ _ eq_refl eq_refl R), (empty_lstrip s R). reflexivity.
  - inversion F; subst. rewrite run_cons, (begins_skip _ _ _ B) by discriminate. rewrite (proj2 (starts_begins _ _) B). unfold parseRule.
    rewrite (rule_line_parse r s more L). cbn [rbind]. rewrite IH by assumption. reflexivity.
  - inversion F as [|? ? N F']; subst. apply Forall_app in F' as [F1 F2]. destruct (zone_rest_lines zs mid R) as [ZL T].
    rewrite run_cons. pose proof (proj1 Z) as B. rewrite (begins_skip _ _ _ B) by discriminate. rewrite (begins_other _ _ B (lit "Rule")) by (reflexivity || discriminate).
    rewrite (proj2 (starts_begins _ _) B), T. cbn [fst snd]. destruct (no_more_run l M d) as [E _]. rewrite E, app_nil_r. unfold addZone.
    rewrite (zone_said n z s zs (filter continued mid) Z N); [|apply Forall_forall; intros x X; apply filter_In in X as [X _]; rewrite Forall_forall in F1; auto|exact ZL].
    cbn [rbind znName]. destruct (no_more_run l M (add_fact d (FZone (mkZone n (z :: zs))))) as [_ E2]. cbn [add_fact znName] in E2. rewrite E2. rewrite IH by assumption. reflexivity.
  - inversion F; subst. pose proof (proj1 K) as B. rewrite run_cons, (begins_skip _ _ _ B) by discriminate.
    rewrite (begins_other _ _ B (lit "Rule")), (begins_other _ _ B (lit "Zone")), (proj2 (starts_begins _ _) B) by (reflexivity || discriminate).
    rewrite (link_said d to from s K). cbn [rbind]. rewrite IH by assumption. reflexivity.
Qed.

(** ** Files one after the other *)
Lemma tail_app b a : tail_of (a ++ b) = match snd (tail_of a) with [] => (fst (tail_of a) ++ fst (tail_of b), snd (tail_of b)) | t => (fst (tail_of a), t ++ b) end.
Proof.
  induction a as [|s a IH]; cbn [app tail_of]; [cbn; destruct (tail_of b); reflexivity|].
  destruct (continued s); [rewrite IH; destruct (tail_of a) as [cs [|x t]]; reflexivity|]. destruct (skipped s); [exact IH|]. reflexivity.
Qed.
Lemma tail_short a : (List.length (snd (tail_of a)) <= List.length a)%nat.
Proof.
  induction a as [|s a IH]; cbn [tail_of]; [auto|]. destruct (continued s); [destruct (tail_of a) as [cs t]; cbn [snd List.length] in *; lia|].
  destruct (skipped s); cbn [snd List.length] in *; lia.
Qed.
Lemma run_app_n b : no_more b -> forall n a d, (List.length a <= n)%nat -> run d (a ++ b) = do d' <- run d a; run d' b.
Proof.
  intro M. induction n as [|n IH]; intros a d Le; (destruct a as [|s a]; [reflexivity|]); cbn [List.length] in Le; [lia|].
  cbn [app]. rewrite !run_cons. assert (IHa : forall d, run d (a ++ b) = do d' <- run d a; run d' b) by (intro; apply IH; lia).
  destruct (skipped s); [apply IHa|].
  destruct (startswith s (lit "Rule")); [destruct (parseRule d s); cbn [rbind]; [apply IHa|reflexivity]|].
  destruct (startswith s (lit "Zone")).
  - rewrite tail_app. destruct (snd (tail_of a)) as [|x t] eqn:E; cbn [fst snd].
    + destruct (no_more_run b M d) as [Eb _]. rewrite Eb, app_nil_r. destruct (addZone d _) as [d1|e]; cbn [rbind run]; [|reflexivity].
      destruct (no_more_run b M d1) as [_ R]. exact R.
    + destruct (addZone d _) as [d1|e]; cbn [rbind]; [|reflexivity]. change (x :: t ++ b) with ((x :: t) ++ b). apply IH. pose proof (tail_short a). rewrite E in H. lia.
  - destruct (startswith s (lit "Link")); [destruct (parseLink d s); cbn [rbind]; [apply IHa|reflexivity]|].
    destruct (nonempty (lstrip s)); [reflexivity|]. apply IHa.
Qed.
Lemma run_app a b d : no_more b -> run d (a ++ b) = do d' <- run d a; run d' b.
Proof. intro M. apply (run_app_n b M (List.length a)). auto. Qed.
Lemma text_app a b : text (a ++ b) = text a ++ text b.
Proof. unfold text. rewrite map_app, concat_app. reflexivity. Qed.
Lemma stray_run d s r : stray s -> run d (s :: r) = Raise AssertionError.
Proof.
  intros (A & B & C & D & E). rewrite run_cons, (not_starts _ _ (skipped_remark s) A), (not_starts _ _ (starts_begins _ _) C), (not_starts _ _ (starts_begins _ _) D),
    (not_starts _ _ (starts_begins _ _) E).
  destruct (lstrip s) eqn:L; [destruct B; apply lstrip_empty; exact L|reflexivity].
Qed.

(** ** What is written *)
Definition fact_lines (f : fact) : list bytes :=
  match f with
  | FRule r => [zrule_generate r]
  | FZone z => match znRules z with
               | [] => []
               | r :: rest => join_char TAB [lit "Zone " ++ znName z; zonerule_generate r] :: map (fun r => join_char TAB [[]; []; []; zonerule_generate r]) rest
               end
  | FLink to from => [join_char TAB [lit "Link"; from; to]]
  end.
Lemma zone_lines_written rest : Forall zonerule_ok rest -> Forall (fun z => zGmtoff z <> lit "#") rest ->
  zone_rest rest (map (fun r => join_char TAB [[]; []; []; zonerule_generate r]) rest) /\ Forall one_line (map (fun r => join_char TAB [[]; []; []; zonerule_generate r]) rest).
Proof.
  intros F G. induction F as [|z l Hz F IH]; [split; constructor|]. inversion G as [|? ? Gz G']; subst. destruct (IH G') as [A B]. cbn [map].
  destruct (until_cases z Hz) as (until & Fu & U). destruct (zonerule_laid z until (proj1 Hz) Fu U) as [Lz Cz].
  change (join_char TAB [[]; []; []; zonerule_generate z]) with (TAB :: TAB :: TAB :: zonerule_generate z). split.
  - apply rest_next; [|exact A]. split; [exists TAB; eexists; split; [reflexivity|right; reflexivity]|]. split; [exact Gz|]. exists until. split; [|exact U].
    repeat (apply lo_blank; [apply blank_TAB|]). exact Lz.
  - constructor; [|exact B]. intros [H|[H|[H|H]]]; try discriminate. exact (cin_not_in _ _ Cz H).
Qed.
Lemma name_field s : s <> [] /\ Forall (fun c => is_space c = false) s -> field s.
Proof.
  intros [N F]. assert (K : forall c, is_space c = true -> ~ In c s) by (intros c C I; rewrite Forall_forall in F; specialize (F c I); congruence).
  split; [exact N|]. repeat split; apply K; reflexivity.
Qed.
Lemma field_line s : field s -> one_line s. Proof. intros (_ & _ & _ & H). exact H. Qed.
Lemma in_join (c d : ascii) l : In c (join_char d l) -> c = d \/ exists s, In s l /\ In c s.
Proof.
  induction l as [|x l IH]; [intros []|]. destruct l as [|y l]; [intro I; right; exists x; split; [left; reflexivity|exact I]|].
  change (join_char d (x :: y :: l)) with (x ++ d :: join_char d (y :: l)). intro I. apply in_app_iff in I as [I|[E|I]]; [right; exists x; split; [left; reflexivity|exact I]|auto|].
  destruct (IH I) as [E|(s & S & C)]; [auto|]. right. exists s. split; [right; exact S|exact C].
Qed.
Lemma fact_said f : fact_ok f -> text (fact_lines f) = written f ++ [LF] /\ Forall one_line (fact_lines f) /\
  (forall l fs, no_more l -> says l fs -> says (fact_lines f ++ l) (f :: fs)) /\ (forall l, no_more (fact_lines f ++ l)).
Proof.
  intro K. assert (NM : forall c k s l, begins (c :: k) s -> ~ blank c -> c <> "#"%char -> no_more (s :: l)).
  { intros c k s l [t ->] B H. apply more_line; [intros (x & r & E & X); injection E as <- _; exact (B X)|]. intros [E|[r E]]; [discriminate|]. injection E as E _. exact (H E). }
  destruct f as [r|[n [|z rest]]|to from]; cbn [fact_ok fact_lines written znName znRules tl] in *.
  - assert (B : begins (lit "Rule") (zrule_generate r)) by (eexists; reflexivity). repeat split.
    + unfold text. cbn. rewrite app_nil_r. reflexivity.
    + constructor; [|constructor]. apply cin_not_in, rule_line_noLF, K.
    + intros l fs _ S. apply says_rule; [|exact S]. split; [exact B|]. exists []. rewrite app_nil_r. unfold zrule_generate.
      apply (join_laid TAB (lit "Rule" :: rule_fields r)); [apply blank_TAB|discriminate|constructor; auto using field_lit_Rule].
    + intro l. eapply NM; [exact B|intros [X|X]; discriminate|discriminate].
  - destruct K as (_ & N & _). congruence.
  - destruct K as (Fn & _ & F & G). inversion F as [|? ? Hz F']; subst. destruct (zone_lines_written rest F' G) as [ZR OL].
    destruct (until_cases z Hz) as (until & Fu & U). destruct (zonerule_laid z until (proj1 Hz) Fu U) as [Lz Cz].
    set (first := join_char TAB [lit "Zone " ++ n; zonerule_generate z]) in *.
    assert (B : begins (lit "Zone") first) by (eexists; reflexivity). repeat split.
    + unfold zone_generate. cbn [znRules znName]. fold first. generalize (map (fun r => join_char TAB [[]; []; []; zonerule_generate r]) rest). generalize first. clear. intros first l. revert first.
      induction l as [|x l IH]; intro first; [unfold text; cbn; rewrite app_nil_r; reflexivity|].
      change (join_char LF (first :: x :: l)) with (first ++ LF :: join_char LF (x :: l)). change (text (first :: x :: l)) with ((first ++ [LF]) ++ text (x :: l)). rewrite IH.
      rewrite <- !app_assoc. reflexivity.
    + constructor; [|exact OL]. unfold first. intro I.
      apply in_join in I as [I|(s & [<-|[<-|[]]] & I)]; [discriminate| |exact (cin_not_in _ _ Cz I)].
      apply in_app_iff in I as [I|I]; [revert I; apply cin_not_in; reflexivity|exact (field_line n Fn I)].
    + intros l fs M S. cbn [app]. apply says_zone; [|exact ZR|exact M|exact S]. split; [exact B|]. exists until. split; [|exact U].
      unfold first. change (join_char TAB [lit "Zone " ++ n; zonerule_generate z]) with ((lit "Zone " ++ n) ++ TAB :: zonerule_generate z).
      change (lit "Zone " ++ n) with (lit "Zone" ++ SPC :: n). rewrite <- app_assoc. apply lo_field; [apply field_lit_Zone|left; reflexivity|].
      cbn [app]. apply lo_field; [exact Fn|apply blank_TAB|exact Lz].
    + intro l. eapply NM; [exact B|intros [X|X]; discriminate|discriminate].
  - destruct K as [T Fr]. pose proof (name_field _ T) as Ft. pose proof (name_field _ Fr) as Ff.
    set (s := join_char TAB [lit "Link"; from; to]) in *. assert (B : begins (lit "Link") s) by (eexists; reflexivity). repeat split.
    + unfold text. cbn. rewrite app_nil_r. reflexivity.
    + constructor; [|constructor]. unfold s. intro I. apply in_join in I as [I|(x & [<-|[<-|[<-|[]]]] & I)]; [discriminate| | |].
      * revert I. apply cin_not_in. reflexivity.
      * exact (field_line _ Ff I).
      * exact (field_line _ Ft I).
    + intros l fs _ S. apply says_link; [|exact S]. split; [exact B|]. split.
      * apply Forall_forall. intros c I C. unfold s in I. apply in_join in I as [I|(x & [<-|[<-|[<-|[]]]] & I)]; [right; exact I| | |].
        -- exfalso. revert I C. vm_compute. intuition (subst; discriminate).
        -- destruct Fr as [_ Fr]. rewrite Forall_forall in Fr. specialize (Fr c I). congruence.
        -- destruct T as [_ T]. rewrite Forall_forall in T. specialize (T c I). congruence.
      * exists []. apply (join_laid TAB [lit "Link"; from; to]); [apply blank_TAB|discriminate|]. constructor; [|constructor; [exact Ff|constructor; [exact Ft|constructor]]].
        split; [discriminate|]. split; [|split]; apply cin_not_in; reflexivity.
    + intro l. eapply NM; [exact B|intros [X|X]; discriminate|discriminate].
Qed.
Lemma facts_said fs : Forall fact_ok fs -> exists l, text l = List.concat (map (fun f => written f ++ [LF]) fs) /\ Forall one_line l /\ says l fs /\ no_more l.
Proof.
  induction 1 as [|f fs K _ (l & T & O & S & M)]; [exists []; repeat split; constructor|].
  destruct (fact_said f K) as (T1 & O1 & S1 & M1). exists (fact_lines f ++ l). split; [rewrite text_app, T1, T; reflexivity|]. split; [apply Forall_app; split; assumption|].
  split; [apply S1; assumption|apply M1].
Qed.
