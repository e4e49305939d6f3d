(** Proofs about the lines of tz source files. *)
From Coq Require Import Lia ZifyBool ZifyNat.
From Verif Require Import ZonalModel ZonalSpec CalModel CalProofs PyProofs DateTimeProofs DateTimeProofs2 RecurTextProofs ZonalProofs.

Lemma xt_cons c s : expandtabs1 (c :: s) = (if Ascii.eqb c TAB then SPC else c) :: expandtabs1 s.
Proof. reflexivity. Qed.
Lemma xt_app a b : expandtabs1 (a ++ b) = expandtabs1 a ++ expandtabs1 b.
Proof. unfold expandtabs1. apply map_app. Qed.
Lemma xt_field f : ~ In TAB f -> expandtabs1 f = f.
Proof.
  induction f as [|c f IH]; [reflexivity|]. intro H. rewrite xt_cons, IH by (intro; apply H; right; assumption).
  destruct (Ascii.eqb_spec c TAB); [exfalso; apply H; left; auto|reflexivity].
Qed.
Lemma not_in_cin c s : ~ In c s -> cin c s = false.
Proof. intro H. apply Bool.not_true_is_false. rewrite cin_In. exact H. Qed.
Lemma blank_xt c s : blank c -> expandtabs1 (c :: s) = SPC :: expandtabs1 s.
Proof. intros [-> | ->]; reflexivity. Qed.
Lemma fields_blank c s : blank c -> fields (c :: s) = fields s.
Proof. intro H. unfold fields. rewrite blank_xt by exact H. reflexivity. Qed.
Lemma fields_cons f c s : field f -> blank c -> fields (f ++ c :: s) = f :: fields s.
Proof.
  intros (N & Hs & Ht & _) Hc. unfold fields. rewrite xt_app, blank_xt, xt_field by assumption.
  rewrite split_char_app by (apply not_in_cin; exact Hs). cbn [filter]. destruct f; [congruence|]. reflexivity.
Qed.
Lemma fields_one f : field f -> fields f = [f].
Proof.
  intros (N & Hs & Ht & _). unfold fields. rewrite xt_field by assumption. rewrite split_char_no by (apply not_in_cin; exact Hs).
  cbn [filter]. destruct f; [congruence|]. reflexivity.
Qed.
Lemma laid_out_fields l s : laid_out l s -> fields s = l.
Proof.
  induction 1 as [w H|f H|f c r l Hf Hc H IH|c r l Hc H IH].
  - induction H as [|c w Hc H IH]; [reflexivity|]. rewrite fields_blank; auto.
  - apply fields_one; exact H.
  - rewrite fields_cons by assumption. rewrite IH. reflexivity.
  - rewrite fields_blank; auto.
Qed.
Lemma blank_TAB : blank TAB. Proof. right; reflexivity. Qed.
Lemma blank_SPC : blank SPC. Proof. left; reflexivity. Qed.
Lemma join_laid c l : blank c -> l <> [] -> Forall field l -> laid_out l (join_char c l).
Proof.
  intros Hc N F. induction F as [|f l Hf F IH]; [congruence|].
  destruct l as [|g l]; [apply lo_last; exact Hf|].
  change (join_char c (f :: g :: l)) with (f ++ c :: join_char c (g :: l)). apply lo_field; auto. apply IH. discriminate.
Qed.
Lemma join_fields c l : blank c -> l <> [] -> Forall field l -> fields (join_char c l) = l.
Proof. intros. apply laid_out_fields. apply join_laid; assumption. Qed.
Lemma fields_app l s c r : laid_out l s -> blank c -> fields (s ++ c :: r) = l ++ fields r.
Proof.
  intros H Hc. induction H as [w H|f H|f k r' l Hf Hk H IH|k r' l Hk H IH].
  - induction H as [|k w Hk H IH]; cbn [app]; rewrite fields_blank by assumption; [reflexivity|]. exact IH.
  - rewrite fields_cons by assumption. reflexivity.
  - rewrite <- app_assoc. cbn [app]. rewrite fields_cons by assumption. rewrite IH. reflexivity.
  - cbn [app]. rewrite fields_blank by assumption. exact IH.
Qed.

Lemma cin_not_in c s : cin c s = false -> ~ In c s.
Proof. intros H I. apply cin_In in I. congruence. Qed.
(** ** Rules *)
Lemma field_lit_Rule : field (lit "Rule").
Proof. split; [discriminate|]. split; [|split]; apply cin_not_in; reflexivity. Qed.
Lemma field_lit_Zone : field (lit "Zone").
Proof. split; [discriminate|]. split; [|split]; apply cin_not_in; reflexivity. Qed.
Lemma rule_line_parse r line rest : laid_out (lit "Rule" :: rule_fields r ++ rest) line -> zrule_parse line = Ok r.
Proof. intro H. unfold zrule_parse. rewrite (laid_out_fields _ _ H). destruct r. reflexivity. Qed.
Lemma rule_round r : Forall field (rule_fields r) -> zrule_parse (zrule_generate r) = Ok r.
Proof.
  intro F. apply (rule_line_parse r _ []). rewrite app_nil_r. unfold zrule_generate.
  apply (join_laid TAB (lit "Rule" :: rule_fields r)); [apply blank_TAB|discriminate|constructor; auto using field_lit_Rule].
Qed.
Lemma field_noLF f : field f -> cin LF f = false.
Proof. intros (_ & _ & _ & H). apply not_in_cin; exact H. Qed.
Lemma cin_join c d l : Ascii.eqb c d = false -> Forall (fun s => cin c s = false) l -> cin c (join_char d l) = false.
Proof.
  intros N F. induction F as [|f l Hf F IH]; [reflexivity|]. destruct l as [|g l]; [exact Hf|].
  change (join_char d (f :: g :: l)) with (f ++ d :: join_char d (g :: l)). rewrite cin_app, Hf. cbn [orb]. unfold cin in *. cbn [existsb].
  rewrite N. exact IH.
Qed.
Lemma Forall_noLF l : Forall field l -> Forall (fun s => cin LF s = false) l.
Proof. intro F. eapply Forall_impl; [|exact F]. apply field_noLF. Qed.
Lemma rule_line_noLF r : Forall field (rule_fields r) -> cin LF (zrule_generate r) = false.
Proof.
  intro F. unfold zrule_generate. apply cin_join; [reflexivity|]. constructor; [reflexivity|]. apply (Forall_noLF (rule_fields r) F).
Qed.
Lemma ruleset_line own r rules rest : Forall field (rule_fields r) -> rlName r = own ->
  ruleset_lines (mkRuleset own rules) (zrule_generate r :: rest) = ruleset_lines (mkRuleset own (rules ++ [r])) rest /\
  ruleset_lines (mkRuleset [] rules) (zrule_generate r :: rest) = ruleset_lines (mkRuleset own (rules ++ [r])) rest.
Proof.
  intros F E. pose proof (rule_round r F) as P.
  assert (S : exists t, split_char SPC (expandtabs1 (zrule_generate r)) = lit "Rule" :: own :: t).
  { inversion F as [|n l Hn F' Q]. rewrite <- E.
    change (zrule_generate r) with (lit "Rule" ++ TAB :: (rlName r ++ TAB :: join_char TAB [rlFrom r; rlTo r; rlType r; rlIn r; rlOn r; rlAt r; rlSave r; rlLetter r])).
    destruct Hn as (N & Hs & Ht & _).
    rewrite xt_app, (blank_xt TAB) by apply blank_TAB. rewrite split_char_app by reflexivity.
    rewrite xt_app, (blank_xt TAB) by apply blank_TAB. rewrite (xt_field (rlName r)) by exact Ht.
    rewrite split_char_app by (apply not_in_cin; exact Hs). eexists. reflexivity. }
  destruct S as (t & S).
  assert (N : nonempty own = true).
  { inversion F as [|n l Hn F' Q]. destruct Hn as (N & _). rewrite E in N. destruct own; [congruence|reflexivity]. }
  cbn [ruleset_lines]. rewrite S. cbn [rsName rsRules]. rewrite N. cbn [nonempty]. rewrite beq_refl, P. cbn [rbind]. auto.
Qed.
Lemma ruleset_run own l : forall rules, Forall (fun r => Forall field (rule_fields r) /\ rlName r = own) l ->
  ruleset_lines (mkRuleset own rules) (map zrule_generate l) = Ok (mkRuleset own (rules ++ l)).
Proof.
  induction l as [|r l IH]; intros rules F; [rewrite app_nil_r; reflexivity|]. inversion F as [|? ? [Hr E] F']; subst.
  cbn [map]. rewrite (proj1 (ruleset_line (rlName r) r rules _ Hr eq_refl)), IH by exact F'. rewrite <- app_assoc. reflexivity.
Qed.
Lemma ruleset_round s : rsRules s <> [] -> Forall (fun r => Forall field (rule_fields r) /\ rlName r = rsName s) (rsRules s) ->
  ruleset_parse (ruleset_generate s) = Ok s.
Proof.
  intros N F. unfold ruleset_parse, ruleset_generate. rewrite split_join.
  - destruct s as [own [|r l]]; cbn [rsRules rsName] in *; [congruence|]. inversion F as [|? ? [Hr E] F']; subst.
    cbn [map]. rewrite (proj2 (ruleset_line (rlName r) r [] _ Hr eq_refl)). apply (ruleset_run (rlName r) l [r] F').
  - destruct (rsRules s); [congruence|discriminate].
  - apply Forall_forall. intros x Hx. apply in_map_iff in Hx as (r & <- & Hr). rewrite Forall_forall in F. apply rule_line_noLF. apply F; exact Hr.
Qed.

(** ** Zones *)
Lemma zone_line_parse z until line : laid_out (zonerule_fields z ++ until) line ->
  (zUntil z = match until with [] => None | _ => Some (join_char SPC until) end) -> zonerule_parse line 2 = Ok z.
Proof.
  intros H U. unfold zonerule_parse. rewrite (laid_out_fields _ _ H). destruct z as [g r f u]. cbn [zUntil] in U. subst u. destruct until; reflexivity.
Qed.
Lemma until_cases z : zonerule_ok z -> exists until, Forall field until /\
  zUntil z = match until with [] => None | _ => Some (join_char SPC until) end.
Proof.
  intros [_ U]. destruct (zUntil z) as [u|]; [|exists []; auto]. destruct U as (l & N & F & ->). exists l. split; [exact F|].
  destruct l; [congruence|reflexivity].
Qed.
Lemma join_nonempty l : l <> [] -> Forall field l -> nonempty (join_char SPC l) = true.
Proof.
  intros N F. destruct F as [|f l (Nf & _) F]; [congruence|]. destruct f; [congruence|]. destruct l; reflexivity.
Qed.
Lemma zonerule_laid z until : Forall field (zonerule_fields z) -> Forall field until ->
  zUntil z = match until with [] => None | _ => Some (join_char SPC until) end ->
  laid_out (zonerule_fields z ++ until) (zonerule_generate z) /\ cin LF (zonerule_generate z) = false.
Proof.
  intros F Fu U. unfold zonerule_generate. rewrite U. destruct until as [|u l].
  - rewrite !app_nil_r. split; [apply join_laid; [apply blank_TAB|discriminate|exact F]|apply cin_join; [reflexivity|apply Forall_noLF; exact F]].
  - rewrite join_nonempty by (auto; discriminate). inversion F as [|? ? Fg F1]. inversion F1 as [|? ? Fr F2]. inversion F2 as [|? ? Ff F3]. subst. split.
    + change (join_char TAB ([zGmtoff z; zRule z; zFormat z] ++ [join_char SPC (u :: l)])) with
        (zGmtoff z ++ TAB :: (zRule z ++ TAB :: (zFormat z ++ TAB :: join_char SPC (u :: l)))).
      change (zonerule_fields z ++ u :: l) with (zGmtoff z :: zRule z :: zFormat z :: u :: l).
      repeat (apply lo_field; [assumption|apply blank_TAB|]). apply join_laid; [apply blank_SPC|discriminate|exact Fu].
    + apply cin_join; [reflexivity|]. apply Forall_app. split; [apply Forall_noLF; exact F|]. constructor; [|constructor].
      apply cin_join; [reflexivity|apply Forall_noLF; exact Fu].
Qed.
Lemma zone_rest l : Forall (fun z => zonerule_ok z /\ zGmtoff z <> lit "#") l ->
  zone_lines (map (fun r => join_char TAB [[]; []; []; zonerule_generate r]) l) = Ok l.
Proof.
  induction l as [|z l IH]; intro F; [reflexivity|]. inversion F as [|? ? [Hz Hg] F']; subst.
  destruct (until_cases z Hz) as (until & Fu & U). destruct (zonerule_laid z until (proj1 Hz) Fu U) as [Lz _].
  cbn [map]. change (join_char TAB [[]; []; []; zonerule_generate z]) with (TAB :: TAB :: TAB :: zonerule_generate z).
  cbn [zone_lines nonempty].
  rewrite (zone_line_parse z until) by (auto; repeat (apply lo_blank; [apply blank_TAB|]); exact Lz).
  cbn [rbind]. rewrite IH by exact F'. cbn [rbind]. destruct (beq (zGmtoff z) (lit "#")) eqn:B; [apply beq_eq in B; congruence|reflexivity].
Qed.
Lemma zone_round zn : field (znName zn) -> znRules zn <> [] -> Forall zonerule_ok (znRules zn) ->
  Forall (fun z => zGmtoff z <> lit "#") (tl (znRules zn)) -> zone_parse (zone_generate zn) = Ok zn.
Proof.
  intros Fn N F G. unfold zone_parse, zone_generate. destruct zn as [name [|z l]]; cbn [znName znRules tl] in *; [congruence|].
  inversion F as [|? ? Hz F']; subst. destruct (until_cases z Hz) as (until & Fu & U). destruct (zonerule_laid z until (proj1 Hz) Fu U) as [Lz Cz].
  rewrite split_join.
  - set (first := join_char TAB [lit "Zone " ++ name; zonerule_generate z]).
    assert (L : laid_out (lit "Zone" :: name :: zonerule_fields z ++ until) first).
    { change first with (lit "Zone" ++ SPC :: ((name) ++ TAB :: zonerule_generate z)). apply lo_field; [apply field_lit_Zone|apply blank_SPC|].
      apply lo_field; [exact Fn|apply blank_TAB|exact Lz]. }
    rewrite (laid_out_fields _ _ L). unfold zonerule_parse. rewrite (laid_out_fields _ _ L).
    cbn [Nat.sub skipn zonerule_fields app rbind]. rewrite <- U.
    rewrite zone_rest. 2:{ rewrite Forall_forall in *. intros x Hx. split; [apply F'; exact Hx|apply G; exact Hx]. }
    cbn [rbind]. destruct z; reflexivity.
  - discriminate.
  - constructor.
    + apply cin_join; [reflexivity|]. constructor; [|constructor; [exact Cz|constructor]]. rewrite cin_app. cbn. apply field_noLF; exact Fn.
    + apply Forall_forall. intros x Hx. apply in_map_iff in Hx as (r & <- & Hr). rewrite Forall_forall in F'. specialize (F' r Hr).
      destruct (until_cases r F') as (ur & Fur & Ur). destruct (zonerule_laid r ur (proj1 F') Fur Ur) as [_ Cr].
      apply cin_join; [reflexivity|]. repeat (constructor; [reflexivity|]). constructor; [exact Cr|constructor].
Qed.
