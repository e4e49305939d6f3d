(** Proofs about component trees: the text is the lines of the tree. *)
From Coq Require Import Lia ZifyBool ZifyNat.
From Verif Require Import PyBase PyProofs ParserCtx TextModel TextSpec TextProofs LineModel LineSpec LineProofs FoldProofs
  DateTimeModel DateTimeText DateTimeSpec2 DurationModel RecurModel RecurTextProofs2
  PropertyModel PropertySpec PropertyProofs PropertyProofs2 PropertyProofs3 ComponentModel ComponentSpec ComponentProofs
  ComponentProofs2.
Ltac Zify.zify_post_hook ::= Z.div_mod_to_equations.

Lemma comp_tree_ind (P : comp -> Prop) : (forall k s ps subs, Forall P subs -> P (Comp k s ps subs)) -> forall c, P c.
Proof.
  intro H. fix self 1. intros [k s ps subs]. apply H. induction subs as [|c subs IH]; constructor; [apply self|exact IH].
Qed.

Lemma sorted_snd {B} (g : comp -> B) k l :
  map snd (sortedComponents fst k (map (fun d => (d, g d)) l)) = map g (sortedComponents (fun c => c) k l).
Proof. rewrite !sorted_rank. unfold by_keys. rewrite isort_map, map_map. reflexivity. Qed.

Definition line_of (fl : floats) (p : prop) : bytes := match prop_line fl p with Ok l => l | Raise _ => [] end.
Fixpoint lines_of (fl : floats) (c : comp) : list bytes :=
  let '(Comp k s ps subs) := c in
  beginDelimiter k :: map (line_of fl) (written_props k ps) ++
  List.concat (map snd (sortedComponents fst k (map (fun d => (d, lines_of fl d)) subs))) ++ [endDelimiter k].
Lemma lines_of_eq fl k s ps subs : lines_of fl (Comp k s ps subs) =
  beginDelimiter k :: map (line_of fl) (written_props k ps) ++
  List.concat (map (lines_of fl) (sortedComponents (fun c => c) k subs)) ++ [endDelimiter k].
Proof. cbn [lines_of]. rewrite sorted_snd. reflexivity. Qed.
Lemma generate_eq fl k s ps subs : generate fl (Comp k s ps subs) =
  write_all (crlf (beginDelimiter k) :: map (prop_generate fl) (written_props k ps) ++
             map (generate fl) (sortedComponents (fun c => c) k subs) ++ [crlf (endDelimiter k)]).
Proof. cbn [generate]. rewrite sorted_snd. reflexivity. Qed.

Definition writes (text : bytes) (lines : list bytes) : Prop :=
  exists lss, Forall loose lss /\ flat_map physical lss = text /\ map (@List.concat ascii) lss = lines.
Lemma writes_app t u l m : writes t l -> writes u m -> writes (t ++ u) (l ++ m).
Proof.
  intros (a & A1 & <- & <-) (b & B1 & <- & <-). exists (a ++ b). split; [apply Forall_app; auto|].
  split; [apply flat_map_app|apply map_app].
Qed.
Definition wrote (o : option (res bytes)) (lines : list bytes) : Prop := exists t, o = Some (Ok t) /\ writes t lines.
Lemma write_all_lines os ls : Forall2 wrote os ls -> wrote (write_all os) (List.concat ls).
Proof.
  induction 1 as [|o l os ls (t & -> & W) F (u & E & V)].
  - exists []. split; [reflexivity|]. exists []. repeat split; constructor.
  - exists (t ++ u). cbn [write_all List.concat]. rewrite E. split; [reflexivity|apply writes_app; assumption].
Qed.
Lemma wrote_crlf l : match l with c :: _ => is_space c = false | [] => False end -> ~ In LF l -> wrote (crlf l) [l].
Proof.
  intros H1 H2. exists (l ++ [CR; LF]). split; [reflexivity|]. exists [[l]]. split.
  - constructor; [|constructor]. split; [exact H1|]. cbn [List.concat]. rewrite app_nil_r. assumption.
  - cbn [flat_map physical map List.concat]. rewrite !app_nil_r. auto.
Qed.
Lemma wrote_prop fl p l : prop_line fl p = Ok l -> one_line l -> wrote (prop_generate fl p) [line_of fl p].
Proof.
  intros E ((H1 & H2 & H3) & chars & Hc & El). unfold prop_generate, line_of. rewrite E.
  assert (chars <> []) by (intros ->; cbn in El; subst l; exact H1).
  destruct (fold_line_ends l) as (ls & Hf & Hls).
  - rewrite <- El. apply utf8_lead; assumption.
  - rewrite <- El. intros Hr; apply (utf8_no_run chars Hc). eapply has_run_mono; [|eapply has_run_skip; exact Hr]. lia.
  - exists (physical ls). split; [assumption|]. exists [ls]. split.
    + constructor; [|constructor]. eapply folded_loose; [exact Hls|]. split; [|split]; assumption.
    + cbn [flat_map map]. rewrite app_nil_r, (folded_concat _ _ _ Hls). auto.
Qed.

Inductive writable (ctx : pctx) (fl : floats) : comp -> Prop :=
| writable_intro : forall k s ps subs, ~ In LF (getType k) -> props_ok ctx fl ps -> Forall (writable ctx fl) subs ->
    writable ctx fl (Comp k s ps subs).

Lemma type_text k : kind_ok k \/ k = VCALENDAR -> ~ In LF (getType k).
Proof.
  intros H. destruct k; try (apply cin_false; reflexivity). cbn [getType]. destruct H as [H|H]; [|discriminate]. cbn in H. tauto.
Qed.
Lemma tree_writable ctx fl c : tree_ok ctx fl c -> writable ctx fl c.
Proof.
  induction c as [k s ps subs IH] using comp_tree_ind. intro T. inversion T as [? ? ? ? K P C Ne S E]; subst.
  constructor; [apply type_text; auto|assumption|]. rewrite Forall_forall in *. auto.
Qed.

Lemma props_in ctx fl ps p k : props_ok ctx fl ps -> In p (written_props k ps) ->
  exists key l, In (key, l) ps /\ In p l /\ upper (pName p) = key /\ key <> lit "BEGIN" /\ key <> lit "END" /\ prop_ok ctx fl p /\
    exists line, prop_line fl p = Ok line /\ one_line line.
Proof.
  intros (N & F) I. destruct (written_in ps N k p I) as (key & l & I1 & I2). rewrite Forall_forall in F.
  destruct (F _ I1) as (A & B & _ & G). cbn [fst snd] in *. rewrite Forall_forall in G. destruct (G p I2) as (U & Q & R).
  exists key, l. tauto.
Qed.

Lemma wrote_props ctx fl k ps : props_ok ctx fl ps ->
  Forall2 wrote (map (prop_generate fl) (written_props k ps)) (map (fun p => [line_of fl p]) (written_props k ps)).
Proof.
  intro H. assert (G : forall p, In p (written_props k ps) -> wrote (prop_generate fl p) [line_of fl p]).
  { intros p I. destruct (props_in ctx fl ps p k H I) as (key & l & _ & _ & _ & _ & _ & _ & line & E & O). eapply wrote_prop; eassumption. }
  induction (written_props k ps) as [|p l IH]; constructor; [apply G; left; reflexivity|]. apply IH. intros q I; apply G; right; assumption.
Qed.
Lemma sorted_perm k l : Permutation (sortedComponents (fun c => c) k l) l.
Proof. apply (components_sorted k l _ eq_refl). Qed.

Lemma generate_lines ctx fl c : writable ctx fl c -> wrote (generate fl c) (lines_of fl c).
Proof.
  induction c as [k s ps subs IH] using comp_tree_ind. intro W. inversion W as [? ? ? ? K P S E]; subst.
  rewrite generate_eq, lines_of_eq.
  assert (G : Forall2 wrote (map (generate fl) (sortedComponents (fun c => c) k subs))
                (map (lines_of fl) (sortedComponents (fun c => c) k subs))).
  { assert (H : forall c, In c (sortedComponents (fun c => c) k subs) -> wrote (generate fl c) (lines_of fl c)).
    { intros c I. assert (In c subs) by (eapply Permutation_in; [apply sorted_perm|exact I]). rewrite Forall_forall in *. auto. }
    induction (sortedComponents _ k subs) as [|c l IHl]; constructor; [apply H; left; reflexivity|]. apply IHl. intros d I; apply H; right; assumption. }
  replace (beginDelimiter k :: map (line_of fl) (written_props k ps) ++
    List.concat (map (lines_of fl) (sortedComponents (fun c => c) k subs)) ++ [endDelimiter k]) with
   (List.concat ([beginDelimiter k] :: map (fun p => [line_of fl p]) (written_props k ps) ++
      map (lines_of fl) (sortedComponents (fun c => c) k subs) ++ [[endDelimiter k]])).
  - apply write_all_lines. constructor.
    + apply wrote_crlf; [reflexivity|]. unfold beginDelimiter. rewrite in_app_iff. intros [H|H]; [|contradiction].
      revert H. apply cin_false; reflexivity.
    + apply Forall2_app; [apply (wrote_props ctx); assumption|]. apply Forall2_app; [assumption|]. constructor; [|constructor].
      apply wrote_crlf; [reflexivity|]. unfold endDelimiter. rewrite in_app_iff. intros [H|H]; [|contradiction].
      revert H. apply cin_false; reflexivity.
  - cbn [List.concat app]. f_equal. rewrite !concat_app. f_equal.
    induction (written_props k ps) as [|p l IHl]; [reflexivity|]. cbn [map List.concat app]. f_equal. exact IHl.
Qed.

Lemma read_written text lines : writes text lines -> read_lines (S (List.length text)) None text = lines.
Proof.
  intros (lss & L & <- & <-). apply read_lines_phys; [assumption|].
  assert (H : (List.length lss <= List.length (flat_map physical lss))%nat); [|lia].
  induction L as [|ls lss [L1 L2] _ IH]; [cbn; lia|]. cbn [flat_map List.length]. rewrite app_length.
  pose proof (physical_len ls). destruct ls; [contradiction|]. cbn [List.length] in *. lia.
Qed.
