(** Proofs about vCards: cards, and streams of cards. *)
From Coq Require Import Lia ZifyBool ZifyNat.
From Verif Require Import PyBase PyProofs ParserCtx TextModel TextSpec TextProofs LineModel LineSpec LineProofs FoldProofs
  PropertyModel PropertySpec PropertyProofs PropertyProofs2 PropertyProofs3 ComponentModel ComponentSpec ComponentProofs
  ComponentProofs2 ComponentProofs3 ComponentProofs5 VCardModel VCardSpec VCardProofs.
Ltac Zify.zify_post_hook ::= Z.div_mod_to_equations.

(** ** Photos. *)
Fixpoint chunks (fuel : nat) (value : bytes) : list bytes :=
  match fuel with
  | O => []
  | S f => if (72 <? List.length value)%nat then firstn 72 value :: chunks f (skipn 72 value) else [value]
  end.
Lemma photo_physical n : forall v, (List.length v <= n)%nat ->
  photo_lines (S n) v ++ [CR; LF] = CR :: LF :: SPC :: physical (chunks (S n) v).
Proof.
  induction n as [|n IH]; intros v L.
  - destruct v; [|cbn in L; lia]. reflexivity.
  - change (photo_lines (S (S n)) v) with (CR :: LF :: SPC ::
      (if (72 <? List.length v)%nat then firstn 72 v ++ photo_lines (S n) (skipn 72 v) else v)).
    change (chunks (S (S n)) v) with (if (72 <? List.length v)%nat then firstn 72 v :: chunks (S n) (skipn 72 v) else [v]).
    destruct (72 <? List.length v)%nat eqn:E; [|reflexivity]. cbn [app]. do 3 f_equal. rewrite <- app_assoc, IH by (rewrite skipn_length; lia).
    cbn [chunks]. destruct (72 <? List.length (skipn 72 v))%nat; reflexivity.
Qed.
Lemma chunks_concat n : forall v, (List.length v <= n)%nat -> List.concat (chunks (S n) v) = v.
Proof.
  induction n as [|n IH]; intros v L.
  - destruct v; [|cbn in L; lia]. reflexivity.
  - change (chunks (S (S n)) v) with (if (72 <? List.length v)%nat then firstn 72 v :: chunks (S n) (skipn 72 v) else [v]).
    destruct (72 <? List.length v)%nat eqn:E; [|cbn [List.concat]; apply app_nil_r].
    cbn [List.concat]. rewrite IH by (rewrite skipn_length; lia). apply firstn_skipn.
Qed.
Lemma gen_line_none g name ps v : gen_line (mkLine g name ps (Some v)) = gen_line (mkLine g name ps None) ++ v.
Proof. unfold gen_line; cbn [lGroup lName lParams lValue]. rewrite <- !app_assoc. reflexivity. Qed.
Lemma wrote_fold l : one_line l -> wrote (fold_line (S (List.length l)) l) [l].
Proof.
  intros ((H1 & H2 & H3) & chars & Hc & El).
  assert (chars <> []) by (intros ->; cbn in El; subst l; exact H1).
  destruct (fold_line_ends l) as (ls & Hf & Hls).
  - rewrite <- El. apply utf8_lead; assumption.
  - rewrite <- El. intros Hr; apply (utf8_no_run chars Hc). eapply has_run_mono; [|eapply has_run_skip; exact Hr]. lia.
  - exists (physical ls). split; [assumption|]. exists [ls]. split.
    + constructor; [|constructor]. eapply folded_loose; [exact Hls|]. split; [|split]; assumption.
    + cbn [flat_map map]. rewrite app_nil_r, (folded_concat _ _ _ Hls). auto.
Qed.
Lemma gen_line_head g name ps v : gen_line (mkLine g name ps v) <> [] /\
  match gen_line (mkLine g name ps v), gen_line (mkLine g name ps None) with c :: _, d :: _ => c = d | _, _ => False end.
Proof.
  assert (E : gen_line (mkLine g name ps v) = gen_line (mkLine g name ps None) ++ match v with Some v => v | None => [] end).
  { destruct v; [apply gen_line_none|rewrite app_nil_r; reflexivity]. }
  rewrite E. assert (N : gen_line (mkLine g name ps None) <> []).
  { unfold gen_line; cbn [lGroup lName lParams lValue]. intro H. apply app_eq_nil in H as [_ H]. apply app_eq_nil in H as [_ H].
    apply app_eq_nil in H as [_ H]. discriminate. }
  destruct (gen_line (mkLine g name ps None)); [congruence|]. split; [discriminate|reflexivity].
Qed.
Lemma wrote_cprop fl p l : cprop_line fl p = Ok l -> cpValue p <> None -> one_line l -> wrote (cprop_generate fl p) [l].
Proof.
  intros E V O. unfold cprop_generate. rewrite E. destruct (cpValue p) as [v|] eqn:Ev; [|congruence].
  destruct (beq (upper (cpName p)) (lit "PHOTO") && ctype_eqb (cvalue_type v) (CT T_BINARY)); [|apply wrote_fold; assumption].
  unfold cprop_line in E. rewrite Ev in E. cbv zeta in *. remember (csetup (cpName p) (cpParams p) (Some v)) as ps eqn:Eps. clear Eps.
  destruct (cvalue_generate fl v) as [s|] eqn:G; [|discriminate]. cbn [rbind] in *. apply Ok_inj in E. subst l.
  destruct O as ((H1 & H2 & H3) & _).
  pose proof (gen_line_head (cpGroup p) (cpName p) ps (Some s)) as [_ Hh].
  rewrite (gen_line_none _ _ _ s) in *. set (head := gen_line (mkLine (cpGroup p) (cpName p) ps None)) in *.
  rewrite photo_physical by lia.
  assert (P : head ++ CR :: LF :: SPC :: physical (chunks (S (List.length s)) s) = physical (head :: chunks (S (List.length s)) s)).
  { cbn [chunks]. destruct (72 <? List.length s)%nat; reflexivity. }
  rewrite P. eexists. split; [reflexivity|]. exists [head :: chunks (S (List.length s)) s].
  assert (C : List.concat (head :: chunks (S (List.length s)) s) = head ++ s) by (cbn [List.concat]; rewrite chunks_concat by lia; reflexivity).
  split; [|split].
  - constructor; [|constructor]. split.
    + destruct head as [|c r]; [|exact H1]. destruct s; contradiction Hh.
    + rewrite C. assumption.
  - cbn [flat_map]. apply app_nil_r.
  - cbn [map]. rewrite C. reflexivity.
Qed.

(** ** The dictionary. *)
Definition cput (ps : cprops) (p : cprop) : cprops := card_addProperty p ps.
Lemma cget_add name key p ps : card_get name (cadd key p ps) = card_get name ps ++ (if beq key name then [p] else []).
Proof.
  unfold card_get. induction ps as [|[k l] ps IH]; cbn [cadd assoc].
  - destruct (beq key name); reflexivity.
  - destruct (beq_case k key) as [[-> ->]|[N ->]]; cbn [assoc].
    + destruct (beq key name); [reflexivity|rewrite app_nil_r; reflexivity].
    + destruct (beq_case k name) as [[-> ->]|[M ->]]; [|exact IH].
      destruct (beq_case key name) as [[-> _]|[_ ->]]; [congruence|rewrite app_nil_r; reflexivity].
Qed.
Lemma cadd_keys key p ps k : In k (map fst (cadd key p ps)) <-> In k (map fst ps) \/ k = key.
Proof.
  induction ps as [|[k' l] ps IH]; cbn [cadd map fst In]; [split; [intros [<-|[]]; auto|intros [[]|H]; auto]|].
  destruct (beq_case k' key) as [[-> ->]|[N ->]]; cbn [map fst In]; [|rewrite IH]; split; tauto || (intros [H|H]; subst; tauto).
Qed.
Lemma cadd_NoDup key p ps : NoDup (map fst ps) -> NoDup (map fst (cadd key p ps)).
Proof.
  induction ps as [|[k' l] ps IH]; intro H; cbn [cadd map fst] in *; [repeat constructor; auto|].
  inversion H as [|? ? H1 H2]; subst. destruct (beq_case k' key) as [[-> ->]|[N ->]]; cbn [map fst]; constructor; auto.
  rewrite cadd_keys. intros [I|I]; [contradiction|congruence].
Qed.
Lemma cget_puts name qs : forall ps, card_get name (fold_left cput qs ps) = card_get name ps ++ of_name name qs.
Proof.
  unfold of_name. induction qs as [|q qs IH]; intro ps; cbn [fold_left filter]; [rewrite app_nil_r; reflexivity|].
  rewrite IH. unfold cput at 1, card_addProperty. rewrite cget_add, <- app_assoc. f_equal. destruct (beq _ name); reflexivity.
Qed.
Lemma cputs_NoDup qs : forall ps, NoDup (map fst ps) -> NoDup (map fst (fold_left cput qs ps)).
Proof. induction qs as [|q qs IH]; intros ps H; cbn [fold_left]; [assumption|]. apply IH. apply cadd_NoDup; assumption. Qed.
Lemma cputs_keys qs : forall ps k, In k (map fst (fold_left cput qs ps)) <-> In k (map fst ps) \/ In k (map (fun q => upper (cpName q)) qs).
Proof.
  induction qs as [|q qs IH]; intros ps k; cbn [fold_left map In]; [tauto|]. rewrite IH. unfold cput at 1, card_addProperty. rewrite cadd_keys.
  intuition congruence.
Qed.
Lemma chas_keys name ps : card_has name ps = true <-> In name (map fst ps).
Proof.
  unfold card_has. induction ps as [|[k l] ps IH]; cbn [assoc map fst In]; [split; [discriminate|tauto]|].
  destruct (beq_case k name) as [[-> ->]|[N ->]]; [tauto|]. rewrite IH. intuition congruence.
Qed.
Lemma of_name_in name l : of_name name l <> [] <-> In name (map (fun q => upper (cpName q)) l).
Proof.
  unfold of_name. induction l as [|p l IH]; cbn [filter map In]; [tauto|]. destruct (beq_case (upper (cpName p)) name) as [[-> ->]|[N ->]].
  - split; [auto|discriminate].
  - rewrite IH. intuition congruence.
Qed.

(** ** The properties in the order they are written. *)
Lemma card_order_NoDup : NoDup card_order.
Proof. repeat constructor; cbn; intuition discriminate. Qed.
Definition card_keys (ps : cprops) : list bytes := keys_in_order card_order (sort_by (fun x => x) (map fst ps)).
Lemma card_keys_perm ps : NoDup (map fst ps) -> Permutation (card_keys ps) (map fst ps).
Proof.
  intro N. unfold card_keys.
  destruct (keys_in_order_spec card_order (sort_by (fun x => x) (map fst ps))) as (r & _ & _ & _ & P).
  - apply card_order_NoDup.
  - eapply Permutation_NoDup; [symmetry; apply sort_perm|assumption].
  - apply sort_order.
  - rewrite P. apply sort_perm.
Qed.
Lemma card_keys_same ps qs : NoDup (map fst ps) -> Permutation (map fst ps) (map fst qs) -> card_keys ps = card_keys qs.
Proof. intros N P. unfold card_keys. rewrite (sort_by_perm (fun x => x) _ _ (eq_ind_r (@NoDup bytes) N (map_id _)) P). reflexivity. Qed.

Section Written.
Variable ps : cprops.
Hypothesis N : NoDup (map fst ps).
Hypothesis U : forall k l p, In (k, l) ps -> In p l -> upper (cpName p) = k.
Lemma cget_in name p : In p (card_get name ps) -> exists l, In (name, l) ps /\ In p l.
Proof.
  intros I. unfold card_get in I. destruct (assoc name ps) as [l|] eqn:E; [|contradiction].
  exists l. split; [apply assoc_some; assumption|assumption].
Qed.
Lemma cget_name name p : In p (card_get name ps) -> upper (cpName p) = name.
Proof. intro I. destruct (cget_in name p I) as (l & I1 & I2). eapply U; eassumption. Qed.
Lemma filter_all {A} (f : A -> bool) (b : bool) l : (forall x, In x l -> f x = b) -> filter f l = if b then l else [].
Proof.
  induction l as [|x l IH]; intro H; [destruct b; reflexivity|]. cbn [filter]. rewrite (H x) by (left; reflexivity).
  rewrite IH by (intros y I; apply H; right; assumption). destruct b; reflexivity.
Qed.
Lemma of_name_group name k : of_name name (card_get k ps) = if beq k name then card_get k ps else [].
Proof. apply filter_all. intros p I. rewrite (cget_name k p I). reflexivity. Qed.
Lemma of_name_flat {A} name (g : A -> list cprop) l : of_name name (flat_map g l) = flat_map (fun x => of_name name (g x)) l.
Proof. unfold of_name. induction l as [|x l IH]; [reflexivity|]. cbn [flat_map]. rewrite filter_app, IH. reflexivity. Qed.
Lemma of_name_keys name keys : NoDup keys -> (In name keys \/ card_get name ps = []) ->
  of_name name (flat_map (fun key => card_get key ps) keys) = card_get name ps.
Proof.
  intros Nk H. rewrite of_name_flat. rename keys into keys0.
  assert (Z : forall keys, ~ In name keys -> flat_map (fun x => of_name name (card_get x ps)) keys = []).
  { clear H Nk. induction keys as [|k keys IH]; intro H; [reflexivity|]. cbn [flat_map]. rewrite of_name_group.
    destruct (beq_case k name) as [[-> _]|[_ ->]]; [exfalso; apply H; left; reflexivity|]. apply IH. intro; apply H; right; assumption. }
  destruct (in_dec (list_eq_dec ascii_dec) name keys0) as [I|I].
  - clear H. induction keys0 as [|k keys IH]; [contradiction|]. inversion Nk as [|? ? K1 K2]; subst. cbn [flat_map]. rewrite of_name_group.
    destruct (beq_case k name) as [[-> ->]|[M ->]].
    + rewrite Z; [apply app_nil_r|assumption].
    + destruct I as [->|I]; [congruence|]. apply IH; auto.
  - destruct H as [H|H]; [contradiction|]. rewrite H. apply Z; assumption.
Qed.
Lemma cwritten_filter name : of_name name (card_written ps) = card_get name ps.
Proof.
  unfold card_written. fold (card_keys ps). apply of_name_keys.
  - eapply Permutation_NoDup; [symmetry; apply card_keys_perm; assumption|assumption].
  - destruct (in_dec (list_eq_dec ascii_dec) name (map fst ps)) as [I|I].
    + left. eapply Permutation_in; [symmetry; apply card_keys_perm; assumption|assumption].
    + right. unfold card_get. rewrite assoc_out by assumption. reflexivity.
Qed.
Lemma cwritten_in p : In p (card_written ps) -> exists key l, In (key, l) ps /\ In p l.
Proof.
  unfold card_written. intro I. apply in_flat_map in I. destruct I as (key & _ & I).
  destruct (cget_in key p I) as (l & I1 & I2). eauto.
Qed.
End Written.

(** ** Writing. *)
Definition cline_of (fl : floats) (p : cprop) : bytes := match cprop_line fl p with Ok l => l | Raise _ => [] end.
Definition card_text_lines (fl : floats) (l : list cprop) : list bytes :=
  lit "BEGIN:VCARD" :: map (cline_of fl) l ++ [lit "END:VCARD"].
Definition good_prop (ctx : pctx) (fl : floats) (p : cprop) : Prop :=
  cprop_ok ctx fl p /\ (cpName p = lit "VERSION" -> cpValue p = Some (CSingle (CItem (VText (lit "3.0"))))) /\
  exists line, cprop_line fl p = Ok line /\ one_line line /\ line <> lit "END:VCARD".
Lemma card_good ctx fl c : card_ok ctx fl c -> Forall (good_prop ctx fl) (card_written c).
Proof.
  intros (N & _ & F). apply Forall_forall. intros p I. destruct (cwritten_in c p I) as (key & l & I1 & I2).
  rewrite Forall_forall in F. destruct (F _ I1) as [_ G]. cbn [fst snd] in G. rewrite Forall_forall in G. destruct (G p I2) as (_ & A & B & C).
  split; [assumption|]. split; assumption.
Qed.
Lemma card_names ctx fl c : card_ok ctx fl c -> forall k l p, In (k, l) c -> In p l -> upper (cpName p) = k.
Proof. intros (_ & _ & F) k l p I1 I2. rewrite Forall_forall in F. destruct (F _ I1) as [_ G]. cbn [fst snd] in G. rewrite Forall_forall in G. apply G; assumption. Qed.

Lemma good_wrote ctx fl p : good_prop ctx fl p -> wrote (cprop_generate fl p) [cline_of fl p].
Proof.
  intros (K & _ & line & E & O & _). unfold cline_of. rewrite E. apply wrote_cprop; try assumption.
  destruct K as (_ & _ & _ & _ & v & Ev & _). congruence.
Qed.
Lemma card_wrote ctx fl c : card_ok ctx fl c -> wrote (card_generate fl c) (card_text_lines fl (card_written c)).
Proof.
  intro H. pose proof (card_good ctx fl c H) as G. unfold card_generate, card_text_lines.
  replace (lit "BEGIN:VCARD" :: map (cline_of fl) (card_written c) ++ [lit "END:VCARD"]) with
    (List.concat ([lit "BEGIN:VCARD"] :: map (fun p => [cline_of fl p]) (card_written c) ++ [[lit "END:VCARD"]])).
  - apply write_all_lines. constructor; [apply wrote_crlf; [reflexivity|apply cin_false; reflexivity]|].
    apply Forall2_app.
    + induction G as [|p l Hp Hl IH]; constructor; [eapply good_wrote; eassumption|assumption].
    + constructor; [|constructor]. apply wrote_crlf; [reflexivity|apply cin_false; reflexivity].
  - cbn [List.concat app]. f_equal. rewrite concat_app. f_equal.
    clear. induction (card_written c) as [|p l IHl]; [reflexivity|]. cbn [map List.concat app]. f_equal. exact IHl.
Qed.

(** ** Reading. *)
Section Read.
Variable ctx : pctx.
Variable fl : floats.

Lemma valid_read p q : cimg fl p q -> (cpName p = lit "VERSION" -> cpValue p = Some (CSingle (CItem (VText (lit "3.0"))))) -> card_valid q = true.
Proof.
  intros ((_ & _ & _ & S) & _ & En & _) H. unfold card_valid. rewrite En. destruct (beq_case (cpName p) (lit "VERSION")) as [[E ->]|[_ ->]]; [|reflexivity].
  rewrite (H E) in S. destruct (cpValue q) as [[[i|l|l|l]|t l]|]; try contradiction S; try discriminate S. cbn in S.
  subst i. reflexivity.
Qed.
Lemma line_ne line p : cprop_parse ctx fl line = Some (Ok p) -> line <> [].
Proof. intros H ->. vm_compute in H. discriminate. Qed.

Lemma body_read l : Forall (good_prop ctx fl) l ->
  exists qs, Forall2 (cimg fl) l qs /\
    (forall rest found ps, card_lines ctx fl (map (cline_of fl) l ++ rest) (true, found, ps) = card_lines ctx fl rest (true, found, fold_left cput qs ps)) /\
    (forall rest results ps, cards_lines ctx fl (map (cline_of fl) l ++ rest) (true, results, ps) = cards_lines ctx fl rest (true, results, fold_left cput qs ps)).
Proof.
  induction 1 as [|p l (K & V & line & E & O & Ne) F IH]; [exists []; repeat split; constructor|].
  destruct IH as (qs & A & B & C). destruct (cprop_image ctx fl p K) as (text & q & G & P & J).
  assert (text = line) as -> by congruence.
  assert (El : cline_of fl p = line) by (unfold cline_of; rewrite E; reflexivity).
  pose proof (valid_read p q J V) as W. pose proof (line_ne _ _ P) as Nl.
  assert (Eb : beq line (lit "END:VCARD") = false) by (destruct (beq_case line (lit "END:VCARD")) as [[X _]|[_ X]]; [contradiction|assumption]).
  exists (q :: qs). split; [constructor; assumption|].
  split; intros; cbn [map app card_lines cards_lines fold_left]; rewrite El; unfold card_line, cards_line; cbn [negb]; rewrite Eb;
    destruct line as [|ch line]; try congruence; rewrite P, W; [apply B|apply C].
Qed.
End Read.

Lemma same_of_name fl name ls qs : Forall2 (cimg fl) ls qs -> Forall2 (cimg fl) (of_name name ls) (of_name name qs).
Proof.
  unfold of_name. induction 1 as [|p q ls qs J F IH]; [constructor|]. cbn [filter].
  assert (En : cpName q = cpName p) by apply J. rewrite En. destruct (beq _ name); [constructor; assumption|assumption].
Qed.
Lemma map_of_names fl ls qs : Forall2 (cimg fl) ls qs -> map (fun q => upper (cpName q)) qs = map (fun q => upper (cpName q)) ls.
Proof. induction 1 as [|p q ls qs J F IH]; [reflexivity|]. cbn [map]. rewrite IH. assert (cpName q = cpName p) as -> by apply J. reflexivity. Qed.

Lemma flat_forall2 {A B} (R : B -> B -> Prop) (f g : A -> list B) l : (forall x, Forall2 R (f x) (g x)) -> Forall2 R (flat_map f l) (flat_map g l).
Proof. intro H. induction l as [|x l IH]; [constructor|]. cbn [flat_map]. apply Forall2_app; auto. Qed.
Lemma img_generate fl p q : cimg fl p q -> cprop_generate fl q = cprop_generate fl p.
Proof.
  intros (S & L & En & Eg & V & H). unfold cprop_generate. rewrite En. destruct (cpValue p) as [v|], (cpValue q) as [w|]; try contradiction V.
  destruct V as [V1 V2]. rewrite L, V1, V2, En in *. rewrite H. reflexivity.
Qed.

Lemma imgs_generate fl l m : Forall2 (cimg fl) l m -> map (cprop_generate fl) m = map (cprop_generate fl) l.
Proof. induction 1 as [|p q l m J F IH]; [reflexivity|]. cbn [map]. rewrite IH, (img_generate _ _ _ J). reflexivity. Qed.

Section Image.
Variable ctx : pctx.
Variable fl : floats.
Variable c : cprops.
Hypothesis K : card_ok ctx fl c.
Variable qs : list cprop.
Hypothesis Q : Forall2 (cimg fl) (card_written c) qs.
Let d := fold_left cput qs [].
Lemma image_get name : Forall2 (cimg fl) (card_get name c) (card_get name d).
Proof.
  unfold d. rewrite cget_puts. cbn [app card_get assoc]. rewrite <- (cwritten_filter c) by (apply K || apply (card_names ctx fl c K)).
  apply same_of_name. exact Q.
Qed.
Lemma image_same : same_card c d.
Proof. intro name. eapply f2_impl; [|apply image_get]. intros p q J. apply J. Qed.
Lemma image_keys : Permutation (map fst c) (map fst d).
Proof.
  apply NoDup_Permutation; [apply K|unfold d; apply cputs_NoDup; constructor|]. intro k. unfold d. rewrite cputs_keys. cbn [map In].
  rewrite (map_of_names fl _ _ Q). split.
  - intro I. right. apply in_map_iff in I. destruct I as ([k' l] & <- & I). cbn [fst] in *.
    destruct K as (N & _ & F). rewrite Forall_forall in F. destruct (F _ I) as [Ne G]. cbn [fst snd] in *.
    destruct l as [|p l]; [congruence|]. apply in_map_iff. exists p. rewrite Forall_forall in G. split; [apply G; left; reflexivity|].
    unfold card_written. apply in_flat_map. exists k'. split.
    + eapply Permutation_in; [symmetry; apply card_keys_perm; exact N|]. apply in_map_iff. exists (k', p :: l). auto.
    + unfold card_get. rewrite (assoc_in k' c (p :: l) N I). left; reflexivity.
  - intros [[]|I]. apply in_map_iff in I. destruct I as (p & <- & I). destruct (cwritten_in c p I) as (key & l & I1 & I2). rewrite (card_names ctx fl c K _ _ _ I1 I2).
    apply in_map_iff. exists (key, l). auto.
Qed.
Lemma image_written : Forall2 (cimg fl) (card_written c) (card_written d).
Proof.
  unfold card_written. fold (card_keys c) (card_keys d). rewrite <- (card_keys_same c d) by (apply K || apply image_keys).
  apply flat_forall2. intro; apply image_get.
Qed.
Lemma image_generate : card_generate fl d = card_generate fl c.
Proof.
  unfold card_generate. rewrite (imgs_generate fl _ _ image_written). reflexivity.
Qed.
Lemma image_version : card_has (lit "VERSION") d = true.
Proof. apply chas_keys. eapply Permutation_in; [apply image_keys|]. apply K. Qed.
End Image.

Lemma card_round ctx fl c : card_ok ctx fl c ->
  exists text d, card_generate fl c = Some (Ok text) /\ card_parse ctx fl text = Some (Ok (Some d)) /\ same_card c d /\
    card_generate fl d = Some (Ok text).
Proof.
  intro K. destruct (card_wrote ctx fl c K) as (text & G & W). destruct (body_read ctx fl _ (card_good ctx fl c K)) as (qs & Q & B & _).
  exists text, (fold_left cput qs []). split; [exact G|]. split; [|split; [eapply image_same; eassumption|rewrite (image_generate ctx fl c K qs Q); exact G]].
  unfold card_parse. rewrite (read_written _ _ W). unfold card_text_lines. cbn [card_lines].
  change (card_line ctx fl (lit "BEGIN:VCARD") (false, false, [])) with (Some (Ok (true, true, @nil (bytes * list cprop)))). cbv iota beta.
  rewrite B. change (card_lines ctx fl [lit "END:VCARD"] (true, true, fold_left cput qs [])) with (Some (Ok (false, true, fold_left cput qs []))).
  cbv iota beta. rewrite (image_version ctx fl c K qs Q). reflexivity.
Qed.

Lemma cards_round ctx fl cs : Forall (card_ok ctx fl) cs ->
  exists texts ds, Forall2 (fun c t => card_generate fl c = Some (Ok t)) cs texts /\
    cards_parse ctx fl (List.concat texts) = Some (Ok ds) /\ Forall2 same_card cs ds.
Proof.
  intro F.
  assert (H : exists texts ds, Forall2 (fun c t => card_generate fl c = Some (Ok t)) cs texts /\
    writes (List.concat texts) (flat_map (fun c => card_text_lines fl (card_written c)) cs) /\ Forall2 same_card cs ds /\
    forall results, cards_lines ctx fl (flat_map (fun c => card_text_lines fl (card_written c)) cs) (false, results, []) =
      Some (Ok (false, results ++ ds, []))).
  { induction F as [|c cs K F IH].
    - exists [], []. split; [constructor|]. split; [exists []; repeat split; constructor|]. split; [constructor|].
      intro results. rewrite app_nil_r. reflexivity.
    - destruct IH as (texts & ds & A & B & C & D).
      destruct (card_wrote ctx fl c K) as (text & G & W). destruct (body_read ctx fl _ (card_good ctx fl c K)) as (qs & Q & _ & R).
      exists (text :: texts), (fold_left cput qs [] :: ds). split; [constructor; assumption|].
      split; [cbn [List.concat flat_map]; apply writes_app; assumption|]. split; [constructor; [eapply image_same; eassumption|assumption]|].
      intro results. cbn [flat_map]. unfold card_text_lines at 1. cbn [app]. rewrite <- app_assoc. cbn [cards_lines].
      change (cards_line ctx fl (lit "BEGIN:VCARD") (false, results, [])) with (Some (Ok (true, results, @nil (bytes * list cprop)))). cbv iota beta.
      rewrite R. cbn [app cards_lines].
      assert (E : cards_line ctx fl (lit "END:VCARD") (true, results, fold_left cput qs []) = Some (Ok (false, results ++ [fold_left cput qs []], []))).
      { unfold cards_line. cbn [negb]. change (beq (lit "END:VCARD") (lit "END:VCARD")) with true. cbv iota. rewrite (image_version ctx fl c K qs Q). reflexivity. }
      rewrite E. rewrite D, <- app_assoc. reflexivity. }
  destruct H as (texts & ds & A & B & C & D). exists texts, ds. split; [assumption|]. split; [|assumption].
  unfold cards_parse. rewrite (read_written _ _ B), D. reflexivity.
Qed.
