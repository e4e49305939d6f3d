(** Proofs for C71: what was edited is written and read. *)
From Coq Require Import Lia.
From Verif Require Import PyBase PyProofs ParserCtx LineModel LineSpec LineProofs TextModel TextSpec TextProofs DateTimeModel DateTimeText DateTimeSpec2 PropertyModel PropertySpec PropertyProofs
  PeriodProofs ComponentModel ComponentSpec ComponentProofs ComponentProofs2 ComponentProofs5 ComponentProofs6 ComponentProofs7 ValidateSpec ValidateProofs DeriveModel MakeModel MakeSpec MakeProofs AlarmModel AlarmSpec AlarmProofs
  StatusModel StatusSpec StatusProofs.

(** ** Lines *)
Lemma cin_true c s : cin c s = true -> In c s.
Proof. induction s as [|x s IH]; cbn; [discriminate|]. intro H. apply Bool.orb_true_iff in H as [H|H]; [left; symmetry; apply Ascii.eqb_eq, H|right; apply IH, H]. Qed.
Lemma utf8_app a b : utf8 a -> utf8 b -> utf8 (a ++ b).
Proof. intros (x & F & <-) (y & G & <-). exists (x ++ y). split; [apply Forall_app; split; assumption|apply concat_app]. Qed.
Lemma ascii_one c : (nat_of_ascii c < 128)%nat -> utf8_char [c].
Proof. intro H. exists c, []. split; [reflexivity|]. split; [unfold continuation; lia|]. split; [constructor|cbn; lia]. Qed.
Lemma utf8_ascii s : Forall (fun c => (nat_of_ascii c < 128)%nat) s -> utf8 s.
Proof.
  intro H. exists (map (fun c => [c]) s). split.
  - rewrite Forall_map. revert H. apply Forall_impl, ascii_one.
  - clear. induction s as [|c s IH]; [reflexivity|]. cbn [map List.concat app]. f_equal. exact IH.
Qed.
Lemma esc_plain r : Forall continuation r -> E r = r.
Proof.
  induction 1 as [|c r C F IH]; [reflexivity|]. unfold E in *. cbn [flat_map]. rewrite IH. replace (esc1 c) with [c]; [reflexivity|].
  unfold esc1. destruct (cin c esc_tokens) eqn:X; [exfalso|reflexivity]. apply cin_true in X. unfold continuation in C.
  repeat (destruct X as [<-|X]; [cbn in C; lia|]). destruct X.
Qed.
Lemma esc_char_utf8 u : utf8_char u -> utf8 (E u).
Proof.
  intros (c & r & -> & N & F & L). unfold E. cbn [flat_map]. fold (E r). rewrite (esc_plain r F).
  unfold esc1. destruct (cin c esc_tokens) eqn:X.
  - apply cin_true in X.
    assert (Y : exists x, esc_char c = [x] /\ (nat_of_ascii x < 128)%nat) by (repeat (destruct X as [<-|X]; [eexists; split; [reflexivity|cbn; lia]|]); destruct X).
    destruct Y as (x & -> & B). exists [[BSLASH]; x :: r]. split; [|cbn; rewrite app_nil_r; reflexivity]. constructor; [apply ascii_one; cbn; lia|]. constructor; [|constructor].
    exists x, r. split; [reflexivity|]. split; [unfold continuation; lia|]. split; assumption.
  - exists [c :: r]. split; [|cbn; rewrite app_nil_r; reflexivity]. constructor; [|constructor]. exists c, r. repeat split; assumption.
Qed.
Lemma esc_utf8 s : utf8 s -> utf8 (escapeTextValue s).
Proof.
  intros (l & F & <-). rewrite escape_E. induction F as [|u l U F IH]; [exists []; split; [constructor|reflexivity]|].
  cbn [List.concat]. unfold E in *. rewrite flat_map_app. apply utf8_app; [apply esc_char_utf8, U|exact IH].
Qed.
Lemma esc_breaks s : ~ In CR (escapeTextValue s) /\ ~ In LF (escapeTextValue s).
Proof.
  pose proof (escape_form s) as F. induction F as [|c r N F IH|c r N F IH]; [split; intros []| |].
  - split; intros [H|H]; try tauto; subst; apply N; cbn; tauto.
  - split; intros [H|[H|H]]; try tauto; try discriminate H; subst; cbn in N; intuition discriminate.
Qed.

Section WithCtx.
Variables (tzo : tzid -> Z -> Z -> Z -> Z -> Z -> Z -> bool -> bool -> Z) (ctx : pctx) (fl : floats).

(** A property that can be put into a component. *)
Definition good (p : prop) : Prop := prop_ok ctx fl p /\ exists line, prop_line fl p = Ok line /\ one_line line.

Lemma text_suits name s : In name text_names -> suits ctx name (PyStr s) None.
Proof.
  intro I. assert (A : name_ok name /\ ~ listed name /\ ~ structured_name name /\ In (upper name) (names_with T_TEXT)).
  { repeat (destruct I as [<-|I];
      [split; [split; [discriminate|split; [split; discriminate|split; apply cin_in; reflexivity]]|
       split; [intro H; vm_compute in H; intuition discriminate|split; [intros [H|H]; discriminate H|vm_compute; tauto]]]|]). destruct I. }
  destruct A as (A & B & C & D). split; [exact A|]. split; [exact B|]. split; [exact C|]. exists T_TEXT. split; [exists T_TEXT; exact D|left; exact D].
Qed.
Lemma text_good name s : In name text_names -> utf8 s -> good (mkProp name [] (Some (Single (VText s)))).
Proof.
  intros I U. destruct (make_ok ctx fl 0 name (PyStr s) None (text_suits name s I)) as (p & w & E & O & _). cbn [make] in E. injection E as <-.
  rewrite text_made in O by exact I. split; [exact O|]. exists (name ++ ":"%char :: escapeTextValue s). split.
  - repeat (destruct I as [<-|I]; [reflexivity|]). destruct I.
  - pose proof (esc_breaks s) as [C L].
    assert (N : (match name with c :: _ => is_space c = false | [] => False end) /\ ~ In CR name /\ ~ In LF name /\ Forall (fun c => (nat_of_ascii c < 128)%nat) name).
    { repeat (destruct I as [<-|I]; [split; [reflexivity|split; [apply cin_in; reflexivity|split; [apply cin_in; reflexivity|]]]; apply Forall_forall; intros c H;
        repeat (destruct H as [<-|H]; [cbn; lia|]); destruct H|]). destruct I. }
    destruct N as (N1 & N2 & N3 & N4). split.
    + split; [destruct name; [destruct N1|exact N1]|]. rewrite !in_app_iff. cbn [In]. split; intros [H|[H|H]]; try tauto; discriminate H.
    + apply utf8_app; [apply utf8_ascii, N4|]. apply (utf8_app [":"%char]); [apply utf8_ascii; constructor; [cbn; lia|constructor]|apply esc_utf8, U].
Qed.

Definition quiet (s : bytes) : Prop := Forall (fun c => (nat_of_ascii c < 128)%nat /\ c <> CR /\ c <> LF) s.
Lemma quiet_app a b : quiet a -> quiet b -> quiet (a ++ b).
Proof. intros A B. apply Forall_app. split; assumption. Qed.
Lemma quiet_fmt w n : 0 <= n -> quiet (fmt0 w n).
Proof.
  intro H. pose proof (fmt0_digits w n H) as D. unfold all_digits in D. apply Forall_forall. intros c I.
  assert (X : is_digit c = true).
  { destruct (fmt0 w n); [destruct I|]. apply (proj1 (forallb_forall _ _) D c I). }
  clear - X. split; [|split]; [|intros ->; discriminate X|intros ->; discriminate X]. unfold is_digit in X. revert X. destruct c as [[] [] [] [] [] [] [] []]; cbn; intro; try discriminate; lia.
Qed.
Lemma quiet_lit s : forallb (fun c => (nat_of_ascii c <? 128)%nat && negb (Ascii.eqb c CR) && negb (Ascii.eqb c LF)) s = true -> quiet s.
Proof.
  intro H. apply Forall_forall. intros c I. rewrite forallb_forall in H. specialize (H c I). apply Bool.andb_true_iff in H as [H L]. apply Bool.andb_true_iff in H as [H C].
  apply Nat.ltb_lt in H. split; [exact H|]. split; intros ->; [discriminate C|discriminate L].
Qed.
Ltac quiet := repeat apply quiet_app; first [apply quiet_fmt; lia | apply quiet_lit; reflexivity].
Lemma quiet_date d : printable d -> in_zone None d -> quiet (getText d).
Proof.
  intros P Z. unfold printable in P. unfold getText. cbv zeta. destruct (mDateOnly d) eqn:D; [quiet|]. destruct Z as [Z|Z]; [congruence|].
  destruct (mTZUTC d); [quiet|]. rewrite Z. quiet.
Qed.
Lemma quiet_line c s : is_space c = false -> quiet (c :: s) -> one_line (c :: s).
Proof.
  intros S Q. split; [split; [exact S|]; split; intro I; destruct (proj1 (Forall_forall _ _) Q _ I) as (_ & A & B); congruence|].
  apply utf8_ascii. revert Q. apply Forall_impl. tauto.
Qed.
Lemma date_good d : printable (adjustToUTC tzo d) -> in_zone None (adjustToUTC tzo d) -> good (date_prop (lit "COMPLETED") (adjustToUTC tzo d)).
Proof.
  pose proof (utc_params tzo d) as PP. cbv zeta in PP. set (d' := adjustToUTC tzo d) in *. intros P Z.
  assert (E : date_prop (lit "COMPLETED") d' = with_value (lit "COMPLETED") (Single (VDateTime d'))) by (unfold date_prop in *; cbn [pParams] in PP; unfold with_value; rewrite PP; reflexivity).
  rewrite E. split.
  - apply with_ok.
    + split; [discriminate|]. split; [split; discriminate|]. split; apply cin_in; reflexivity.
    + apply kept_single; try (cbn; destruct (mDateOnly d'); intros; discriminate); [intro H; vm_compute in H; intuition discriminate|intros [H|H]; discriminate H].
    + split; assumption.
  - exists (lit "COMPLETED" ++ (if mDateOnly d' then lit ";VALUE=DATE" else []) ++ ":"%char :: getText d'). split.
    + unfold with_value, prop_line. cbn [pName pParams pValue value_generate item_generate rbind]. destruct (mDateOnly d') eqn:D; unfold setupValueParameter; cbn; rewrite D; cbn; rewrite ?D; cbn; reflexivity.
    + change (lit "COMPLETED") with ("C"%char :: lit "OMPLETED"). cbn [app]. apply quiet_line; [reflexivity|].
      apply (quiet_app (lit "COMPLETED")); [quiet|]. apply quiet_app; [destruct (mDateOnly d'); quiet|]. apply (quiet_app [":"%char]); [quiet|]. apply quiet_date; assumption.
Qed.

(** ** Properties and components *)
Lemma ok_remove n ps : props_ok ctx fl ps -> props_ok ctx fl (removeProperties n ps).
Proof.
  intros [N F]. split.
  - clear F. induction ps as [|[k l] ps IH]; [exact N|]. cbn [removeProperties map fst] in *. inversion N as [|? ? N1 N2]; subst.
    destruct (beq k n); [exact N2|]. cbn [map fst]. constructor; [|apply IH, N2]. intro I. apply N1. clear - I.
    induction ps as [|[k' l'] ps IH]; [destruct I|]. cbn [removeProperties map fst In] in *. destruct (beq k' n); [right; exact I|]. destruct I as [I|I]; [left; exact I|right; apply IH, I].
  - clear N. induction F as [|[k l] ps F1 F IH]; [constructor|]. cbn [removeProperties]. destruct (beq k n); [exact F|]. constructor; assumption.
Qed.
Lemma ok_add p ps : upper (pName p) <> lit "BEGIN" -> upper (pName p) <> lit "END" -> good p -> props_ok ctx fl ps -> props_ok ctx fl (addProperty p ps).
Proof.
  intros B E G [N F]. unfold addProperty. set (key := upper (pName p)) in *. split; [apply add_NoDup, N|]. clear N.
  induction F as [|[k l] ps (F1 & F2 & F3 & F4) F IH]; cbn [add_prop].
  - constructor; [|constructor]. cbn [fst snd]. split; [exact B|]. split; [exact E|]. split; [discriminate|]. constructor; [|constructor]. split; [reflexivity|exact G].
  - cbn [fst snd] in *. destruct (beq_case k key) as [[-> Q]|[M Q]]; rewrite Q.
    + constructor; [|exact F]. cbn [fst snd]. split; [exact F1|]. split; [exact F2|]. split; [destruct l; discriminate|]. apply Forall_app. split; [exact F4|].
      constructor; [|constructor]. split; [reflexivity|exact G].
    + constructor; [cbn [fst snd]; repeat split; assumption|exact IH].
Qed.
Lemma ok_edit n v ps : In n text_names -> utf8_or_none v -> props_ok ctx fl ps -> props_ok ctx fl (editProperty n v ps).
Proof.
  intros I U P. unfold editProperty. destruct v as [[|c r]|]; try (apply ok_remove, P). rewrite text_made by exact I.
  apply ok_add; cbn [pName]; try (rewrite text_upper by exact I; clear - I; intros ->; vm_compute in I; intuition discriminate); [apply text_good; assumption|apply ok_remove, P].
Qed.
Lemma utf8_word k s : utf8_or_none (status_word k s).
Proof.
  destruct (status_word k s) as [t|] eqn:E; [|exact I]. apply utf8_ascii. apply Forall_impl with (P := fun c => (nat_of_ascii c < 128)%nat /\ c <> CR /\ c <> LF); [tauto|]. apply quiet_lit.
  unfold status_word in E. destruct k; try discriminate E; repeat (match type of E with match ?p with _ => _ end = _ => destruct p; try discriminate E end); injection E as <-; reflexivity.
Qed.
Lemma ok_step k x ps e ps' e' : fair_detail k x -> writable tzo x -> edit_detail tzo k x (ps, e) = ((ps', e'), Ok tt) -> props_ok ctx fl ps -> props_ok ctx fl ps'.
Proof.
  intros F W E P. destruct x as [s|d l|s|d]; cbn [edit_detail fair_detail writable] in *.
  - injection E as <- _. apply ok_edit; [tn|exact W|exact P].
  - injection E as <- _. apply ok_edit; [tn|apply W|]. apply ok_edit; [tn|apply W|exact P].
  - destruct F as [[-> F]|[-> F]].
    + unfold vevent_editStatus in E. destruct (eStatus e =? s); [injection E as <- _; exact P|]. injection E as <- _. rewrite event_word by exact F.
      pose proof (utf8_word VEVENT s) as U. destruct (status_word VEVENT s) as [t|]; [|apply ok_remove, P].
      apply ok_add; try discriminate; [|apply ok_remove, P]. apply text_good; [tn|exact U].
    + unfold vtodo_editStatus in E. destruct (eStatus e =? s); [injection E as <- _; exact P|].
      assert (X : (s =? 3) = false /\ vtodo_text s = status_word VTODO s /\ status_word VTODO s <> None) by (destruct F as [->|[->| ->]]; repeat split; discriminate).
      destruct X as (X1 & X2 & X3). rewrite X1, X2 in E. pose proof (utf8_word VTODO s) as U. destruct (status_word VTODO s) as [t|]; [|congruence]. injection E as <- _.
      apply ok_add; try discriminate; [apply text_good; [tn|exact U]|]. apply ok_remove, ok_remove, P.
  - subst k. injection E as <- _. apply ok_add; try discriminate; [|apply ok_remove, P]. apply date_good; apply W.
Qed.
Lemma ok_steps k l : forall ps e ps' e', Forall (fair_detail k) l -> Forall (writable tzo) l -> edit_details tzo k l (ps, e) = ((ps', e'), Ok tt) -> props_ok ctx fl ps -> props_ok ctx fl ps'.
Proof.
  induction l as [|x l IH]; intros ps e ps' e' F W E P; cbn [edit_details] in E.
  - injection E as <- _. exact P.
  - inversion F; subst. inversion W; subst. destruct (edit_detail tzo k x (ps, e)) as [[ps1 e1] [[]|]] eqn:E1; [|discriminate E].
    eapply IH; [eassumption..|]. eapply ok_step; eassumption.
Qed.
Lemma ok_tidy ps : props_ok ctx fl ps -> tidy_props ps.
Proof. intros [N F]. split; [exact N|]. revert F. apply Forall_impl. intros [k l] (_ & _ & A & B). split; [exact A|]. revert B. apply Forall_impl. intros p [H _]. exact H. Qed.
Lemma cached_kept k ps ps' : is_recur k = true -> getProperties (lit "RECURRENCE-ID") ps' = getProperties (lit "RECURRENCE-ID") ps -> cached_ok k ps -> cached_ok k ps'.
Proof. intros R G. destruct k; try discriminate R; cbn [cached_ok]; rewrite G; tauto. Qed.

Lemma written uuids k s cs cps before after ps subs e l : is_recur k = true ->
  calendar_ok ctx fl (Comp VCALENDAR cs cps (before ++ Comp k s ps subs :: after)) -> in_step k ps e -> Forall (fair_detail k) l -> Forall (writable tzo) l ->
  exists ps' e' text cal c, edit_details tzo k l (ps, e) = ((ps', e'), Ok tt) /\
    generate fl (Comp VCALENDAR cs cps (before ++ Comp k s ps' subs :: after)) = Some (Ok text) /\ parseTextData tzo ctx fl uuids text = Ok (Some cal) /\
    In c (cSubs cal) /\ same_tree (Comp k s ps' subs) c /\ details_rel same_when k e' (details_finalise k (cProps c) newDetails).
Proof.
  intros R (K & P & V & C & T) S F W. cbn [cKind cProps cSubs] in *. apply Forall_app in T as [T1 T2]. inversion T2 as [|? ? T3 T4]; subst.
  inversion T3 as [? ? ? ? H1 H2 H3 H4 H5]; subst.
  destruct (details_steps tzo k l ps e F (ok_tidy _ H2) S) as (ps' & e' & E & S' & _ & KB). exists ps', e'.
  assert (O : props_ok ctx fl ps') by (eapply ok_steps; eassumption).
  assert (CO : cached_ok k ps').
  { apply (cached_kept k ps); [exact R| |exact H3]. apply KB. clear. induction l as [|x l IH]; [intros []|]. cbn [flat_map]. rewrite in_app_iff. intros [H|H]; [|exact (IH H)].
    destruct x; cbn in H; intuition discriminate. }
  assert (TO : tree_ok ctx fl (Comp k s ps' subs)) by (constructor; assumption).
  assert (CAL : calendar_ok ctx fl (Comp VCALENDAR cs cps (before ++ Comp k s ps' subs :: after))).
  { repeat (split; [assumption|]). cbn [cSubs]. apply Forall_app. split; [exact T1|]. constructor; assumption. }
  destruct (calendar_round tzo ctx fl uuids _ CAL) as (text & cal & G & PA & M). pose proof (calendar_same tzo ctx fl _ _ CAL M) as ST.
  exists text, cal. inversion ST as [? ? ? ? ? ? subs' perm PR PM F2]; subst.
  assert (I : In (Comp k s ps' subs) perm) by (eapply Permutation_in; [apply Permutation_sym; exact PM|apply in_or_app; right; left; reflexivity]).
  assert (X : exists c, In c subs' /\ same_tree (Comp k s ps' subs) c).
  { clear - F2 I. induction F2 as [|a b p q Q F2 IH]; [destruct I|]. destruct I as [->|I]; [exists b; split; [left; reflexivity|exact Q]|].
    destruct (IH I) as (c & J & Y). exists c. split; [right; exact J|exact Y]. }
  destruct X as (c & J & Y). exists c. split; [exact E|]. split; [exact G|]. split; [exact PA|]. split; [exact J|]. split; [exact Y|].
  inversion Y; subst. cbn [cProps]. apply (details_read k ps'); assumption.
Qed.
End WithCtx.
