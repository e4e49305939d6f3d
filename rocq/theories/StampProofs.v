(** Proofs for C83. *)
From Coq Require Import Lia.
From Verif Require Import PyBase PyProofs LineModel LineSpec LineProofs TextModel TextSpec TextProofs DateTimeModel DateTimeText DateTimeSpec2 PropertyModel PropertySpec PropertyProofs
  PeriodProofs ComponentModel ComponentSpec ComponentProofs ComponentProofs2 ComponentProofs5 ComponentProofs6 ComponentProofs7 ValidateSpec ValidateProofs DeriveModel MakeModel MakeSpec MakeProofs AlarmModel AlarmSpec AlarmProofs
  StatusModel StatusSpec StatusProofs StatusProofs2 StampModel StampSpec RecurTextProofs LocaleProofs ZoneFileProofs.
From Coq Require Import Sorting.Permutation.

Definition stamp_names : list bytes := [lit "UID"; lit "SEQUENCE"; lit "DTSTAMP"; lit "LAST-MODIFIED"].
(** What each call puts in. *)
Definition put_by (md5 : bytes -> bytes) (ctr : Z) (x : ident_call) : item :=
  match x with
  | CallUID m u => VText (match u with [] => generated_uid md5 m ctr | _ => u end)
  | CallSeq n => VInteger n
  | CallStamp now | CallModified now => VDateTime (getNowUTC now)
  end.
Definition new_prop (md5 : bytes -> bytes) (ctr : Z) (x : ident_call) : prop := mkProp (set_by x) [] (Some (Single (put_by md5 ctr x))).
Section WithMd5.
Variable md5 : bytes -> bytes.
Lemma set_upper x : upper (set_by x) = set_by x.
Proof. destruct x; reflexivity. Qed.
Lemma edit_props k x ps i ctr : exists i' ctr', edit_ident md5 k (ps, i, ctr) x = (replace_prop (set_by x) (new_prop md5 ctr x) ps, i', ctr').
Proof.
  destruct x as [m u|n|now|now]; cbn [edit_ident].
  - do 2 eexists. reflexivity.
  - do 2 eexists. reflexivity.
  - unfold initDTSTAMP. change (date_prop (lit "DTSTAMP") (getNowUTC now)) with (new_prop md5 ctr (CallStamp now)). destruct (is_recur k); [|do 2 eexists; reflexivity].
    destruct (loadDateTime _ _); do 2 eexists; reflexivity.
  - do 2 eexists. reflexivity.
Qed.
Lemma replaced name x ctr ps : tidy_props ps -> getProperties name (replace_prop (set_by x) (new_prop md5 ctr x) ps) = if beq (set_by x) name then [new_prop md5 ctr x] else getProperties name ps.
Proof. intro T. apply get_put; [exact T|reflexivity|apply set_upper]. Qed.
Lemma replaced_self x ctr ps : tidy_props ps -> getProperties (set_by x) (replace_prop (set_by x) (new_prop md5 ctr x) ps) = [new_prop md5 ctr x].
Proof. intro T. rewrite replaced by exact T. rewrite beq_refl. reflexivity. Qed.
Lemma ident_done k x ps i ctr : tidy_props ps -> exists ps' i' ctr', edit_ident md5 k (ps, i, ctr) x = (ps', i', ctr') /\
  tidy_props ps' /\ kept_but [set_by x] ps ps' /\ ident_given k x ps' i i' /\ (ident_step k ps i -> ident_step k ps' i').
Proof.
  intro T. destruct (edit_props k x ps i ctr) as (i' & ctr' & E). rewrite E. set (ps' := replace_prop _ _ _) in *. exists ps', i', ctr'. split; [reflexivity|].
  assert (T' : tidy_props ps') by (apply put_tidy; [exact T|reflexivity|apply set_upper]). split; [exact T'|].
  assert (K : kept_but [set_by x] ps ps').
  { intros n N. unfold ps'. rewrite replaced by exact T. destruct (beq_case (set_by x) n) as [[<- _]|[_ ->]]; [|reflexivity]. exfalso. apply N. left. reflexivity. }
  split; [exact K|]. pose proof (replaced_self x ctr ps T) as G. fold ps' in G.
  assert (L : forall A (g : option value -> option A) n, n <> set_by x -> load g n ps' = load g n ps).
  { intros A g n N. apply load_get, K. intros [H|[]]. congruence. }
  destruct x as [m u|n|now|now]; cbn [edit_ident set_by] in *.
  - unfold set_uid in E. injection E as <- _. split.
    + split; [reflexivity|]. cbn. repeat (split; [reflexivity|]). split; [exact G|]. intro N. destruct u; [congruence|reflexivity].
    + intros (A & B & C). unfold ident_step, ident_rel, ident_finalise, loadString, loadInteger, loadDateTime in *. rewrite !(L _ integer_of (lit "SEQUENCE")), !(L _ datetime_of (lit "DTSTAMP")) by discriminate.
      assert (Q : load text_of (lit "UID") ps' = text_of (Some (Single (put_by md5 ctr (CallUID m u))))) by (unfold load, findFirstProperty; rewrite G; reflexivity). rewrite Q.
      destruct (is_recur k); [destruct (load datetime_of (lit "DTSTAMP") ps)|]; cbn in *; (split; [reflexivity|]; split; [exact B|exact C]).
  - unfold setSeq in E. injection E as <- _. split.
    + split; [reflexivity|]. cbn. repeat (split; [reflexivity|]). split; [exact G|reflexivity].
    + intros (A & B & C). unfold ident_step, ident_rel, ident_finalise, loadString, loadInteger, loadDateTime in *. rewrite !(L _ text_of (lit "UID")), !(L _ datetime_of (lit "DTSTAMP")) by discriminate.
      assert (Q : load integer_of (lit "SEQUENCE") ps' = Some n) by (unfold load, findFirstProperty; rewrite G; reflexivity). rewrite Q.
      destruct (is_recur k); [destruct (load datetime_of (lit "DTSTAMP") ps)|]; cbn in *; (split; [exact A|]; split; [reflexivity|exact C]).
  - unfold initDTSTAMP in E. change (date_prop (lit "DTSTAMP") (getNowUTC now)) with (new_prop md5 ctr (CallStamp now)) in E. cbv zeta in E. change (replace_prop _ _ ps) with ps' in E.
    assert (D : loadDateTime (lit "DTSTAMP") ps' = Some (getNowUTC now)) by (unfold loadDateTime, load, findFirstProperty; rewrite G; reflexivity). rewrite D in E.
    assert (IS : i' = if is_recur k then mkIdent (iUID i) (iSeq i) (iOriginal i) true (getNowUTC now) else i) by (destruct (is_recur k); injection E as <- _; reflexivity). subst i'. split.
    + split; [destruct (is_recur k); reflexivity|]. split; [destruct (is_recur k); reflexivity|]. split; [destruct (is_recur k); reflexivity|].
      exists (getNowUTC now). split; [repeat split|]. split; [exact G|]. destruct (is_recur k); split; reflexivity.
    + intros (A & B & C). unfold ident_step, ident_rel, ident_finalise in *. rewrite D. unfold loadString, loadInteger in *. rewrite !(L _ integer_of (lit "SEQUENCE")), !(L _ text_of (lit "UID")) by discriminate.
      destruct (is_recur k) eqn:R; [|split; [exact A|split; [exact B|congruence]]]. cbn [iUID iSeq] in *.
      destruct (loadDateTime (lit "DTSTAMP") ps); cbn in *; (split; [exact A|]; split; [exact B|]; intros _; split; reflexivity).
  - unfold updateLastModified in E. injection E as <- _. split.
    + split; [reflexivity|]. split; [reflexivity|]. exists (getNowUTC now). split; [repeat split|exact G].
    + unfold ident_step, ident_finalise, loadString, loadInteger, loadDateTime. rewrite !(L _ integer_of (lit "SEQUENCE")), !(L _ text_of (lit "UID")), !(L _ datetime_of (lit "DTSTAMP")) by discriminate. tauto.
Qed.
Lemma idents_done k l : forall ps i ctr, tidy_props ps -> exists ps' i' ctr', edit_idents md5 k l (ps, i, ctr) = (ps', i', ctr') /\
  tidy_props ps' /\ kept_but (map set_by l) ps ps' /\ iOriginal i' = iOriginal i /\ (ident_step k ps i -> ident_step k ps' i').
Proof.
  unfold edit_idents. induction l as [|x l IH]; intros ps i ctr T; cbn [fold_left map].
  - exists ps, i, ctr. split; [reflexivity|]. split; [exact T|]. split; [intros n _; reflexivity|]. split; [reflexivity|tauto].
  - destruct (ident_done k x ps i ctr T) as (ps1 & i1 & ctr1 & -> & T1 & K1 & [O1 _] & S1). destruct (IH ps1 i1 ctr1 T1) as (ps2 & i2 & ctr2 & E & T2 & K2 & O2 & S2).
    exists ps2, i2, ctr2. split; [exact E|]. split; [exact T2|]. split; [|split; [congruence|auto]].
    intros n N. cbn [In] in N. rewrite K2 by tauto. apply K1. intros [H|[]]. tauto.
Qed.
Lemma ident_read k ps ps' i : same_props ps ps' -> ident_step k ps i -> ident_rel same_when k i (ident_finalise k ps' newIdent).
Proof.
  intros G (A & B & C). unfold ident_rel. rewrite <- A, <- B. unfold ident_finalise in *. rewrite !(string_rel _ _ _ G), !(integer_rel _ _ _ G).
  destruct (is_recur k); [|split; [reflexivity|]; split; [reflexivity|discriminate]]. pose proof (datetime_rel (lit "DTSTAMP") _ _ G) as D.
  destruct (C eq_refl) as [C1 C2].
  destruct (loadDateTime (lit "DTSTAMP") ps) as [d|], (loadDateTime (lit "DTSTAMP") ps') as [d'|]; cbn [opt_rel] in D; try contradiction; cbn in *; (split; [reflexivity|]; split; [reflexivity|]); intros _;
    rewrite <- C1; (split; [reflexivity|]); [|discriminate]. intros _. rewrite <- C2 by reflexivity. exact D.
Qed.

(** ** UIDs that are made *)
Lemma hex_utf8 s : digests md5 -> utf8 (md5 s).
Proof.
  intro D. apply utf8_ascii. generalize (D s). apply Forall_impl. intros c I. repeat (destruct I as [<-|I]; [cbn; lia|]). destruct I.
Qed.
Lemma made_utf8 m ctr : digests md5 -> utf8 (generated_uid md5 m ctr).
Proof.
  intro D. unfold generated_uid. apply utf8_app; [apply hex_utf8, D|]. apply utf8_app; [|apply hex_utf8, D]. apply utf8_ascii. constructor; [cbn; lia|constructor].
Qed.
Lemma split_at_sign a b c d : ~ In "@"%char a -> ~ In "@"%char c -> a ++ "@"%char :: b = c ++ "@"%char :: d -> a = c.
Proof.
  revert c. induction a as [|x a IH]; intros [|y c] A C E; [reflexivity| | |].
  - exfalso. injection E as E _. apply C. left. symmetry. exact E.
  - exfalso. injection E as E _. apply A. left. exact E.
  - injection E as -> E. f_equal. apply IH; [intro H; apply A; right; exact H|intro H; apply C; right; exact H|exact E].
Qed.
Lemma no_at s : digests md5 -> ~ In "@"%char (md5 s).
Proof. intros D I. generalize (proj1 (Forall_forall _ _) (D s) _ I). intro H. repeat (destruct H as [H|H]; [discriminate H|]). destruct H. Qed.
Lemma last_dot a b c d : ~ In "."%char b -> ~ In "."%char d -> a ++ "."%char :: b = c ++ "."%char :: d -> b = d.
Proof.
  revert c. induction a as [|x a IH]; intros [|y c] B D E; cbn [app] in E.
  - injection E as E. exact E.
  - exfalso. injection E as _ E. apply B. rewrite E. apply in_or_app. right. left. reflexivity.
  - exfalso. injection E as _ E. apply D. rewrite <- E. apply in_or_app. right. left. reflexivity.
  - injection E as _ E. exact (IH c B D E).
Qed.
Lemma no_dot n : ~ In "."%char (pystr n).
Proof. apply cin_in. apply pystr_cin; [reflexivity|discriminate]. Qed.
Definition left_text (m : moment) (ctr : Z) : bytes := clock_text m ++ lit "." ++ pystr (pid m) ++ lit "." ++ pystr ctr.
Lemma made_apart m ctr m' ctr' : digests md5 -> (md5 (left_text m ctr) = md5 (left_text m' ctr') -> left_text m ctr = left_text m' ctr') ->
  generated_uid md5 m ctr = generated_uid md5 m' ctr' -> ctr = ctr'.
Proof.
  intros D J E. unfold generated_uid in E. fold (left_text m ctr) in E. fold (left_text m' ctr') in E. apply split_at_sign in E; [|apply no_at, D..]. apply J in E. unfold left_text in E.
  cbn [lit list_ascii_of_string app] in E.
  assert (R : forall a b c, a ++ "."%char :: (b ++ "."%char :: c) = (a ++ "."%char :: b) ++ "."%char :: c) by (intros; rewrite <- app_assoc; reflexivity).
  assert (E' : (clock_text m ++ "."%char :: pystr (pid m)) ++ "."%char :: pystr ctr = (clock_text m' ++ "."%char :: pystr (pid m')) ++ "."%char :: pystr ctr') by (rewrite <- !R; exact E).
  apply last_dot in E'; [|apply no_dot..]. apply pystr_inj, E'.
Qed.
Lemma made_later l : forall ctr u, In u (made_uids md5 l ctr) -> exists m n, ctr <= n /\ u = generated_uid md5 m n /\ In (left_text m n) (hashed l ctr).
Proof.
  induction l as [|[m [[ps i] c]] l IH]; intros ctr u I; [destruct I|]. cbn in I. destruct I as [<-|I]; [exists m, ctr; split; [lia|split; [reflexivity|left; reflexivity]]|].
  destruct (IH _ _ I) as (m' & n & A & B & C). exists m', n. split; [lia|]. split; [exact B|right; exact C].
Qed.
Lemma made_nodup l : digests md5 -> forall ctr, (forall s t, In s (hashed l ctr) -> In t (hashed l ctr) -> md5 s = md5 t -> s = t) -> NoDup (made_uids md5 l ctr).
Proof.
  intro D. induction l as [|[m [[ps i] c]] l IH]; intros ctr J; [constructor|]. cbn. constructor; [|apply IH; intros s t S T; apply J; right; assumption].
  intro I. destruct (made_later _ _ _ I) as (m' & n & A & B & C). apply made_apart in B; [lia|exact D|]. apply J; [left; reflexivity|right; exact C].
Qed.
End WithMd5.

(** ** Writing *)
Section WithCtx.
Variables (tzo : tzid -> Z -> Z -> Z -> Z -> Z -> Z -> bool -> bool -> Z) (ctx : pctx) (fl : floats) (md5 : bytes -> bytes).
Lemma now_printable now : clock_ok now -> printable (getNowUTC now).
Proof. unfold clock_ok, printable. cbn. lia. Qed.
Lemma new_good ctr x : digests md5 -> call_writable x -> good ctx fl (new_prop md5 ctr x).
Proof.
  intros D W. destruct x as [m u|n|now|now]; cbn [new_prop set_by put_by call_writable] in *.
  - set (v := match u with [] => generated_uid md5 m ctr | _ => u end). assert (U : utf8 v) by (unfold v; destruct u; [apply made_utf8, D|exact W]).
    assert (S : suits ctx (lit "UID") (PyStr v) None).
    { split; [split; [discriminate|split; [split; discriminate|split; apply cin_in; reflexivity]]|]. split; [intro H; vm_compute in H; intuition discriminate|]. split; [intros [H|H]; discriminate H|].
      exists T_TEXT. assert (A : In (upper (lit "UID")) (names_with T_TEXT)) by (vm_compute; tauto). split; [exists T_TEXT; exact A|left; exact A]. }
    destruct (make_ok ctx fl 0 (lit "UID") (PyStr v) None S) as (p & w & E & O & _). cbn [make] in E. injection E as <-.
    split; [exact O|]. exists (lit "UID" ++ ":"%char :: escapeTextValue v). split; [reflexivity|]. pose proof (esc_breaks v) as [C L]. split.
    + split; [reflexivity|]. rewrite !in_app_iff. cbn [In]. split; intros [H|[H|H]]; try tauto; try discriminate H; repeat (destruct H as [H|H]; [discriminate H|]); destruct H.
    + apply (utf8_app (lit "UID:")); [|apply esc_utf8, U]. apply utf8_ascii. repeat (constructor; [cbn; lia|]). constructor.
  - assert (S : suits ctx (lit "SEQUENCE") (PyInt n) None).
    { split; [split; [discriminate|split; [split; discriminate|split; apply cin_in; reflexivity]]|]. split; [intro H; vm_compute in H; intuition discriminate|]. intros [H|H]; discriminate H. }
    destruct (make_ok ctx fl 0 (lit "SEQUENCE") (PyInt n) None S) as (p & w & E & O & _). cbn [make] in E. injection E as <-.
    split; [exact O|]. exists (lit "SEQUENCE" ++ ":"%char :: pystr n). split; [reflexivity|].
    change (lit "SEQUENCE") with ("S"%char :: lit "EQUENCE"). cbn [app]. apply quiet_line; [reflexivity|].
    apply (quiet_app (lit "SEQUENCE:")); [apply quiet_lit; reflexivity|apply quiet_pystr].
  - apply now_printable in W. set (d := getNowUTC now) in *. split.
    + apply (with_ok ctx fl (lit "DTSTAMP") (Single (VDateTime d))); [split; [discriminate|]; split; [split; discriminate|]; split; apply cin_in; reflexivity| |split; [assumption|right; reflexivity]].
      apply kept_single; try (cbn; intros; discriminate); [intro H; vm_compute in H; intuition discriminate|intros [H|H]; discriminate H].
    + exists (lit "DTSTAMP" ++ ":"%char :: getText d). split; [reflexivity|]. change (lit "DTSTAMP") with ("D"%char :: lit "TSTAMP"). cbn [app]. apply quiet_line; [reflexivity|].
      apply (quiet_app (lit "DTSTAMP:")); [apply quiet_lit; reflexivity|]. apply quiet_date; [exact W|right; reflexivity].
  - apply now_printable in W. set (d := getNowUTC now) in *. split.
    + apply (with_ok ctx fl (lit "LAST-MODIFIED") (Single (VDateTime d))); [split; [discriminate|]; split; [split; discriminate|]; split; apply cin_in; reflexivity| |split; [assumption|right; reflexivity]].
      apply kept_single; try (cbn; intros; discriminate); [intro H; vm_compute in H; intuition discriminate|intros [H|H]; discriminate H].
    + exists (lit "LAST-MODIFIED" ++ ":"%char :: getText d). split; [reflexivity|]. change (lit "LAST-MODIFIED") with ("L"%char :: lit "AST-MODIFIED"). cbn [app]. apply quiet_line; [reflexivity|].
      apply (quiet_app (lit "LAST-MODIFIED:")); [apply quiet_lit; reflexivity|]. apply quiet_date; [exact W|right; reflexivity].
Qed.
Lemma ok_idents k l : forall ps i ctr ps' i' ctr', digests md5 -> Forall call_writable l -> edit_idents md5 k l (ps, i, ctr) = (ps', i', ctr') -> props_ok ctx fl ps -> props_ok ctx fl ps'.
Proof.
  unfold edit_idents. induction l as [|x l IH]; intros ps i ctr ps' i' ctr' D W E P; cbn [fold_left] in E.
  - injection E as <- _ _. exact P.
  - inversion W; subst. destruct (edit_props md5 k x ps i ctr) as (i1 & c1 & E1). rewrite E1 in E. eapply IH; [exact D|eassumption|exact E|].
    apply ok_add; [destruct x; discriminate|destruct x; discriminate|apply new_good; assumption|apply ok_remove, P].
Qed.
Lemma idents_written uuids k s cs cps before after ps subs i ctr l : is_recur k = true -> digests md5 ->
  calendar_ok ctx fl (Comp VCALENDAR cs cps (before ++ Comp k s ps subs :: after)) -> ident_step k ps i -> Forall call_writable l ->
  exists ps' i' ctr' text cal c, edit_idents md5 k l (ps, i, ctr) = (ps', i', ctr') /\
    generate fl (Comp VCALENDAR cs cps (before ++ Comp k s ps' subs :: after)) = Some (Ok text) /\ parseTextData tzo ctx fl uuids text = Ok (Some cal) /\
    In c (cSubs cal) /\ same_tree (Comp k s ps' subs) c /\ ident_rel same_when k i' (ident_finalise k (cProps c) newIdent).
Proof.
  intros R D (K & P & V & C & T) S W. cbn [cKind cProps cSubs] in *. apply Forall_app in T as [T1 T2]. inversion T2 as [|? ? T3 T4]; subst.
  inversion T3 as [? ? ? ? H1 H2 H3 H4 H5]; subst.
  destruct (idents_done md5 k l ps i ctr (ok_tidy ctx fl _ H2)) as (ps' & i' & ctr' & E & _ & KB & _ & S'). specialize (S' S). exists ps', i', ctr'.
  assert (O : props_ok ctx fl ps') by (eapply ok_idents; eassumption).
  assert (CO : cached_ok k ps').
  { apply (cached_kept k ps); [exact R| |exact H3]. apply KB. clear. intro H. apply in_map_iff in H as (x & H & _). destruct x; discriminate H. }
  assert (TO : tree_ok ctx fl (Comp k s ps' subs)) by (constructor; assumption).
  assert (CAL : calendar_ok ctx fl (Comp VCALENDAR cs cps (before ++ Comp k s ps' subs :: after))).
  { repeat (split; [assumption|]). cbn [cSubs]. apply Forall_app. split; [exact T1|]. constructor; assumption. }
  destruct (calendar_round tzo ctx fl uuids _ CAL) as (text & cal & G & PA & M). pose proof (calendar_same tzo ctx fl _ _ CAL M) as ST.
  exists text, cal. inversion ST as [? ? ? ? ? ? subs' perm PR PM F2]; subst.
  assert (I : In (Comp k s ps' subs) perm) by (eapply Permutation_in; [apply Permutation_sym; exact PM|apply in_or_app; right; left; reflexivity]).
  assert (X : exists c, In c subs' /\ same_tree (Comp k s ps' subs) c).
  { clear - F2 I. induction F2 as [|a b p q Q F2 IH]; [destruct I|]. destruct I as [->|I]; [exists b; split; [left; reflexivity|exact Q]|].
    destruct (IH I) as (c & J & Y). exists c. split; [right; exact J|exact Y]. }
  destruct X as (c & J & Y). exists c. split; [exact E|]. split; [exact G|]. split; [exact PA|]. split; [exact J|]. split; [exact Y|].
  inversion Y; subst. cbn [cProps]. apply (ident_read k ps'); assumption.
Qed.
End WithCtx.
