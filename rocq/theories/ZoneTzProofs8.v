(** Proofs about the VTIMEZONE components written by the tz compiler: RDATEs put together, and all components. *)
From Coq Require Import Lia ZifyBool ZifyNat Sorting.Permutation Sorting.Sorted.
From Verif Require Import PyBase PyProofs CalModel CalSpec DateTimeModel DateTimeSpec DateTimeSpec2 CalProofs DateTimeProofs DateTimeProofs2
  DateTimeProofs3 DateTimeProofs4 PeriodSpec PeriodProofs RecurModel RecurSpec RecurExpand RecurExpandSpec RecurSetSpec RecurTextProofs2 RecurSimpleProofs RecurByPartsSpec RecurByPartsProofs3
  RecurSetModel RecurUnionSpec VTimezoneModel VTimezoneSpec
  ZonalModel ZonalProofs ZonalProofs2 ZonalProofs4 ZoneTzModel ZoneTzSpec ZoneProofs ZoneProofs2 ZoneTzProofs ZoneTzProofs2 ZoneTzProofs3 ZoneTzProofs4 ZoneTzProofs5 ZoneTzProofs6 ZoneTzProofs7.
Ltac Zify.zify_post_hook ::= Z.div_mod_to_equations.

Definition at_time (d : dt) : Prop := instant local_time d (civil d).
(** Components with RDATEs only, none before DTSTART. *)
Definition dated (s : sub) : Prop := sbRule s = None /\ sbDates s <> [] /\ at_time (sbStart s) /\ Forall (fun d => at_time d /\ civil (sbStart s) <= civil d) (sbDates s).
Definition ruled (s : sub) : Prop := sbDates s = [] /\ at_time (sbStart s) /\
  exists m rr u, (plain m rr /\ 1 <= m <= 12) /\ sbRule s = Some (untiled rr u) /\ match u with Some u => exists c, instant (InZone true TzNone) u c | None => True end.
Lemma similar_iff a b : similar a b = true <-> sbDay a = sbDay b /\ sbName a = sbName b /\ sbTo a = sbTo b /\ sbFrom a = sbFrom b.
Proof. unfold similar. rewrite !andb_true_iff, Bool.eqb_true_iff, beq_eq, !Z.eqb_eq. tauto. Qed.
Lemma dated_onset s x g h : dated s -> (onset_of (elem_of s) x g h <-> g = sbFrom s /\ h = sbTo s /\ (x = civil (sbStart s) \/ exists d, In d (sbDates s) /\ x = civil d)).
Proof.
  intros (R & _ & I & F). rewrite Forall_forall in F. unfold onset_of, elem_of. cbn [eFrom eTo eStart eRec sRrules sRdates]. rewrite R. split.
  - intros (-> & -> & a & Ia & _ & H). split; [reflexivity|]. split; [reflexivity|]. destruct H as [->|[(r & c & [] & _)|(d & Hd & Id)]]; [left; apply instant_T; exact Ia|].
    right. exists d. split; [exact Hd|apply instant_T; exact Id].
  - intros (-> & -> & H). split; [reflexivity|]. split; [reflexivity|]. exists (civil (sbStart s)). split; [exact I|].
    destruct H as [->|(d & Hd & ->)]; [split; [lia|left; reflexivity]|]. destruct (F d Hd) as [Id Ld]. split; [exact Ld|]. right. right. exists d. split; [exact Hd|exact Id].
Qed.
Definition merged (a b : sub) : sub := mkSub (sbDay a) (sbFrom a) (sbTo a) (sbName a) (sbStart a) (sbRule a) (sbDates a ++ sbDates b).
Lemma merge_some b l l' : merge_into b l = Some l' -> exists l1 a l2, l = l1 ++ a :: l2 /\ l' = l1 ++ merged a b :: l2 /\ has_rdate a = true /\ similar a b = true.
Proof.
  revert l'. induction l as [|a l IH]; intros l' H; [discriminate H|]. cbn [merge_into] in H. destruct (has_rdate a && similar a b) eqn:E.
  - injection H as <-. apply andb_true_iff in E as [E1 E2]. exists [], a, l. auto.
  - destruct (merge_into b l) as [k|] eqn:M; [|discriminate H]. injection H as <-. destruct (IH k eq_refl) as (l1 & c & l2 & -> & -> & P & Q). exists (a :: l1), c, l2. auto.
Qed.
Lemma merged_dated a b : dated a -> dated b -> sbDates b = [sbStart b] -> civil (sbStart a) <= civil (sbStart b) -> dated (merged a b).
Proof.
  intros (Ra & Na & Ia & Fa) (Rb & _ & Ib & Fb) Eb L. split; [exact Ra|]. split; [cbn [merged sbDates]; destruct (sbDates a); [congruence|discriminate]|]. split; [exact Ia|].
  cbn [merged sbDates sbStart]. apply Forall_app. split; [exact Fa|]. rewrite Eb. constructor; [|constructor]. auto.
Qed.
Lemma has_rdate_iff s : has_rdate s = true <-> sbDates s <> [].
Proof. unfold has_rdate. destruct (sbDates s); split; congruence || discriminate. Qed.
Definition fine_sub (s : sub) : Prop := ruled s \/ dated s.
Definition fresh_sub (s : sub) : Prop := ruled s \/ (dated s /\ sbDates s = [sbStart s]).
Definition ordered_subs (a b : sub) : Prop := has_rdate a = true -> has_rdate b = true -> similar a b = true -> civil (sbStart a) <= civil (sbStart b).
Lemma announces_app a b x f g day name : announces (a ++ b) x f g day name <-> announces a x f g day name \/ announces b x f g day name.
Proof.
  unfold announces. split.
  - intros (s & H & R). apply in_app_or in H as [H|H]; eauto.
  - intros [(s & H & R)|(s & H & R)]; exists s; (split; [apply in_or_app; auto|exact R]).
Qed.
Lemma fine_dated s : fine_sub s -> has_rdate s = true -> dated s.
Proof. intros [(E & _)|D] H; [|exact D]. apply has_rdate_iff in H. congruence. Qed.
Lemma compress_spec rest : forall done, Forall fine_sub done -> Forall fresh_sub rest -> (forall a b, In a done -> In b rest -> ordered_subs a b) -> ForallOrdPairs ordered_subs rest ->
  Forall fine_sub (compress done rest) /\ forall x f g day name, announces (compress done rest) x f g day name <-> announces (done ++ rest) x f g day name.
Proof.
  induction rest as [|b rest IH]; intros done Fd Fr H O; cbn [compress]; [rewrite app_nil_r; split; [exact Fd|tauto]|].
  inversion Fr as [|? ? Fb Fr']; subst. inversion O as [|? ? Ob O']; subst. rewrite Forall_forall in Ob.
  assert (App : Forall fine_sub (compress (done ++ [b]) rest) /\ forall x f g day name, announces (compress (done ++ [b]) rest) x f g day name <-> announces (done ++ b :: rest) x f g day name).
  { destruct (IH (done ++ [b])) as [A B]; auto.
    - apply Forall_app. split; [exact Fd|]. constructor; [|constructor]. destruct Fb as [R|[D _]]; [left; exact R|right; exact D].
    - intros a c Ha Hc. apply in_app_or in Ha as [Ha|[<-|[]]]; [apply H; [exact Ha|right; exact Hc]|apply Ob; exact Hc].
    - split; [exact A|]. intros. rewrite B, <- app_assoc. reflexivity. }
  destruct (has_rdate b) eqn:Hb; [|exact App]. destruct (merge_into b done) as [d|] eqn:M; [|exact App]. clear App.
  apply merge_some in M as (l1 & a & l2 & -> & -> & Ha & Sm).
  assert (Db : dated b /\ sbDates b = [sbStart b]). { destruct Fb as [(E & _)|D]; [|exact D]. apply has_rdate_iff in Hb. congruence. }
  destruct Db as [Db Eb]. apply Forall_app in Fd as [F1 F2]. inversion F2 as [|? ? Fa F2']; subst. pose proof (fine_dated a Fa Ha) as Da.
  assert (L : civil (sbStart a) <= civil (sbStart b)) by (apply (H a b); [apply in_or_app; right; left; reflexivity|left; reflexivity|exact Ha|exact Hb|exact Sm]).
  pose proof (merged_dated a b Da Db Eb L) as Dm. destruct (IH (l1 ++ merged a b :: l2)) as [A B]; auto.
  - apply Forall_app. split; [exact F1|]. constructor; [right; exact Dm|exact F2'].
  - intros c e Hc He. apply in_app_or in Hc as [Hc|[<-|Hc]]; [apply H; [apply in_or_app; left; exact Hc|right; exact He]| |apply H; [apply in_or_app; right; right; exact Hc|right; exact He]].
    intros _ He' Sm'. apply (H a e); [apply in_or_app; right; left; reflexivity|right; exact He|exact Ha|exact He'|exact Sm'].
  - split; [exact A|]. intros x f g day name. rewrite B. rewrite !announces_app. change (announces (merged a b :: l2)) with (announces ([merged a b] ++ l2)). change (announces (a :: l2)) with (announces ([a] ++ l2)).
    change (announces (b :: rest)) with (announces ([b] ++ rest)). rewrite !announces_app.
    assert (E : announces [merged a b] x f g day name <-> announces [a] x f g day name \/ announces [b] x f g day name).
    { apply similar_iff in Sm as (S1 & S2 & S3 & S4). unfold announces. split.
      - intros (s & [<-|[]] & On & <- & <-). apply dated_onset in On as (-> & -> & X); [|exact Dm]. cbn [merged sbFrom sbTo sbDay sbName sbStart sbDates] in *.
        destruct X as [->|(d & Hd & ->)]; [left; exists a; split; [left; reflexivity|]; split; [apply dated_onset; auto|auto]|]. apply in_app_or in Hd as [Hd|Hd].
        + left. exists a. split; [left; reflexivity|]. split; [apply dated_onset; [exact Da|]; eauto 10|auto].
        + right. exists b. split; [left; reflexivity|]. split; [apply dated_onset; [exact Db|]; rewrite S3, S4; eauto 10|auto].
      - intros [(s & [<-|[]] & On & <- & <-)|(s & [<-|[]] & On & <- & <-)].
        + exists (merged a b). split; [left; reflexivity|]. split; [|auto]. apply dated_onset in On as (-> & -> & X); [|exact Da]. apply dated_onset; [exact Dm|]. cbn [merged sbFrom sbTo sbStart sbDates].
          split; [reflexivity|]. split; [reflexivity|]. destruct X as [->|(d & Hd & ->)]; [left; reflexivity|right; exists d; split; [apply in_or_app; left; exact Hd|reflexivity]].
        + exists (merged a b). split; [left; reflexivity|]. split; [|cbn; auto]. apply dated_onset in On as (-> & -> & X); [|exact Db]. apply dated_onset; [exact Dm|]. cbn [merged sbFrom sbTo sbStart sbDates].
          split; [auto|]. split; [auto|]. right. cbn [merged sbDates]. destruct X as [->|(d & Hd & ->)]; [exists (sbStart b)|exists d]; (split; [apply in_or_app; right|reflexivity]); [rewrite Eb; left; reflexivity|exact Hd]. }
    rewrite E. tauto.
Qed.
Lemma compress_keeps (P : sub -> Prop) : (forall a b, P a -> P b -> similar a b = true -> P (merged a b)) -> forall rest done, Forall P done -> Forall P rest -> Forall P (compress done rest).
Proof.
  intro M. induction rest as [|b rest IH]; intros done D R; cbn [compress]; [exact D|]. inversion R as [|? ? Pb R']; subst.
  assert (App : Forall P (compress (done ++ [b]) rest)) by (apply IH; [apply Forall_app; split; [exact D|constructor; [exact Pb|constructor]]|exact R']).
  destruct (has_rdate b); [|exact App]. destruct (merge_into b done) as [d|] eqn:E; [|exact App]. apply merge_some in E as (l1 & a & l2 & -> & -> & _ & S).
  apply Forall_app in D as [D1 D2]. inversion D2; subst. apply IH; [|exact R']. apply Forall_app. split; [exact D1|]. constructor; [apply M; assumption|assumption].
Qed.
(** The times of a component are those of changes. *)
Definition from_changes (cs : list change) (s : sub) : Prop :=
  Forall (fun d => exists c, In c cs /\ d = chAt c /\ sbFrom s = chFrom c /\ sbTo s = chTo c /\ called c (sbDay s) (sbName s)) (sbStart s :: sbDates s) /\
  forall r u, sbRule s = Some r -> rUntil r = Some u -> exists c x, In c cs /\ instant local_time (chAt c) x /\ instant (InZone true TzNone) u (x + - sbFrom s).
Lemma merged_changes cs a b : from_changes cs a -> from_changes cs b -> similar a b = true -> from_changes cs (merged a b).
Proof.
  unfold from_changes. intros (Fa & U) (Fb & _) S. apply similar_iff in S as (S1 & S2 & S3 & S). inversion Fa as [|? ? A1 A2]; inversion Fb as [|? ? B1 B2]; subst. cbn [merged sbStart sbDates sbFrom sbTo sbDay sbName sbRule]. split; [|exact U]. constructor; [exact A1|].
  apply Forall_app. split; [exact A2|]. rewrite S, S1, S2, S3. exact B2.
Qed.
Section WithTz.
Variable tzo : tzid -> Z -> Z -> Z -> Z -> Z -> Z -> bool -> bool -> Z.
Lemma written_fresh maxN run s : written maxN run s -> (forall c, In c run -> at_time (chAt c)) -> fresh_sub s.
Proof.
  intros (_ & _ & [(c & -> & ->)|(c & t & m & rr & u & -> & _ & P & -> & Hu & x & I)]) A.
  - right. split; [|reflexivity]. pose proof (A c (or_introl eq_refl)). split; [reflexivity|]. split; [discriminate|]. split; [assumption|]. constructor; [split; [assumption|cbn; lia]|constructor].
  - left. split; [reflexivity|]. split; [apply A; left; reflexivity|]. exists m, rr, u. split; [exact P|]. split; [reflexivity|]. destruct u; [destruct Hu as (e & y & _ & _ & Iu); eauto|exact Logic.I].
Qed.
Lemma written_order maxN r s r' s' : written maxN r s -> written maxN r' s' -> follows r r' -> ordered_subs s s'.
Proof.
  intros (C & _ & D) (C' & _ & D') F H H' Sm. apply similar_iff in Sm as (S1 & S2 & S3 & S4).
  destruct D as [(c & -> & E)|(c & t & m & rr & u & -> & _ & _ & E & _)]; [|rewrite E in H; discriminate H].
  destruct D' as [(d & -> & E')|(d & t & m & rr & u & -> & _ & _ & E' & _)]; [|rewrite E' in H'; discriminate H'].
  destruct (C c (or_introl eq_refl)) as (Cc & F1 & T1), (C' d (or_introl eq_refl)) as (Cd & F2 & T2). rewrite E, E'. cbn [rdate_sub sbStart].
  apply (F c d (sbDay s) (sbName s)); auto; congruence.
Qed.
Lemma called_one c x day name day' name' : instant local_time (chAt c) x -> called c day name -> called c day' name' -> day = day' /\ name = name'.
Proof.
  intros I C C'. destruct (chRule c) as [r|] eqn:E.
  - pose proof (single_component tzo r _ c 0 x _ _ I E eq_refl C) as P. rewrite (single_component tzo r _ c 0 x _ _ I E eq_refl C') in P. injection P as -> ->. auto.
  - pose proof (start_component _ c x _ _ I E eq_refl C) as P. rewrite (start_component _ c x _ _ I E eq_refl C') in P. injection P as -> ->. auto.
Qed.
Lemma f2_in_l {A B} (R : A -> B -> Prop) l m x : Forall2 R l m -> In x l -> exists y, In y m /\ R x y.
Proof. intro F. induction F as [|a b l m H F IH]; intros []; [subst; exists b; split; [left; reflexivity|assumption]|]. destruct (IH H0) as (y & I & X). exists y. split; [right; exact I|exact X]. Qed.
Lemma f2_fop {A B} (W : A -> B -> Prop) (Q : A -> A -> Prop) (R : B -> B -> Prop) l m : Forall2 W l m -> ForallOrdPairs Q l -> (forall a a' b b', W a b -> W a' b' -> Q a a' -> R b b') -> ForallOrdPairs R m.
Proof.
  intros F O H. induction F as [|a b l m Wa F IH]; [constructor|]. inversion O as [|? ? Oa O']; subst. constructor; [|apply IH; exact O']. apply Forall_forall. intros b' Hb'.
  apply (f2_in W l m b' F) in Hb' as (a' & Ha' & Wa'). rewrite Forall_forall in Oa. eapply H; eauto.
Qed.
Theorem vtimezone_spec zn rules minYear maxYear maxN lmt cs : 1901 <= maxYear -> new_year maxYear maxN ->
  zone_expand tzo zn rules minYear maxYear = Ok (lmt ++ cs) -> writable maxYear lmt cs ->
  exists subs, zone_vtimezone tzo zn rules minYear maxYear = Ok subs /\ Forall fine_sub subs /\ Forall (from_changes cs) subs /\
  forall x from to day name, x < maxN ->
    (announces subs x from to day name <-> exists c, In c cs /\ instant local_time (chAt c) x /\ chFrom c = from /\ chTo c = to /\ called c day name).
Proof.
  intros HM NY Ee (Lm & NL & Cl & O & Tg & Rg & It). unfold zone_vtimezone. rewrite Ee. cbn [rbind]. destruct (blocks cs) as (bs & B).
  destruct (subs_lmt tzo lmt cs None Lm) as (last & El). rewrite El.
  destruct (zone_subs_spec tzo maxYear maxN cs bs HM NY B NL (line_oks maxYear cs bs B O Tg Rg Cl) last) as (xs & Ex & F). rewrite Ex. cbn [rbind].
  destruct (order_timely cs O) as [Ti _]. rewrite Forall_forall in Ti.
  assert (At : forall run c, In run (flat_map (fun p => block_runs (snd p)) bs) -> In c run -> at_time (chAt c)).
  { intros run c Hr Hc. apply (Ti c). apply (blocks_in cs bs c B). eauto. }
  assert (Fr : Forall fresh_sub xs).
  { apply Forall_forall. intros s Hs. apply (f2_in _ _ _ _ F) in Hs as (run & Hr & W). apply (written_fresh maxN run s W). intros c. apply At. exact Hr. }
  assert (Os : ForallOrdPairs ordered_subs xs).
  { eapply f2_fop; [exact F|apply (runs_order cs bs B O Tg It)|]. intros a a' b b'. apply written_order. }
  destruct (compress_spec xs [] (Forall_nil _) Fr ltac:(intros a b []) Os) as [Ff An]. cbn [app] in An.
  eexists. split; [reflexivity|]. pose proof (isort_perm sub (fun x y => earlier tzo (sbStart x) (sbStart y)) (compress [] xs)) as P. unfold sort_at. split; [eapply Permutation_Forall; [exact P|exact Ff]|].
  split; [eapply Permutation_Forall; [exact P|]; apply compress_keeps; [apply merged_changes|constructor|]|].
  { apply Forall_forall. intros s Hs. apply (f2_in _ _ _ _ F) in Hs as (run & Hr & W). assert (Ic : forall c, In c run -> In c cs) by (intros c Hc; apply (blocks_in cs bs c B); eauto). clear -W Ic.
    destruct W as (Cw & _ & [(c & Er & Es)|(c & t & m & rr & u & Er & _ & ((bd & bm & Ep & _) & _) & Es & Hu & _)]);
      (assert (Hc : In c run) by (rewrite Er; left; reflexivity)); destruct (Cw c Hc) as (C1 & C2 & C3); (assert (X : exists c', In c' cs /\ chAt c = chAt c' /\ sbFrom s = chFrom c' /\ sbTo s = chTo c' /\ called c' (sbDay s) (sbName s)) by (exists c; auto 8)).
    - split; [rewrite Es in X |- *; cbn [rdate_sub sbStart sbDates] in X |- *; constructor; [exact X|constructor; [exact X|constructor]]|]. rewrite Es. intros r u E; discriminate E.
    - split; [rewrite Es in X |- *; cbn [sbStart sbDates] in X |- *; constructor; [exact X|constructor]|]. rewrite Es. cbn [sbRule sbFrom]. intros r v E Ev. injection E as <-. subst rr.
      destruct u as [u|]; [|discriminate Ev]. injection Ev as <-. destruct Hu as (e & x & He & Ix & Iu). eauto 8. }
  intros x from to day name Hx.
  assert (E : announces (isort (fun x y => earlier tzo (sbStart x) (sbStart y)) (compress [] xs)) x from to day name <-> announces xs x from to day name).
  { rewrite <- An. unfold announces. split; intros (s & Hs & Q); exists s; (split; [|exact Q]); [eapply Permutation_in; [symmetry; exact P|exact Hs]|eapply Permutation_in; [exact P|exact Hs]]. }
  rewrite E. unfold announces. split.
  - intros (s & Hs & On & <- & <-). apply (f2_in _ _ _ _ F) in Hs as (run & Hr & W). pose proof W as (Cw & Ow & _). apply Ow in On as (c & Hc & I & <- & <-); [|exact Hx].
    exists c. split; [apply (blocks_in cs bs c B); eauto|]. split; [exact I|]. split; [reflexivity|]. split; [reflexivity|]. apply Cw. exact Hc.
  - intros (c & Hc & I & <- & <- & Cc). apply (blocks_in cs bs c B) in Hc as (run & Hr & Hc). destruct (f2_in_l _ _ _ _ F Hr) as (s & Hs & W). pose proof W as (Cw & Ow & _).
    exists s. split; [exact Hs|]. split; [apply Ow; [exact Hx|]; exists c; auto|].
    destruct (Cw c Hc) as (Cs & _). destruct (called_one c x _ _ _ _ I Cs Cc); auto.
Qed.
End WithTz.
