(** Proofs about sequences of calls on the time zone database. *)
From Coq Require Import Lia.
From Verif Require Import PyBase PyProofs TzDbModel TzDbSpec TzDbProofs TzDbProofs2.

Section Runs.
Variable tz : Type.
Variable getID : tz -> bytes.
Variable files : bytes -> file tz.
Notation db := (db tz).
Notation getTimezone := (getTimezone tz getID files).
Notation cacheTimezone := (cacheTimezone tz files).
Notation db_step := (db_step tz getID files).
Notation db_run := (db_run tz getID files).

(** A path that the database opens while dbpath is configured. *)
Definition opens (dbpath p : bytes) : Prop :=
  exists k zr, p = tz_path dbpath k /\ startswith p dbpath = true /\ files p = Some zr.

Lemma cache_opens d k cal opened r : cacheTimezone d k = (cal, opened, r) ->
  forall p, In p opened -> exists dbpath, dPath _ d = Some dbpath /\ opens dbpath p.
Proof.
  unfold TzDbModel.cacheTimezone. destruct (dPath tz d) as [dbpath|]; [|intros E p I; injection E as <- <- <-; destruct I].
  destruct (startswith _ _) eqn:S; [|intros E p I; injection E as <- <- <-; destruct I].
  destruct (cin "000" _); [intros E p I; injection E as <- <- <-; destruct I|].
  destruct (files _) as [[zs r']|] eqn:F; intros E p I; injection E as <- <- <-; [|destruct I].
  destruct I as [<-|[]]. exists dbpath. split; [reflexivity|]. exists k, (zs, r'). auto.
Qed.
Lemma get_opens d k d' opened r : getTimezone d k = (d', opened, r) ->
  dPath _ d' = dPath _ d /\ forall p, In p opened -> exists dbpath, dPath _ d = Some dbpath /\ opens dbpath p.
Proof.
  unfold TzDbModel.getTimezone. destruct (cache_get tz (dCache tz d) k); [intro E; injection E as <- <- <-; split; [reflexivity|intros p []]|].
  destruct (cal_getTimezone tz getID (dCal tz d) k).
  - intro E. injection E as <- <- <-. split; [reflexivity|intros p []].
  - destruct (cacheTimezone d k) as [[cal op] x] eqn:C.
    pose proof (cache_opens _ _ _ _ _ C) as O.
    destruct x as [u|x]; [|destruct x]; intro E; injection E as <- <- <-; (split; [reflexivity|exact O]).
Qed.
Lemma step_opens d o : dPath _ (fst (db_step d o)) = match o with DSetPath _ p => Some p | _ => dPath _ d end /\
  forall p, In p (snd (db_step d o)) -> exists dbpath, dPath _ d = Some dbpath /\ opens dbpath p.
Proof.
  destruct o as [p| |k|k|z|z|z]; cbn [TzDbModel.db_step]; try (split; [reflexivity|intros ? []]).
  - destruct (getTimezone d k) as [[d' op] r] eqn:G. cbn. apply (get_opens _ _ _ _ _ G).
  - unfold isStandardTimezone. destruct (has_key (dStd tz d) k); [split; [reflexivity|intros ? []]|].
    destruct (has_key (dNotStd tz d) k); [split; [reflexivity|intros ? []]|].
    destruct (getTimezone d k) as [[d' op] r] eqn:G. cbn. apply (get_opens _ _ _ _ _ G).
  - unfold addStandardTimezone. destruct (cache_get _ _ _); (split; [reflexivity|intros ? []]).
  - unfold mergeTimezone. destruct (getTimezone d (Some (getID z))) as [[d' op] r] eqn:G.
    pose proof (get_opens _ _ _ _ _ G) as [P O]. destruct r as [[v|]|]; cbn; auto.
Qed.
Lemma run_opens dir ops : forall d, dPath _ d = Some dir -> Forall (keeps_path dir) ops ->
  forall p, In p (snd (db_run d ops)) -> opens dir p.
Proof.
  induction ops as [|o ops IH]; intros d P K p I; cbn [TzDbModel.db_run] in I; [destruct I|].
  inversion K as [|? ? K1 K2]; subst. pose proof (step_opens d o) as [P' O].
  destruct (db_step d o) as [d1 p1] eqn:E1. destruct (db_run d1 ops) as [d2 p2] eqn:E2. cbn [fst snd] in *.
  apply in_app_iff in I as [I|I].
  - destruct (O p I) as (dbpath & Q & R). rewrite P in Q. injection Q as <-. exact R.
  - apply (IH d1); auto. 2:{ rewrite E2. exact I. } rewrite P'. destruct o; auto. cbn in K1. congruence.
Qed.

(** What the lookups answer. *)
Variable zone : bytes -> option tz.
Variable dir : list bytes.
Variable trail : bool.
Hypothesis DD : db_dir tz getID zone files dir.
Hypothesis ND : trail = true \/ dir <> [].
Notation meaning := (meaning tz getID zone).
Notation merged := (merged tz getID).
Notation known := (known tz zone).
Definition dpath : bytes := if trail then abs_path dir ++ lit "/" else abs_path dir.
Lemma dpath_eq : dpath = abs_path dir ++ if trail then lit "/" else [].
Proof. unfold dpath. destruct trail; [|rewrite app_nil_r]; reflexivity. Qed.

Lemma key_eq a b : key_eqb a b = true <-> a = b.
Proof. destruct a, b; cbn; try (intuition discriminate); try (intuition congruence). rewrite beq_eq. split; congruence. Qed.
Lemma has_In l k : has_key l k = true <-> In k l.
Proof.
  unfold has_key. rewrite existsb_exists. split.
  - intros (x & I & E). apply key_eq in E. subst. exact I.
  - intro I. exists k. split; [exact I|]. apply key_eq. reflexivity.
Qed.
Lemma get_put c k v k' : cache_get tz (cache_put tz c k v) k' = if key_eqb k k' then Some v else cache_get tz c k'.
Proof. reflexivity. Qed.
Lemma merged_app a b id : merged (a ++ b) id = match merged a id with Some z => Some z | None => merged b id end.
Proof.
  induction a as [|o a IH]; [reflexivity|]. cbn [app TzDbSpec.merged]. destruct o; try apply IH. destruct (beq _ _); [reflexivity|apply IH].
Qed.
Lemma zone_id id z : zone id = Some z -> getID z = id.
Proof. intro H. destruct DD as (_ & _ & D & _). apply (D id z H). Qed.

(** Bytes of a normalised path come from the path. *)
Lemma split_in c (x : bytes) s : In x (split_char "/" s) -> In c x -> In c s.
Proof.
  revert x. induction s as [|a s IH]; cbn [split_char]; intros x X1 X2.
  - destruct X1 as [<-|[]]. destruct X2.
  - destruct (Ascii.eqb "/" a).
    + destruct X1 as [<-|X1]; [destruct X2|right; eapply IH; eassumption].
    + destruct (split_char "/" s) as [|h t].
      * destruct X1 as [<-|[]]. destruct X2 as [<-|[]]. left. reflexivity.
      * destruct X1 as [<-|X1]; [|right; eapply IH; [right; exact X1|exact X2]].
        destruct X2 as [<-|X2]; [left; reflexivity|right; eapply IH; [left; reflexivity|exact X2]].
Qed.
Lemma join_in c l : c <> "/"%char -> In c (join_char "/" l) -> exists x : bytes, In x l /\ In c x.
Proof.
  intro N. induction l as [|x l IH]; [intros []|]. cbn [join_char]. destruct l as [|y l]; [intro H; exists x; split; [left; reflexivity|exact H]|].
  intro H. apply in_app_iff in H as [H|[H|H]]; [exists x; split; [left; reflexivity|exact H]|congruence|].
  destruct (IH H) as (w & W1 & W2). exists w. split; [right; exact W1|exact W2].
Qed.
Lemma norm_in s (x : bytes) comps : forall acc, In x (norm_comps s acc comps) -> In x acc \/ In x comps.
Proof.
  induction comps as [|c t IH]; intro acc; cbn [norm_comps].
  - rewrite <- in_rev. auto.
  - destruct (_ || beq c (lit ".")); [|destruct (_ || _ || _)]; intro H; apply IH in H as [W|W]; cbn; auto.
    + destruct W as [W|W]; auto.
    + destruct acc; cbn in *; auto.
Qed.
Lemma normpath_nul q : In "000"%char (normpath q) -> In "000"%char q.
Proof.
  unfold normpath. destruct q as [|c q]; [cbn; intuition discriminate|]. set (s := c :: q). cbv zeta.
  set (r := repeat "/"%char (initial_slashes s) ++ join_char "/" (norm_comps (negb (Nat.eqb (initial_slashes s) 0)) [] (split_char "/" s))).
  intro H. assert (H' : In "000"%char r) by (destruct r; [cbn in H; intuition discriminate|exact H]).
  apply in_app_iff in H' as [H'|H']; [apply repeat_spec in H'; discriminate|].
  apply join_in in H' as (x & X1 & X2); [|discriminate]. apply norm_in in X1 as [[]|X1]. eapply split_in; eassumption.
Qed.

(** The lookup of k stops at a NUL byte. *)
Definition stops (k : key) : bool := startswith (tz_path dpath k) dpath && cin "000" (tz_path dpath k).
Lemma no_nul_goes k : no_nul k -> stops k = false.
Proof.
  intro NN. unfold stops. destruct (cin "000" _) eqn:CN; [|apply andb_false_r]. exfalso.
  apply cin_In in CN. unfold tz_path in CN. apply normpath_nul in CN.
  assert (FNN : ~ In "000"%char (file_name k)).
  { unfold file_name. rewrite in_app_iff. destruct k as [id|]; cbn; cbn in NN; intuition discriminate. }
  assert (DN : ~ In "000"%char dpath).
  { rewrite dpath_eq. destruct DD as (_ & NUL & _). rewrite in_app_iff. destruct trail; cbn; intuition discriminate. }
  unfold path_join in CN. destruct (startswith _ _); [contradiction|]. destruct dpath as [|c a]; [contradiction|].
  destruct (ends_with _ _); rewrite !in_app_iff in CN; [tauto|]. destruct CN as [CN|[[CN|[]]|CN]]; try contradiction. discriminate.
Qed.

Lemma load_spec d k cal op x : dPath _ d = Some dpath -> cacheTimezone d k = (cal, op, x) ->
  (forall z, In z cal -> In z (dCal _ d) \/ zone (getID z) = Some z) /\
  (x = if stops k then Raise TypeError else x) /\ (stops k = false -> x = Ok tt \/ x = Raise NoTimezoneInDatabase) /\
  (stops k = true -> cal = dCal _ d) /\
  (forall id z, k = Some id -> zone id = Some z -> In z cal).
Proof.
  intros P CT. unfold TzDbModel.cacheTimezone in CT. rewrite P in CT. cbv zeta in CT. unfold stops.
  assert (KN : forall id z, k = Some id -> zone id = Some z ->
    files (tz_path dpath k) = Some ([z], Ok tt) /\ startswith (tz_path dpath k) dpath = true /\ cin "000" (tz_path dpath k) = false).
  { intros id z K Z. destruct DD as (FD & NUL & D1 & D2). destruct (D1 _ _ Z) as (I & NN & (names & N1 & N2 & N3) & FF).
    destruct (found_path dir id names trail FD N1 N2 N3) as [FP|[FP1 FP]]; [|destruct ND; congruence].
    fold dpath in FP. subst k. rewrite FP. split; [exact FF|]. split.
    - apply starts_app. rewrite dpath_eq. destruct trail; [exists (id ++ lit ".ics")|exists ("/"%char :: id ++ lit ".ics")]; rewrite <- app_assoc; reflexivity.
    - apply cin_out. rewrite in_app_iff. cbn. rewrite in_app_iff. cbn. intuition discriminate. }
  destruct (startswith (tz_path dpath k) dpath) eqn:SW; cbn [andb].
  - destruct (cin "000" (tz_path dpath k)) eqn:CN.
    + injection CT as <- <- <-. split; [auto|]. split; [reflexivity|]. split; [discriminate|]. split; [reflexivity|].
      intros id z K Z. destruct (KN id z K Z) as (_ & _ & B). discriminate.
    + destruct (files (tz_path dpath k)) as [[zs r0]|] eqn:FP.
      * pose proof SW as SW'. apply starts_app in SW' as [q SQ].
        assert (ZS : exists z, zs = [z] /\ r0 = Ok tt /\ zone (getID z) = Some z).
        { destruct DD as (_ & _ & _ & D2). rewrite dpath_eq in SQ at 2. rewrite <- app_assoc in SQ. eapply D2. rewrite <- SQ. exact FP. }
        destruct ZS as (z & -> & -> & Z). injection CT as <- <- <-. split.
        { intros w W. apply in_app_iff in W as [W|[<-|[]]]; [left; exact W|right; exact Z]. }
        split; [reflexivity|]. split; [left; reflexivity|]. split; [discriminate|].
        intros id z' K Z'. destruct (KN id z' K Z') as (B & _). injection B as ->.
        apply in_or_app. right. left. reflexivity.
      * injection CT as <- <- <-. split; [auto|]. split; [reflexivity|]. split; [auto|]. split; [discriminate|]. intros id z K Z. destruct (KN id z K Z) as (B & _). congruence.
  - injection CT as <- <- <-. split; [auto|]. split; [reflexivity|]. split; [auto|]. split; [discriminate|]. intros id z K Z. destruct (KN id z K Z) as (_ & B & _). congruence.
Qed.

(** The state of a database after the calls ops. *)
Record good (d : db) (ops : list (dbop tz)) : Prop := {
  g_path : dPath _ d = Some dpath;
  g_cal : forall z, In z (dCal _ d) -> zone (getID z) = Some z \/ (zone (getID z) = None /\ cache_get _ (dCache _ d) (Some (getID z)) = Some (Some z));
  g_cache : forall k v, cache_get _ (dCache _ d) k = Some v -> v = meaning ops k;
  g_merged : forall id z, zone id = None -> merged ops id = Some z -> stops (Some id) = false -> cache_get _ (dCache _ d) (Some id) = Some (Some z);
  g_std : forall k, In k (dStd _ d) -> known k = true;
  g_notstd : forall k, In k (dNotStd _ d) -> known k = false;
  g_cached : forall k v, cache_get _ (dCache _ d) k = Some v -> In k (dStd _ d) \/ In k (dNotStd _ d)
}.

(** Storing the answer of a lookup. *)
Lemma store_good d ops k cal v : good d ops -> cache_get _ (dCache _ d) k = None -> v = meaning ops k ->
  (forall id z, k = Some id -> v = Some z -> zone id = Some z) ->
  (forall z, In z cal -> In z (dCal _ d) \/ zone (getID z) = Some z) ->
  good (let std := match v, k with Some _, Some _ => true | _, _ => false end in
        mkDb _ (dPath _ d) cal (cache_put _ (dCache _ d) k v) (if std then k :: dStd _ d else dStd _ d) (if std then dNotStd _ d else k :: dNotStd _ d)) ops.
Proof.
  intros G C V Z I. cbv zeta.
  assert (KN : match v, k with Some _, Some _ => true | _, _ => false end = known k).
  { destruct k as [id|]; [|destruct v; reflexivity]. cbn [TzDbSpec.known]. destruct v as [z|]; [rewrite (Z id z eq_refl eq_refl); reflexivity|].
    cbn [TzDbSpec.meaning] in V. destruct (zone id); [discriminate|reflexivity]. }
  rewrite KN. constructor; cbn [dPath dCal dCache dStd dNotStd].
  - apply (g_path _ _ G).
  - intros z Hz. destruct (I z Hz) as [I'|I']; [|left; exact I']. destruct (g_cal _ _ G z I') as [A|[A B]]; [left; exact A|right].
    split; [exact A|]. rewrite get_put. destruct (key_eqb k _) eqn:K; [|exact B]. apply key_eq in K. subst k. congruence.
  - intros k' v'. rewrite get_put. destruct (key_eqb k k') eqn:K; [|apply (g_cache _ _ G)]. apply key_eq in K. subst k'. intro H. injection H as <-. exact V.
  - intros id z Z0 M S. rewrite get_put. destruct (key_eqb k _) eqn:K; [|apply (g_merged _ _ G); assumption].
    apply key_eq in K. subst k. rewrite V. cbn [TzDbSpec.meaning]. rewrite Z0, M. reflexivity.
  - intros k'. destruct (known k) eqn:EK; [|apply (g_std _ _ G)]. intros [<-|H]; [exact EK|apply (g_std _ _ G); exact H].
  - intros k'. destruct (known k) eqn:EK; [apply (g_notstd _ _ G)|]. intros [<-|H]; [exact EK|apply (g_notstd _ _ G); exact H].
  - intros k' v'. rewrite get_put. destruct (key_eqb k k') eqn:K.
    + apply key_eq in K. subst k'. intros _. destruct (known k); [left|right]; left; reflexivity.
    + intro H. destruct (g_cached _ _ G _ _ H); destruct (known k); cbn; auto.
Qed.

(** A lookup keeps the invariant and answers the meaning. *)
Lemma get_good d ops k d' opened r : good d ops -> getTimezone d k = (d', opened, r) ->
  good d' ops /\ (forall v, r = Ok v -> v = meaning ops k /\ cache_get _ (dCache _ d') k = Some v) /\
  (forall e, r = Raise e -> stops k = true /\ cache_get _ (dCache _ d') k = None).
Proof.
  intros G E. unfold TzDbModel.getTimezone in E.
  destruct (cache_get tz (dCache tz d) k) as [v|] eqn:C.
  { injection E as <- <- <-. split; [exact G|]. split; [|discriminate]. intros v' H. injection H as <-. split; [apply (g_cache _ _ G); exact C|exact C]. }
  destruct (cal_getTimezone tz getID (dCal tz d) k) as [z|] eqn:F.
  - assert (Z : exists id, k = Some id /\ zone id = Some z).
    { destruct k as [id|]; [|discriminate]. exists id. split; [reflexivity|]. cbn [cal_getTimezone] in F. apply find_some in F as [I E']. apply beq_eq in E'. subst id.
      destruct (g_cal _ _ G z I) as [A|[_ A]]; [exact A|congruence]. }
    destruct Z as (id & -> & Z).
    assert (V : Some z = meaning ops (Some id)) by (cbn [TzDbSpec.meaning]; rewrite Z; reflexivity).
    injection E as <- <- <-. split; [|split; [|discriminate]].
    + apply (store_good d ops (Some id) (dCal _ d) (Some z)); auto. intros id' z' K1 K2. congruence.
    + intros v H. injection H as <-. split; [exact V|]. cbn [dCache]. rewrite get_put. replace (key_eqb (Some id) (Some id)) with true; [reflexivity|].
      symmetry. apply key_eq. reflexivity.
  - destruct (cacheTimezone d k) as [[cal op] x] eqn:CT.
    destruct (load_spec _ _ _ _ _ (g_path _ _ G) CT) as (L1 & L2 & L3 & L4 & L5).
    destruct (stops k) eqn:ST.
    + rewrite L2 in E. specialize (L4 eq_refl). subst cal. injection E as <- <- <-. destruct d; cbn in *. split; [exact G|]. split; [discriminate|auto].
    + assert (FZ : forall id z, k = Some id -> cal_getTimezone tz getID cal k = Some z -> zone id = Some z).
      { intros id z -> FF. cbn [cal_getTimezone] in FF. apply find_some in FF as [I E']. apply beq_eq in E'. subst id.
        destruct (L1 z I) as [A|A]; [|exact A]. destruct (g_cal _ _ G z A) as [B|[_ B]]; [exact B|congruence]. }
      assert (ANS : cal_getTimezone tz getID cal k = meaning ops k).
      { destruct k as [id|]; [|reflexivity]. cbn [TzDbSpec.meaning].
        destruct (cal_getTimezone tz getID cal (Some id)) as [z|] eqn:FF; [rewrite (FZ id z eq_refl eq_refl); reflexivity|].
        destruct (zone id) as [z|] eqn:EZ.
        - exfalso. cbn [cal_getTimezone] in FF. pose proof (find_none _ _ FF z (L5 id z eq_refl EZ)) as B. cbn in B. rewrite (zone_id _ _ EZ), beq_refl in B. discriminate.
        - destruct (merged ops id) as [z|] eqn:EM; [|reflexivity]. rewrite (g_merged _ _ G id z EZ EM ST) in C. discriminate. }
      assert (E' : (let std := match cal_getTimezone tz getID cal k, k with Some _, Some _ => true | _, _ => false end in
        (mkDb _ (dPath _ d) cal (cache_put _ (dCache _ d) k (cal_getTimezone tz getID cal k)) (if std then k :: dStd _ d else dStd _ d) (if std then dNotStd _ d else k :: dNotStd _ d), op,
         Ok (cal_getTimezone tz getID cal k))) = (d', opened, r)).
      { destruct (L3 eq_refl) as [->| ->]; exact E. }
      cbv zeta in E'. injection E' as <- <- <-. split; [|split; [|discriminate]].
      * apply (store_good d ops k cal (cal_getTimezone tz getID cal k)); auto.
      * intros v H. injection H as <-. split; [exact ANS|]. cbn [dCache]. rewrite get_put. replace (key_eqb k k) with true; [reflexivity|].
        symmetry. apply key_eq. reflexivity.
Qed.

(** History that does not merge leaves the meaning alone. *)
Lemma good_skip d ops o : match o with DMerge _ _ => False | _ => True end -> good d ops -> good d (ops ++ [o]).
Proof.
  intros N G. assert (M : forall id, merged (ops ++ [o]) id = merged ops id).
  { intro id. rewrite merged_app. destruct (merged ops id); [reflexivity|]. destruct o; try reflexivity. destruct N. }
  destruct G as [g1 g2 g3 g4 g5 g6 g7]. constructor; auto.
  - intros k v H. rewrite (g3 k v H). destruct k; cbn [TzDbSpec.meaning]; rewrite ?M; reflexivity.
  - intros id z. rewrite M. apply g4.
Qed.
Lemma good_merge d ops z v : good d ops -> cache_get _ (dCache _ d) (Some (getID z)) = v ->
  (forall w, v = Some w -> w <> None) -> (v = None -> stops (Some (getID z)) = true) -> good d (ops ++ [DMerge _ z]).
Proof.
  intros G C W S. pose proof G as G'. destruct G as [g1 g2 g3 g4 g5 g6 g7]. constructor; auto.
  - intros k v' H. rewrite (g3 k v' H). destruct k as [id|]; [|reflexivity]. cbn [TzDbSpec.meaning]. destruct (zone id) eqn:EZ; [reflexivity|].
    rewrite merged_app. destruct (merged ops id) eqn:EM; [reflexivity|]. cbn [TzDbSpec.merged]. destruct (beq (getID z) id) eqn:B; [|reflexivity].
    apply beq_eq in B. subst id. rewrite H in C. exfalso. apply (W v'); [congruence|]. rewrite (g3 _ _ H). cbn [TzDbSpec.meaning]. rewrite EZ, EM. reflexivity.
  - intros id z' Z M ST. rewrite merged_app in M. destruct (merged ops id) eqn:EM; [injection M as <-; apply g4; assumption|].
    cbn [TzDbSpec.merged] in M. destruct (beq (getID z) id) eqn:B; [|discriminate]. apply beq_eq in B. subst id. injection M as <-.
    destruct v as [w|]; [|rewrite (S eq_refl) in ST; discriminate]. exfalso. apply (W w eq_refl). rewrite (g3 _ _ C). cbn [TzDbSpec.meaning]. rewrite Z, EM. reflexivity.
Qed.
Lemma merge_good d ops z : good d ops -> good (fst (fst (mergeTimezone tz getID files d z))) (ops ++ [DMerge _ z]).
Proof.
  intro G. unfold mergeTimezone. destruct (getTimezone d (Some (getID z))) as [[d' op] r] eqn:E.
  destruct (get_good _ _ _ _ _ _ G E) as (G' & V & R). destruct r as [[v|]|e]; cbn [fst].
  - destruct (V _ eq_refl) as [_ C]. eapply good_merge; [exact G'|exact C| |discriminate]. intros w H. injection H as <-. discriminate.
  - destruct (V _ eq_refl) as [M C]. cbn [TzDbSpec.meaning] in M. destruct (zone (getID z)) eqn:EZ; [discriminate|]. symmetry in M.
    pose proof G' as G0. destruct G' as [g1 g2 g3 g4 g5 g6 g7]. unfold addTimezone. constructor; cbn [dPath dCal dCache dStd dNotStd]; auto.
    + intros w I. apply in_app_iff in I as [I|[<-|[]]].
      * destruct (g2 w I) as [A|[A B]]; [left; exact A|right]. split; [exact A|]. rewrite get_put. destruct (key_eqb _ _) eqn:K; [|exact B].
        apply key_eq in K. rewrite K in C. congruence.
      * right. split; [exact EZ|]. rewrite get_put. replace (key_eqb _ _) with true; [reflexivity|]. symmetry. apply key_eq. reflexivity.
    + intros k v. rewrite get_put. destruct (key_eqb _ k) eqn:K.
      * apply key_eq in K. subst k. intro H. injection H as <-. cbn [TzDbSpec.meaning]. rewrite EZ, merged_app, M. cbn [TzDbSpec.merged]. rewrite beq_refl. reflexivity.
      * intro H. rewrite (g3 _ _ H). destruct k as [id|]; [|reflexivity]. cbn [TzDbSpec.meaning]. rewrite merged_app. destruct (zone id); [reflexivity|].
        destruct (merged ops id); [reflexivity|]. cbn [TzDbSpec.merged]. destruct (beq (getID z) id) eqn:B; [|reflexivity].
        apply beq_eq in B. subst id. assert (K' : key_eqb (Some (getID z)) (Some (getID z)) = true) by (apply key_eq; reflexivity). congruence.
    + intros id w Z M' ST. rewrite get_put. destruct (key_eqb _ _) eqn:K.
      * apply key_eq in K. injection K as <-. rewrite merged_app, M in M'. cbn [TzDbSpec.merged] in M'. rewrite beq_refl in M'. congruence.
      * apply g4; auto. rewrite merged_app in M'. destruct (merged ops id); [exact M'|]. cbn [TzDbSpec.merged] in M'. destruct (beq (getID z) id) eqn:B; [|discriminate].
        apply beq_eq in B. subst id. assert (K' : key_eqb (Some (getID z)) (Some (getID z)) = true) by (apply key_eq; reflexivity). congruence.
    + intros k v. rewrite get_put. destruct (key_eqb _ k) eqn:K; [|apply g7]. apply key_eq in K. subst k. intros _. eapply g7. exact C.
  - destruct (R _ eq_refl) as [ST C]. eapply good_merge; [exact G'|exact C|discriminate|auto].
Qed.
Lemma std_good d ops k d' opened r : good d ops -> isStandardTimezone tz getID files d k = (d', opened, r) ->
  good d' ops /\ (forall b, r = Ok b -> b = known k) /\ (forall e, r = Raise e -> stops k = true).
Proof.
  intros G E. unfold isStandardTimezone in E. destruct (has_key (dStd tz d) k) eqn:H1.
  { injection E as <- <- <-. split; [exact G|]. split; [|discriminate]. intros b H. injection H as <-. apply has_In, (g_std _ _ G) in H1. auto. }
  destruct (has_key (dNotStd tz d) k) eqn:H2.
  { injection E as <- <- <-. split; [exact G|]. split; [|discriminate]. intros b H. injection H as <-. apply has_In, (g_notstd _ _ G) in H2. auto. }
  destruct (getTimezone d k) as [[d1 op] x] eqn:ET. destruct (get_good _ _ _ _ _ _ G ET) as (G' & V & R). injection E as <- <- <-.
  split; [exact G'|]. split.
  - intros b H. destruct x as [v|]; [|discriminate]. cbn in H. injection H as <-. destruct (V _ eq_refl) as [_ C].
    destruct (known k) eqn:EK.
    + apply has_In. destruct (g_cached _ _ G' _ _ C) as [I|I]; [exact I|]. apply (g_notstd _ _ G') in I. congruence.
    + destruct (has_key (dStd tz d1) k) eqn:HK; [|reflexivity]. apply has_In, (g_std _ _ G') in HK. congruence.
  - intros e H. destruct x as [v|]; [discriminate|]. eapply R. reflexivity.
Qed.
Lemma run_good ops : forall d h, good d h -> forallb plain_op ops = true -> good (fst (db_run d ops)) (h ++ ops).
Proof.
  induction ops as [|o ops IH]; intros d h G P; cbn [TzDbModel.db_run]; [rewrite app_nil_r; exact G|].
  cbn [forallb] in P. apply andb_true_iff in P as [P1 P2].
  assert (S : good (fst (db_step d o)) (h ++ [o])).
  { destruct o as [p| |k|k|z|z|z]; try discriminate; cbn [TzDbModel.db_step].
    - destruct (getTimezone d k) as [[d' op] r] eqn:E. apply good_skip; [exact I|]. apply (get_good _ _ _ _ _ _ G E).
    - destruct (isStandardTimezone _ _ _ d k) as [[d' op] r] eqn:E. apply good_skip; [exact I|]. apply (std_good _ _ _ _ _ _ G E).
    - apply merge_good. exact G. }
  destruct (db_step d o) as [d1 p1]. destruct (db_run d1 ops) as [d2 p2] eqn:E2. cbn [fst] in *.
  specialize (IH d1 _ S P2). rewrite E2, <- app_assoc in IH. exact IH.
Qed.
Lemma start_good : good (setPath tz (db_init tz) dpath) [].
Proof. constructor; cbn; try discriminate; try contradiction. reflexivity. Qed.

Theorem lookup_meaning ops k : forallb plain_op ops = true ->
  let r := snd (getTimezone (fst (db_run (setPath tz (db_init tz) dpath) ops)) k) in
  (forall v, r = Ok v -> v = meaning ops k) /\ (no_nul k -> r = Ok (meaning ops k)).
Proof.
  intros P r. pose proof (run_good ops _ [] start_good P) as G. cbn [app] in G.
  unfold r. destruct (getTimezone _ k) as [[d' op] x] eqn:E. destruct (get_good _ _ _ _ _ _ G E) as (_ & V & R). cbn [snd].
  split; [intros v H; apply (V v H)|]. intro NN. destruct x as [v|e]; [f_equal; apply (V v eq_refl)|].
  destruct (R e eq_refl) as [S _]. rewrite (no_nul_goes k NN) in S. discriminate.
Qed.
Theorem std_meaning ops k : forallb plain_op ops = true ->
  let r := snd (isStandardTimezone tz getID files (fst (db_run (setPath tz (db_init tz) dpath) ops)) k) in
  (forall b, r = Ok b -> b = known k) /\ (no_nul k -> r = Ok (known k)).
Proof.
  intros P r. pose proof (run_good ops _ [] start_good P) as G. cbn [app] in G.
  unfold r. destruct (isStandardTimezone _ _ _ _ k) as [[d' op] x] eqn:E. destruct (std_good _ _ _ _ _ _ G E) as (_ & V & R). cbn [snd].
  split; [exact V|]. intro NN. destruct x as [v|e]; [f_equal; apply (V v eq_refl)|].
  pose proof (R e eq_refl) as S. rewrite (no_nul_goes k NN) in S. discriminate.
Qed.
End Runs.
