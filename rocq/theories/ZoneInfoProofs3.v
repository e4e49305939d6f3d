(** Proofs for C75: the files. *)
From Coq Require Import Lia Sorting.Permutation Sorting.Sorted.
From Verif Require Import PyBase PyProofs ParserCtx LineModel LineProofs TextSpec PropertyModel ComponentModel ComponentSpec ComponentProofs ComponentProofs2 ComponentProofs3 PropertyProofs3 MakeModel StatusSpec ZoneTzModel TzFileModel ZoneInfoModel ZoneFileProofs ZoneFileProofs3 ZoneFileProofs4 ZoneInfoProofs ZoneInfoProofs2 ZoneInfoSpec.

(** ** Dictionaries *)
Lemma assoc_in {A} k (v : A) l : NoDup (map fst l) -> (assoc k l = Some v <-> In (k, v) l).
Proof.
  induction l as [|[k' v'] l IH]; cbn [map fst assoc In]; intro N; [split; [discriminate|intros []]|]. inversion N as [|? ? N1 N2]; subst. destruct (beq k' k) eqn:B.
  - apply beq_eq in B as ->. split; [intros [= ->]; auto|]. intros [[= ->]|I]; [reflexivity|]. exfalso. apply N1. apply in_map_iff. exists (k, v). auto.
  - rewrite (IH N2). split; [auto|]. intros [[= -> ->]|I]; [rewrite beq_refl in B; discriminate B|exact I].
Qed.
Lemma assoc_none {A} k (l : list (bytes * A)) : assoc k l = None <-> ~ In k (map fst l).
Proof.
  induction l as [|[k' v'] l IH]; cbn [map fst assoc In]; [split; auto|]. destruct (beq k' k) eqn:B.
  - apply beq_eq in B as ->. split; [discriminate|intro H; exfalso; apply H; auto].
  - rewrite IH. split; [intros H [E|I]; [subst; rewrite beq_refl in B; discriminate B|auto]|auto].
Qed.
Lemma assoc_snoc {A} k k' (v : A) l : k' <> k -> assoc k (l ++ [(k', v)]) = assoc k l.
Proof.
  intro N. induction l as [|[k0 v0] l IH]; cbn [app assoc].
  - destruct (beq k' k) eqn:B; [apply beq_eq in B; congruence|reflexivity].
  - rewrite IH. reflexivity.
Qed.
Lemma store_new {A} k (v : A) l : ~ In k (map fst l) -> store k v l = l ++ [(k, v)].
Proof.
  induction l as [|[k' v'] l IH]; cbn [map fst store In app]; intro N; [reflexivity|]. destruct (beq k k') eqn:B; [apply beq_eq in B; subst; exfalso; auto|]. rewrite IH; auto.
Qed.

(** ** The aliases *)
Lemma aliases_links l : forall links, NoDup (map fst links) -> NoDup (map fst (parseWindowsAliases links l)) /\
  forall to from, In (to, from) (parseWindowsAliases links l) <-> In (to, from) links \/ (~ In to (map fst links) /\ first_alias l to from).
Proof.
  unfold parseWindowsAliases. induction l as [|a l IH]; intros links N; cbn [fold_left].
  - split; [exact N|]. intros to from. split; [auto|]. intros [H|(_ & x & y & E & _)]; [exact H|destruct x; discriminate E].
  - assert (Sk : forall to from, (alTerritory a = lit "001" -> alOther a <> to) -> (first_alias (a :: l) to from <-> first_alias l to from)).
    { intros to from Na. split.
      - intros ([|x a0] & b & E & F); injection E as E1 E2; [subst a; exfalso; exact (Na eq_refl eq_refl)|]. subst. inversion F; subst. exists a0, b. auto.
      - intros (a0 & b & -> & F). exists (a :: a0), b. split; [reflexivity|constructor; assumption]. }
    assert (Ea : add_alias links a = if beq (alTerritory a) (lit "001") then match assoc (alOther a) links with None => store (alOther a) (alType a) links | Some _ => links end else links) by reflexivity.
    rewrite Ea. clear Ea. destruct (beq (alTerritory a) (lit "001")) eqn:Bt.
    + apply beq_eq in Bt. destruct (assoc (alOther a) links) as [v|] eqn:Ba.
      * apply (assoc_in _ _ _ N) in Ba. destruct (IH links N) as [N' H]. split; [exact N'|]. intros to from. rewrite H. split; (intros [Q|[Q1 Q2]]; [auto|right; split; [exact Q1|]]).
        -- apply Sk; [|exact Q2]. intros _ E. apply Q1. subst to. apply in_map_iff. eexists. split; [|exact Ba]. reflexivity.
        -- apply Sk in Q2; [exact Q2|]. intros _ E. apply Q1. subst to. apply in_map_iff. eexists. split; [|exact Ba]. reflexivity.
      * apply assoc_none in Ba. rewrite (store_new _ _ _ Ba). assert (N1 : NoDup (map fst (links ++ [(alOther a, alType a)]))).
        { rewrite map_app. cbn [map fst]. apply (Permutation_NoDup (Permutation_app_comm [alOther a] (map fst links))). constructor; assumption. }
        destruct (IH _ N1) as [N' H]. split; [exact N'|]. intros to from. rewrite H, in_app_iff, map_app, in_app_iff. cbn [map fst In]. split.
        -- intros [[Q|[Q|[]]]|[Q1 Q2]]; [auto| |].
           ++ injection Q as <- <-. right. split; [exact Ba|]. exists [], l. split; [|constructor]. destruct a; cbn in *. subst. reflexivity.
           ++ right. split; [intro; apply Q1; auto|]. apply Sk; [|exact Q2]. intros _ E. apply Q1. auto.
        -- intros [Q|[Q1 Q2]]; [auto|]. destruct (list_eq_dec Ascii.ascii_dec (alOther a) to) as [E|E].
           ++ left. right. left. destruct Q2 as ([|x a0] & b & E1 & F); injection E1 as E1 E2; [subst a; reflexivity|]. subst x. inversion F as [|? ? F1 F2]; subst. exfalso. exact (F1 Bt eq_refl).
           ++ right. split; [intros [Q|[Q|[]]]; auto|]. apply Sk in Q2; [exact Q2|]. intros _. exact E.
    + assert (Nt : alTerritory a <> lit "001") by (intro E; rewrite E, beq_refl in Bt; discriminate Bt). destruct (IH links N) as [N' H]. split; [exact N'|]. intros to from. rewrite H.
      split; (intros [Q|[Q1 Q2]]; [auto|right; split; [exact Q1|]]); [apply Sk; [|exact Q2]|apply Sk in Q2; [exact Q2|]]; intro E; contradiction.
Qed.

(** ** The links *)
Definition linked (files : list (bytes * bytes)) (e : bytes * bytes) : list (bytes * bytes) :=
  match assoc (snd e) files with Some t => [(fst e, str_replace t (snd e) (fst e))] | None => [] end.
Definition has_source (files : list (bytes * bytes)) (e : bytes * bytes) : bool := match assoc (snd e) files with Some _ => true | None => false end.
Definition link_text (e : bytes * bytes) : bytes := fst e ++ [TAB] ++ snd e.
Lemma links_run l : forall files lines, NoDup (map fst l) -> (forall to from, In (to, from) l -> ~ In to (map fst files) /\ forall to' from', In (to', from') l -> from' <> to) ->
  link_files l files lines = (files ++ flat_map (linked files) l, lines ++ map link_text (filter (has_source files) l)).
Proof.
  induction l as [|[to from] l IH]; intros files lines N H; cbn [link_files flat_map filter map]; [rewrite !app_nil_r; reflexivity|]. cbn [map fst] in N. inversion N as [|? ? N1 N2]; subst.
  unfold linked at 1. unfold has_source at 1. cbn [fst snd]. destruct (H to from (or_introl eq_refl)) as [H1 H2]. destruct (assoc from files) as [t|] eqn:A.
  - rewrite (store_new _ _ _ H1). rewrite IH; [|exact N2|].
    + assert (E1 : flat_map (linked (files ++ [(to, str_replace t from to)])) l = flat_map (linked files) l).
      { rewrite !flat_map_concat_map. f_equal. apply map_ext_in. intros [t1 f1] I. unfold linked. cbn [fst snd]. rewrite assoc_snoc; [reflexivity|]. intro E. exact (H2 t1 f1 (or_intror I) (eq_sym E)). }
      assert (E2 : filter (has_source (files ++ [(to, str_replace t from to)])) l = filter (has_source files) l).
      { apply filter_ext_in. intros [t1 f1] I. unfold has_source. cbn [fst snd]. rewrite assoc_snoc; [reflexivity|]. intro E. exact (H2 t1 f1 (or_intror I) (eq_sym E)). }
      rewrite E1, E2. cbn [map]. unfold link_text at 2. cbn [fst snd]. rewrite <- !app_assoc. reflexivity.
    + intros t1 f1 I. destruct (H t1 f1 (or_intror I)) as [G1 G2]. split; [|intros; eapply G2; right; eassumption]. rewrite map_app, in_app_iff. cbn [map fst In]. intros [Q|[Q|[]]]; [auto|]. subst t1. apply N1. apply in_map_iff. exists (to, f1). auto.
  - rewrite IH; [reflexivity|exact N2|]. intros t1 f1 I. destruct (H t1 f1 (or_intror I)) as [G1 G2]. split; [exact G1|intros; eapply G2; right; eassumption].
Qed.

(** ** The zones *)
Lemma filter_one (zn : zone) l : NoDup (map znName l) -> In zn l -> filter (wanted [znName zn]) l = [zn].
Proof.
  induction l as [|z l IH]; intros N I; [destruct I|]. cbn [map] in N. inversion N as [|? ? N1 N2]; subst. cbn [filter wanted existsb]. destruct (beq (znName z) (znName zn)) eqn:B; cbn [orb].
  - apply beq_eq in B. destruct I as [->|I]; [|exfalso; apply N1; rewrite B; apply in_map; exact I]. f_equal. clear - N1. induction l as [|y l IH]; [reflexivity|]. cbn [filter wanted existsb].
    cbn [map In] in N1. destruct (beq (znName y) (znName zn)) eqn:B; [apply beq_eq in B; exfalso; apply N1; left; exact B|]. cbn [orb]. apply IH. intro H. apply N1. right. exact H.
  - destruct I as [->|I]; [rewrite beq_refl in B; discriminate B|]. apply (IH N2 I).
Qed.
Lemma nodup_app {A} (a b : list A) : NoDup a -> NoDup b -> (forall x, In x a -> In x b -> False) -> NoDup (a ++ b).
Proof.
  intros Na Nb H. induction Na as [|x a N1 N IH]; [exact Nb|]. cbn [app]. constructor; [|apply IH; intros y I J; exact (H y (or_intror I) J)].
  rewrite in_app_iff. intros [I|I]; [auto|exact (H x (or_introl eq_refl) I)].
Qed.
Section WithCtx.
Variables (tzo : tzid -> Z -> Z -> Z -> Z -> Z -> Z -> bool -> bool -> Z) (ctx : pctx) (fl : floats) (uuids : nat -> bytes).
Variables (prodid : bytes) (d : tzdata) (minYear maxYear : Z).
Lemma one_text zn : NoDup (map znName (map snd (tzZones d))) -> In zn (map snd (tzZones d)) -> zone_text tzo fl prodid d minYear maxYear zn = vtimezones tzo fl prodid d minYear maxYear [znName zn].
Proof. intros N I. unfold zone_text, vtimezones. rewrite (filter_one zn _ N I). cbn [made_zones]. destruct (made_zone tzo d minYear maxYear zn); reflexivity. Qed.
Lemma zones_run pl : forall files, NoDup (map znName (map fst pl)) -> (forall n, In n (map znName (map fst pl)) -> ~ In n (map fst files)) ->
  Forall (fun p => zone_text tzo fl prodid d minYear maxYear (fst p) = Some (Ok (snd p))) pl ->
  zone_files tzo fl prodid d minYear maxYear (map fst pl) files = Some (Ok (files ++ map (fun p => (znName (fst p), snd p)) pl)).
Proof.
  induction pl as [|p pl IH]; intros files N H F; cbn [map zone_files]; [rewrite app_nil_r; reflexivity|]. cbn [map] in N, H. inversion N as [|? ? N1 N2]; inversion F as [|? ? F1 F2]; subst. rewrite F1.
  rewrite (store_new _ _ _ (H _ (or_introl eq_refl))), IH; [rewrite <- app_assoc; reflexivity|exact N2| |exact F2].
  intros n I. rewrite map_app, in_app_iff. cbn [map fst In]. intros [Q|[Q|[]]]; [exact (H n (or_intror I) Q)|]. subst n. contradiction.
Qed.
Lemma asks_one want (zones : list (zone * list sub)) zn : asks want d (map fst zones) -> In zn (map fst zones) -> asks [znName zn] d [zn].
Proof.
  intros (N & H & S) I. split; [exact N|]. split; [|repeat constructor]. apply H in I as [I _]. intro z. split.
  - intros [<-|[]]. split; [exact I|right; left; reflexivity].
  - intros [Iz [E|[E|[]]]]; [discriminate E|]. left. clear - N I Iz E. revert N I Iz. generalize (map snd (tzZones d)). intros l. induction l as [|y l IH]; intros N I Iz; [destruct I|]. cbn [map] in N. inversion N as [|? ? N1 N2]; subst.
    destruct I as [->|I]; destruct Iz as [->|Iz]; [reflexivity| | |auto]; exfalso; apply N1; [rewrite E|rewrite <- E]; apply in_map; assumption.
Qed.
Lemma zone_texts want zones : utf8 prodid -> asks want d (map fst zones) -> Forall (fine_zone tzo d minYear maxYear) zones -> forall zn, In zn (map fst zones) -> exists t, vtimezones tzo fl prodid d minYear maxYear [znName zn] = Some (Ok t).
Proof.
  intros U A F zn I. pose proof (asks_one _ _ _ A I) as A1. apply in_map_iff in I as (p & <- & I). rewrite Forall_forall in F.
  destruct (file_spec tzo ctx fl uuids prodid d minYear maxYear _ [p] U A1 ltac:(constructor; [apply F, I|constructor])) as (t & _ & E & _). eauto.
Qed.

Definition known (l : list (bytes * bytes)) (aliases : option (list alias)) : list (bytes * bytes) := match aliases with Some a => parseWindowsAliases l a | None => l end.
Lemma known_all l aliases : NoDup (map fst l) -> all_links l aliases (known l aliases).
Proof.
  intro N. unfold known, all_links. destruct aliases as [a|]; [apply aliases_links, N|]. split; [exact N|]. intros. split; [auto|intros [H|[_ []]]; exact H].
Qed.
Lemma text_exists (l : list zone) : (forall zn, In zn l -> exists t, zone_text tzo fl prodid d minYear maxYear zn = Some (Ok t)) ->
  exists pl, map fst pl = l /\ Forall (fun p => zone_text tzo fl prodid d minYear maxYear (fst p) = Some (Ok (snd p))) pl.
Proof.
  induction l as [|zn l IH]; intro H; [exists []; split; [reflexivity|constructor]|]. destruct (IH (fun z I => H z (or_intror I))) as (pl & E & F). destruct (H zn (or_introl eq_refl)) as (t & Et).
  exists ((zn, t) :: pl). cbn [map fst]. split; [congruence|constructor; [exact Et|exact F]].
Qed.
(** The files of the zones, in the order of the dictionary. *)
Lemma zone_part want zones : utf8 prodid -> asks want d (map fst zones) -> Forall (fine_zone tzo d minYear maxYear) zones ->
  exists files, zone_files tzo fl prodid d minYear maxYear (filter (wanted want) (map snd (tzZones d))) [] = Some (Ok files) /\ NoDup (map fst files) /\
  (forall n, In n (map fst files) <-> In n (map (fun p => znName (fst p)) zones)) /\
  (forall n t, In (n, t) files <-> In n (map (fun p => znName (fst p)) zones) /\ vtimezones tzo fl prodid d minYear maxYear [n] = Some (Ok t)).
Proof.
  intros U A F. pose proof (zone_texts _ _ U A F) as Tx. pose proof (chosen_perm want d _ A) as P. pose proof A as (N & H & _).
  assert (One : forall zn, In zn (filter (wanted want) (map snd (tzZones d))) -> zone_text tzo fl prodid d minYear maxYear zn = vtimezones tzo fl prodid d minYear maxYear [znName zn]).
  { intros zn I. apply one_text; [exact N|]. apply filter_In in I. apply I. }
  destruct (text_exists (filter (wanted want) (map snd (tzZones d)))) as (pl & E & Fp).
  { intros zn I. rewrite (One zn I). apply Tx. eapply Permutation_in; [symmetry; exact P|exact I]. }
  assert (Nf : NoDup (map znName (map fst pl))).
  { rewrite E. clear - N. induction (map snd (tzZones d)) as [|z l IH]; cbn [filter]; [constructor|]. cbn [map] in N. inversion N as [|? ? N1 N2]; subst. destruct (wanted want z); [|auto]. cbn [map]. constructor; [|auto].
    intro I. apply N1. apply in_map_iff in I as (y & Ey & Iy). apply filter_In in Iy as [Iy _]. apply in_map_iff. eauto. }
  exists (map (fun p => (znName (fst p), snd p)) pl). rewrite <- E. rewrite (zones_run pl [] Nf (fun _ _ Q => Q) Fp). split; [reflexivity|].
  assert (Ek : map fst (map (fun p : zone * bytes => (znName (fst p), snd p)) pl) = map znName (map fst pl)) by (rewrite !map_map; reflexivity).
  assert (Km : forall n, In n (map znName (map fst pl)) <-> In n (map (fun p => znName (fst p)) zones)).
  { intro n. rewrite E. rewrite <- (map_map fst znName). split; apply Permutation_in; apply Permutation_map; [symmetry|]; exact P. }
  split; [rewrite Ek; exact Nf|]. split; [intro n; rewrite Ek; apply Km|]. intros n t. split.
  - intro I. apply in_map_iff in I as (p & [= <- <-] & I). split; [apply Km; rewrite map_map; apply in_map_iff; eauto|].
    rewrite <- One by (rewrite <- E; apply in_map; exact I). rewrite Forall_forall in Fp. apply Fp, I.
  - intros [I Et]. apply Km in I. rewrite map_map in I. apply in_map_iff in I as (p & <- & I). apply in_map_iff. exists p. split; [|exact I]. f_equal.
    rewrite Forall_forall in Fp. specialize (Fp p I). rewrite One in Fp by (rewrite <- E; apply in_map; exact I). congruence.
Qed.
Lemma sorted_lt {A} (l : list (bytes * A)) : NoDup (map fst l) -> StronglySorted text_lt (map fst (sort_by fst l)).
Proof.
  intro N. assert (N' : NoDup (map fst (sort_by fst l))) by (eapply Permutation_NoDup; [apply Permutation_map; symmetry; apply sort_perm|exact N]). pose proof (sort_order fst l) as O. revert N' O. generalize (sort_by fst l). clear.
  intros l N O. induction O as [|x l Hx O IH]; cbn [map]; [constructor|]. cbn [map] in N. inversion N as [|? ? N1 N2]; subst. constructor; [apply IH, N2|]. apply Forall_map. rewrite Forall_forall in *. intros y I.
  apply ComponentProofs.ble_lt. destruct (ble (fst y) (fst x)) eqn:B; [|reflexivity]. exfalso. apply N1. replace (fst x) with (fst y); [apply in_map, I|]. specialize (Hx y I). revert B Hx. apply PropertyProofs3.ble_antisym.
Qed.
Lemma filter_sorted {A} (R : A -> A -> Prop) f (l : list A) : StronglySorted R l -> StronglySorted R (filter f l).
Proof.
  induction 1 as [|x l S IH F]; cbn [filter]; [constructor|]. destruct (f x); [|exact IH]. constructor; [exact IH|]. rewrite Forall_forall in *. intros y I. apply filter_In in I as [I _]. auto.
Qed.
Lemma files_spec aliases want zones links : utf8 prodid -> asks want d (map fst zones) -> Forall (fine_zone tzo d minYear maxYear) zones ->
  NoDup (map fst (tzLinks d)) -> all_links (tzLinks d) aliases links -> flat (map (fun p => znName (fst p)) zones) links ->
  exists files ls, generateZoneinfoFiles tzo fl prodid d minYear maxYear true aliases want = Some (Ok (files, Some (join_char LF (map link_text ls)))) /\ NoDup (map fst files) /\
  (forall n t, In (n, t) files <->
     (In n (map (fun p => znName (fst p)) zones) /\ vtimezones tzo fl prodid d minYear maxYear [n] = Some (Ok t)) \/
     (exists from t0, In (n, from) links /\ In from (map (fun p => znName (fst p)) zones) /\ vtimezones tzo fl prodid d minYear maxYear [from] = Some (Ok t0) /\ t = str_replace t0 from n)) /\
  (forall to from, In (to, from) ls <-> In (to, from) links /\ In from (map (fun p => znName (fst p)) zones)) /\ StronglySorted text_lt (map fst ls).
Proof.
  intros U A F Nl Al Fl. destruct (zone_part want zones U A F) as (zf & Ez & Nz & Kz & Hz). destruct (known_all (tzLinks d) aliases Nl) as [Nk Hk].
  assert (Same : forall e, In e (known (tzLinks d) aliases) <-> In e links) by (intros [to from]; rewrite Hk; symmetry; apply Al).
  assert (Ss : forall e, In e (sort_by fst (known (tzLinks d) aliases)) <-> In e links).
  { intro e. rewrite <- Same. split; apply Permutation_in; [|symmetry]; apply sort_perm. }
  assert (Ns : NoDup (map fst (sort_by fst (known (tzLinks d) aliases)))) by (eapply Permutation_NoDup; [apply Permutation_map; symmetry; apply sort_perm|exact Nk]).
  assert (Run := links_run (sort_by fst (known (tzLinks d) aliases)) zf [] Ns).
  assert (Fs : forall to from, In (to, from) (sort_by fst (known (tzLinks d) aliases)) -> ~ In to (map fst zf) /\ forall to' from', In (to', from') (sort_by fst (known (tzLinks d) aliases)) -> from' <> to).
  { intros to from I. apply Ss in I. destruct (Fl to from I) as [F1 F2]. split; [rewrite Kz; exact F1|]. intros to' from' I'. apply Ss in I'. exact (F2 to' from' I'). }
  specialize (Run Fs). cbn [app] in Run. set (L := sort_by fst (known (tzLinks d) aliases)) in *.
  exists (zf ++ flat_map (linked zf) L), (filter (has_source zf) L).
  split; [|split; [|split; [|split]]].
  - unfold generateZoneinfoFiles. rewrite Ez. fold (known (tzLinks d) aliases). fold L. rewrite Run. reflexivity.
  - rewrite map_app. apply nodup_app; [exact Nz| |].
    + clear - Ns. induction L as [|[to from] L IH]; cbn [flat_map map]; [constructor|]. cbn [map fst] in Ns. inversion Ns as [|? ? N1 N2]; subst. unfold linked at 1. cbn [fst snd]. destruct (assoc from zf) as [t0|]; cbn [app map fst]; [|auto].
      constructor; [|auto]. intro I. apply N1. apply in_map_iff in I as ([a b] & E & I). cbn [fst] in E. subst a. apply in_flat_map in I as ([t1 f1] & I1 & I2). unfold linked in I2. cbn [fst snd] in I2.
      destruct (assoc f1 zf) as [t2|]; [|destruct I2]. destruct I2 as [[= <- _]|[]]. apply in_map_iff. exists (t1, f1). auto.
    + intros n I J. apply in_map_iff in J as ([a b] & E & J). cbn [fst] in E. subst a. apply in_flat_map in J as ([t1 f1] & I1 & I2). unfold linked in I2. cbn [fst snd] in I2.
      destruct (assoc f1 zf) as [t2|]; [|destruct I2]. destruct I2 as [[= <- _]|[]]. exact (proj1 (Fs t1 f1 I1) I).
  - intros n t. rewrite in_app_iff, Hz, in_flat_map. split; (intros [H|H]; [left; exact H|right]).
    + destruct H as ([t1 f1] & I1 & I2). unfold linked in I2. cbn [fst snd] in I2. destruct (assoc f1 zf) as [t0|] eqn:E; [|destruct I2]. destruct I2 as [[= <- <-]|[]]. apply (assoc_in _ _ _ Nz) in E. apply Hz in E as [E1 E2].
      exists f1, t0. split; [apply Ss; exact I1|auto].
    + destruct H as (from & t0 & I1 & I2 & Et & ->). exists (n, from). split; [apply Ss; exact I1|]. unfold linked. cbn [fst snd]. assert (E : In (from, t0) zf) by (apply Hz; auto). apply (assoc_in _ _ _ Nz) in E. rewrite E. left. reflexivity.
  - intros to from. rewrite filter_In, Ss. split; intros [H1 H2]; (split; [exact H1|]).
    + unfold has_source in H2. cbn [snd] in H2. destruct (assoc from zf) as [t|] eqn:E; [|discriminate H2]. apply (assoc_in _ _ _ Nz) in E. apply Hz in E as [E _]. exact E.
    + unfold has_source. cbn [snd]. destruct (assoc from zf) eqn:E; [reflexivity|]. apply assoc_none in E. exfalso. apply E. apply Kz. exact H2.
  - pose proof (sorted_lt _ Nk) as S. fold L in S. clear - S. induction L as [|e L IH]; cbn [filter map]; [constructor|]. cbn [map] in S. inversion S as [|? ? S1 F1]; subst. destruct (has_source zf e); [|auto]. cbn [map].
    constructor; [auto|]. apply Forall_map. rewrite Forall_forall in *. intros y I. apply filter_In in I as [I _]. apply F1, in_map, I.
Qed.
Lemma unlinked_spec aliases want zones : utf8 prodid -> asks want d (map fst zones) -> Forall (fine_zone tzo d minYear maxYear) zones ->
  exists files, generateZoneinfoFiles tzo fl prodid d minYear maxYear false aliases want = Some (Ok (files, None)) /\ NoDup (map fst files) /\
  (forall n t, In (n, t) files <-> In n (map (fun p => znName (fst p)) zones) /\ vtimezones tzo fl prodid d minYear maxYear [n] = Some (Ok t)).
Proof.
  intros U A F. destruct (zone_part want zones U A F) as (zf & Ez & Nz & Kz & Hz). exists zf. unfold generateZoneinfoFiles. rewrite Ez. auto.
Qed.
(** ** The file of a link *)
Lemma link_spec zn subs to t : utf8 prodid -> asks [znName zn] d [zn] -> fine_zone tzo d minYear maxYear (zn, subs) -> short_name (znName zn) -> short_name to ->
  vtimezones tzo fl prodid d minYear maxYear [znName zn] = Some (Ok t) -> at_most_twice (znName zn) t ->
  exists cal c, parseTextData tzo ctx fl uuids (str_replace t (znName zn) to) = Ok (Some cal) /\ cKind cal = VCALENDAR /\ loadString (lit "PRODID") (cProps cal) = Some prodid /\ cSubs cal = [c] /\ shows_zone to subs c.
Proof.
  intros U A F Sf St E Tw. assert (Fz : Forall (fine_zone tzo d minYear maxYear) [(zn, subs)]) by (constructor; [exact F|constructor]). rewrite (file_text tzo fl prodid d minYear maxYear _ [(zn, subs)] A Fz) in E.
  destruct (text_shape fl prodid zn subs t Sf E) as (p & m & q & Sh). set (zn' := mkZone to (znRules zn)). pose proof (Sh zn' St) as E'. rewrite (Sh zn Sf) in E. injection E as <-.
  rewrite (replace_two _ to p m q (proj1 Sf) Tw). change (znName zn') with to in E'.
  set (d' := mkTzdata (tzRules d) [(to, zn')] []). destruct F as (Ev & Nm & Ff). cbn [fst snd] in *.
  assert (A' : asks [] d' (map fst [(zn', subs)])).
  { split; [repeat constructor; intros []|]. split; [|repeat constructor]. intro z. cbn. tauto. }
  assert (F' : Forall (fine_zone tzo d' minYear maxYear) [(zn', subs)]).
  { constructor; [|constructor]. split; [exact Ev|]. split; [|exact Ff]. destruct St as (_ & S1 & S2 & _). split; [exact S1|]. rewrite Forall_forall in S2. split; intro I; destruct (S2 _ I) as (X1 & X2 & _); congruence. }
  destruct (file_spec tzo ctx fl uuids prodid d' minYear maxYear [] [(zn', subs)] U A' F') as (t' & cal & G & R & K & P & _ & _ & Z).
  rewrite (file_text tzo fl prodid d' minYear maxYear [] [(zn', subs)] A' F'), E' in G. injection G as <-. inversion Z as [|x c l l' H Z' E1 E2]; subst. inversion Z'; subst. exists cal, c. auto.
Qed.
End WithCtx.

(** ** Zones that cannot be expanded. *)
Lemma info_raises tzo fl prodid d minYear maxYear links aliases want zn e : In zn (map snd (tzZones d)) -> want = [] \/ In (znName zn) want ->
  zone_vtimezone tzo zn (tzRules d) minYear maxYear = Raise e -> forall r, generateZoneinfoFiles tzo fl prodid d minYear maxYear links aliases want <> Some (Ok r).
Proof.
  intros I W E r. assert (J : In zn (filter (wanted want) (map snd (tzZones d)))).
  { apply filter_In. split; [exact I|]. unfold wanted. destruct want as [|w s]; [reflexivity|]. destruct W as [W|W]; [discriminate W|]. apply existsb_exists. exists (znName zn). split; [exact W|apply beq_refl]. }
  unfold generateZoneinfoFiles. revert J. generalize (filter (wanted want) (map snd (tzZones d))). intros l J.
  assert (H : forall files fs, zone_files tzo fl prodid d minYear maxYear l files <> Some (Ok fs)).
  { induction l as [|z l IH]; [destruct J|]. intros files fs. cbn [zone_files]. destruct J as [->|J].
    - unfold zone_text, made_zone. rewrite E. discriminate.
    - destruct (zone_text tzo fl prodid d minYear maxYear z) as [[t|x]|]; [apply IH, J|discriminate|discriminate]. }
  destruct (zone_files tzo fl prodid d minYear maxYear l []) as [[fs|x]|] eqn:Z; [destruct (H [] fs Z)|discriminate|discriminate].
Qed.
