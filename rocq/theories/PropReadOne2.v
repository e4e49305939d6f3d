(** C94, continued: the time zone database with the directory that the tz compiler writes. *)
From Verif Require Import TzDbModel TzDbSpec TzDbProofs TzDbProofs2 TzDbProofs3 PropTzDb ReadOneModel ReadOneSpec ReadOneProofs ReadOneProofs2.
From Coq Require Import Lia Sorting.Permutation Sorting.Sorted.
From Verif Require Import PyBase PyProofs PropertySpec ComponentModel StatusProofs2 ZonalModel ZoneFileProofs4 ZoneInfoProofs ZoneInfoProofs3 PropTimezone PropZone PropTzFile PropZoneFile.
From Verif Require Import ZoneInfoSpec PropComponent PropZoneTz PropZoneInfo.

(** A file that the tz compiler writes for a zone is read as this zone. *)
Lemma zone_held tzo ctx fl uuids prodid d minYear maxYear want zones p t : utf8 prodid -> asks want d (map fst zones) ->
  Forall (fun p => zone_vtimezone tzo (fst p) (tzRules d) minYear maxYear = Ok (snd p) /\ zone_name (znName (fst p)) /\ Forall sub_fine (snd p)) zones ->
  In p zones -> vtimezones tzo fl prodid d minYear maxYear [znName (fst p)] = Some (Ok t) ->
  exists c, holds tzo ctx fl uuids (znName (fst p)) t c /\ shows_zone (znName (fst p)) (snd p) c.
Proof.
  intros U A F I E. destruct (C75_zone tzo ctx fl uuids prodid d minYear maxYear want zones p t U A F I E) as (cal & c & R & _ & _ & S & Sh).
  exists c. split; [|exact Sh]. pose proof (asks_one d want zones (fst p) A (in_map fst _ _ I)) as A1. rewrite Forall_forall in F. pose proof (F p I) as Fp.
  assert (F1 : Forall (fun p => zone_vtimezone tzo (fst p) (tzRules d) minYear maxYear = Ok (snd p) /\ zone_name (znName (fst p)) /\ Forall sub_fine (snd p)) [p]) by (constructor; [exact Fp|constructor]).
  rewrite (file_text tzo fl prodid d minYear maxYear [znName (fst p)] [p] A1 F1) in E.
  assert (F2 : Forall (fun p => zone_name (znName (fst p)) /\ Forall sub_fine (snd p)) [p]) by (constructor; [exact (proj2 Fp)|constructor]).
  destruct (written_read tzo ctx fl uuids _ t cal (cal_ok ctx fl prodid [p] U F2) E R) as (r & zs & P & _). rewrite S in P.
  destruct Sh as (K & Id & _). split; [exact K|]. split; [exact Id|]. exists (r, zs). exact P.
Qed.

(** The database, for a directory that was written by generateZoneinfoFiles(): after any lookups, questions and merges, the name of a zone stands for the VTIMEZONE that the tz
    source defines, and is that of a standard zone. *)
Theorem C94_database : forall tzo ctx fl uuids prodid d minYear maxYear aliases want zones dir (final : bool), utf8 prodid -> asks want d (map fst zones) ->
  Forall (fun p => zone_vtimezone tzo (fst p) (tzRules d) minYear maxYear = Ok (snd p) /\ zone_name (znName (fst p)) /\ Forall sub_fine (snd p)) zones ->
  Forall (fun p => path_name (znName (fst p))) zones -> Forall name dir -> ~ In "000"%char (abs_path dir) -> final = true \/ dir <> [] ->
  exists files, generateZoneinfoFiles tzo fl prodid d minYear maxYear false aliases want = Some (Ok (files, None)) /\
  forall ops, forallb plain_op ops = true ->
  let reads := db_files tzo ctx fl uuids (directory dir files) in let id := fun c => sID (cState c) in
  let db := fst (db_run comp id reads (setPath comp (db_init comp) (if final then abs_path dir ++ lit "/" else abs_path dir)) ops) in
  (forall p, In p zones -> exists c, snd (getTimezone comp id reads db (Some (znName (fst p)))) = Ok (Some c) /\ shows_zone (znName (fst p)) (snd p) c /\
     snd (isStandardTimezone comp id reads db (Some (znName (fst p)))) = Ok true) /\
  (forall n, ~ In n (map (fun p => znName (fst p)) zones) -> ~ In "000"%char n ->
     snd (getTimezone comp id reads db (Some n)) = Ok (TzDbSpec.merged comp id ops n) /\ snd (isStandardTimezone comp id reads db (Some n)) = Ok false).
Proof.
  intros tzo ctx fl uuids prodid d minYear maxYear aliases want zones dir final U A F Pn Nd Nul Fin.
  destruct (C75_unlinked tzo fl prodid d minYear maxYear aliases want zones U A F) as (files & G & ND & Hf). exists files. split; [exact G|]. intros ops Pl reads id db.
  assert (D : db_dir comp id (zone_at tzo ctx fl uuids dir files) reads dir).
  { apply dir_db; [exact Nd|exact Nul|]. intros n t I. apply Hf in I as [I E]. apply in_map_iff in I as (p & <- & I). rewrite Forall_forall in Pn. split; [exact (Pn p I)|].
    destruct (zone_held tzo ctx fl uuids prodid d minYear maxYear want zones p t U A F I E) as (c & H & _). eauto. }
  split.
  - intros p I. assert (T : exists t, vtimezones tzo fl prodid d minYear maxYear [znName (fst p)] = Some (Ok t)).
    { pose proof (asks_one d want zones (fst p) A (in_map fst _ _ I)) as A1. rewrite Forall_forall in F.
      destruct (C74_read tzo ctx fl uuids prodid d minYear maxYear [znName (fst p)] [p] U A1) as (t & _ & E & _); [constructor; [exact (F p I)|constructor]|]. eauto. }
    destruct T as (t & T). destruct (zone_held tzo ctx fl uuids prodid d minYear maxYear want zones p t U A F I T) as (c & H & Sh).
    assert (Z : zone_at tzo ctx fl uuids dir files (znName (fst p)) = Some c).
    { apply (dir_has tzo ctx fl uuids dir files _ t c); [|exact ND|exact H]. apply Hf. split; [|exact T]. apply (in_map (fun p => znName (fst p)) _ _ I). }
    rewrite Forall_forall in Pn. destruct (Pn p I) as (Nn & _). exists c.
    destruct (C51_lookup comp id reads (zone_at tzo ctx fl uuids dir files) dir final D Fin ops (Some (znName (fst p))) Pl) as [_ L].
    destruct (C51_standard comp id reads (zone_at tzo ctx fl uuids dir files) dir final D Fin ops (Some (znName (fst p))) Pl) as [_ S].
    split; [|split; [exact Sh|]].
    + unfold db. rewrite (L Nn). cbn [TzDbSpec.meaning]. rewrite Z. reflexivity.
    + unfold db. rewrite (S Nn). cbn [TzDbSpec.known]. rewrite Z. reflexivity.
  - intros n Out Nn. assert (Z : zone_at tzo ctx fl uuids dir files n = None).
    { unfold zone_at, stored, db_files. destruct (directory dir files _) as [t|] eqn:E; [|reflexivity]. destruct (directory_in _ _ _ _ E) as (m & P & I). apply path_inj in P. subst m. apply Hf in I as [I _]. contradiction. }
    destruct (C51_lookup comp id reads (zone_at tzo ctx fl uuids dir files) dir final D Fin ops (Some n) Pl) as [_ L].
    destruct (C51_standard comp id reads (zone_at tzo ctx fl uuids dir files) dir final D Fin ops (Some n) Pl) as [_ S].
    unfold db. rewrite (L Nn), (S Nn). cbn [TzDbSpec.meaning TzDbSpec.known]. rewrite Z. auto.
Qed.
Print Assumptions C94_database.

(** New York in a directory, the name of which is given with a final "/"; before it, the database was asked for a zone that is not there and one was merged from a calendar. *)
Definition two_files : list (bytes * bytes) :=
  match generateZoneinfoFiles tz_none fl0 prodid two_data 1902 2030 false None [] with Some (Ok (f, _)) => f | _ => [] end.
Definition tzdir : list bytes := [lit "usr"; lit "tz"].
Definition office : comp := Comp VTIMEZONE (mkState [] [] None (lit "Office") None None 0) [] [].
Definition two_ops : list (dbop comp) := [DGet _ (Some (lit "Moon")); DMerge _ office; DIsStd _ (Some (lit "AST"))].
Definition two_reads := db_files tz_none default_ctx fl0 uuids0 (directory tzdir two_files).
Definition two_db := fst (db_run comp (fun c => sID (cState c)) two_reads (setPath comp (db_init comp) (lit "/usr/tz/")) two_ops).
Example C94_database_ex : Forall (fun p => path_name (znName (fst p))) both /\ Forall name tzdir /\ ~ In "000"%char (abs_path tzdir) /\ forallb plain_op two_ops = true /\
  map fst two_files = [lit "New_York"; lit "AST"] /\
  match snd (getTimezone comp (fun c => sID (cState c)) two_reads two_db (Some (lit "New_York"))) with
  | Ok (Some c) => sID (cState c) = lit "New_York" /\ map (fun s => (eName (element_of s), eTo (element_of s))) (cSubs c) = [(lit "EDT", -14400); (lit "EST", -18000); (lit "AST", -14400)]
  | _ => False
  end /\
  snd (isStandardTimezone comp (fun c => sID (cState c)) two_reads two_db (Some (lit "New_York"))) = Ok true /\
  snd (getTimezone comp (fun c => sID (cState c)) two_reads two_db (Some (lit "Office"))) = Ok (Some office) /\
  snd (isStandardTimezone comp (fun c => sID (cState c)) two_reads two_db (Some (lit "Office"))) = Ok false.
Proof.
  assert (P : forall n, TzDbSpec.name n -> ~ In "000"%char n -> path_name n).
  { intros n N U. split; [exact U|]. exists [n]. split; [discriminate|]. split; [constructor; [exact N|constructor]|]. unfold rel_path. cbn. rewrite app_nil_r. reflexivity. }
  assert (Q : forall n, n <> [] -> n <> lit "." -> n <> lit ".." -> ~ In "/"%char n -> TzDbSpec.name n) by (intros; repeat split; assumption).
  split; [constructor; [|constructor; [|constructor]]; (apply P; [apply Q; try discriminate|]); cbn; intuition discriminate|].
  split; [constructor; [|constructor; [|constructor]]; apply Q; try discriminate; cbn; intuition discriminate|].
  split; [cbn; intuition discriminate|]. split; [reflexivity|]. split; [vm_compute; reflexivity|]. split; [vm_compute; auto|]. split; [vm_compute; reflexivity|]. split; vm_compute; reflexivity.
Qed.
