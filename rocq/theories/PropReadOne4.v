(** C94, continued: the database with a directory that has links. *)
From Verif Require Import TzDbModel TzDbSpec TzDbProofs TzDbProofs2 TzDbProofs3 PropTzDb ReadOneModel ReadOneSpec ReadOneProofs ReadOneProofs2 PropReadOne2.
From Coq Require Import Lia Sorting.Permutation Sorting.Sorted.
From Verif Require Import PyBase PyProofs PropertySpec ComponentModel StatusProofs2 ZonalModel ZoneFileProofs4 ZoneInfoProofs ZoneInfoProofs2 ZoneInfoProofs3 PropTimezone PropZone PropTzFile PropZoneFile.
From Verif Require Import ZoneInfoSpec PropComponent PropZoneTz PropZoneInfo.

(** The file of a link is read as the zone with the new name. *)
Lemma link_held tzo ctx fl uuids prodid d minYear maxYear zn subs to t : utf8 prodid -> asks [znName zn] d [zn] ->
  zone_vtimezone tzo zn (tzRules d) minYear maxYear = Ok subs /\ zone_name (znName zn) /\ Forall sub_fine subs -> short_name (znName zn) -> short_name to ->
  vtimezones tzo fl prodid d minYear maxYear [znName zn] = Some (Ok t) -> at_most_twice (znName zn) t ->
  exists c, holds tzo ctx fl uuids to (str_replace t (znName zn) to) c /\ shows_zone to subs c.
Proof.
  intros U A F Sf St E Tw. destruct (link_spec tzo ctx fl uuids prodid d minYear maxYear zn subs to t U A F Sf St E Tw) as (cal & c & R & _ & _ & S & Sh). exists c. split; [|exact Sh].
  rewrite (file_text tzo fl prodid d minYear maxYear _ [(zn, subs)] A) in E by (constructor; [exact F|constructor]).
  destruct (text_shape fl prodid zn subs t Sf E) as (p & m & q & Shp). set (zn' := mkZone to (znRules zn)). pose proof (Shp zn' St) as E'. rewrite (Shp zn Sf) in E. injection E as <-.
  rewrite (replace_two _ to p m q (proj1 Sf) Tw) in *. change (znName zn') with to in E'.
  assert (F2 : Forall (fun p => zone_name (znName (fst p)) /\ Forall sub_fine (snd p)) [(zn', subs)]).
  { constructor; [|constructor]. split; [|exact (proj2 (proj2 F))]. destruct St as (_ & S1 & S2 & _). split; [exact S1|]. rewrite Forall_forall in S2. split; intro I; destruct (S2 _ I) as (X1 & X2 & _); congruence. }
  destruct (written_read tzo ctx fl uuids _ _ cal (cal_ok ctx fl prodid [(zn', subs)] U F2) E' R) as (r & zs & P & _). rewrite S in P.
  destruct Sh as (K & Id & _). split; [exact K|]. split; [exact Id|]. exists (r, zs). exact P.
Qed.

(** With links: the name of a link stands for the zone that it leads to, under the name of the link. *)
Theorem C94_links : forall tzo ctx fl uuids prodid d minYear maxYear aliases want zones links dir (final : bool), utf8 prodid -> asks want d (map fst zones) ->
  Forall (fun p => zone_vtimezone tzo (fst p) (tzRules d) minYear maxYear = Ok (snd p) /\ zone_name (znName (fst p)) /\ Forall sub_fine (snd p)) zones ->
  NoDup (map fst (tzLinks d)) -> all_links (tzLinks d) aliases links -> flat (map (fun p => znName (fst p)) zones) links ->
  Forall (fun p => path_name (znName (fst p))) zones -> Forall (fun l => path_name (fst l)) links ->
  (forall to p t, In (to, znName (fst p)) links -> In p zones -> vtimezones tzo fl prodid d minYear maxYear [znName (fst p)] = Some (Ok t) ->
     short_name to /\ short_name (znName (fst p)) /\ at_most_twice (znName (fst p)) t) ->
  Forall name dir -> ~ In "000"%char (abs_path dir) -> final = true \/ dir <> [] ->
  exists files index, generateZoneinfoFiles tzo fl prodid d minYear maxYear true aliases want = Some (Ok (files, Some index)) /\
  forall ops, forallb plain_op ops = true ->
  let reads := db_files tzo ctx fl uuids (directory dir files) in let id := fun c => sID (cState c) in
  let db := fst (db_run comp id reads (setPath comp (db_init comp) (if final then abs_path dir ++ lit "/" else abs_path dir)) ops) in
  forall p n, In p zones -> n = znName (fst p) \/ In (n, znName (fst p)) links ->
  exists c, snd (getTimezone comp id reads db (Some n)) = Ok (Some c) /\ shows_zone n (snd p) c /\ snd (isStandardTimezone comp id reads db (Some n)) = Ok true.
Proof.
  intros tzo ctx fl uuids prodid d minYear maxYear aliases want zones links dir final U A F NL AL FL Pn Pl Sn Nd Nul Fin.
  destruct (C75_files tzo fl prodid d minYear maxYear aliases want zones links U A F NL AL FL) as (files & ls & G & ND & Hf & _). exists files. eexists. split; [exact G|]. intros ops Po reads id db.
  assert (T : forall p, In p zones -> exists t, vtimezones tzo fl prodid d minYear maxYear [znName (fst p)] = Some (Ok t)).
  { intros p I. pose proof (asks_one d want zones (fst p) A (in_map fst _ _ I)) as A1. rewrite Forall_forall in F.
    destruct (C74_read tzo ctx fl uuids prodid d minYear maxYear [znName (fst p)] [p] U A1) as (t & _ & E & _); [constructor; [exact (F p I)|constructor]|]. eauto. }
  assert (L : forall p to t, In p zones -> In (to, znName (fst p)) links -> vtimezones tzo fl prodid d minYear maxYear [znName (fst p)] = Some (Ok t) ->
     exists c, holds tzo ctx fl uuids to (str_replace t (znName (fst p)) to) c /\ shows_zone to (snd p) c).
  { intros [zn subs] to t I J E. destruct (Sn to (zn, subs) t J I E) as (S1 & S2 & Tw). pose proof (asks_one d want zones zn A (in_map fst _ _ I)) as A1. rewrite Forall_forall in F.
    exact (link_held tzo ctx fl uuids prodid d minYear maxYear zn subs to t U A1 (F _ I) S2 S1 E Tw). }
  assert (D : db_dir comp id (zone_at tzo ctx fl uuids dir files) reads dir).
  { apply dir_db; [exact Nd|exact Nul|]. intros n t I. apply Hf in I as [[I E]|(from & t0 & J & I & E & ->)]; apply in_map_iff in I as (p & Q & I).
    - subst n. rewrite Forall_forall in Pn. split; [exact (Pn p I)|]. destruct (zone_held tzo ctx fl uuids prodid d minYear maxYear want zones p t U A F I E) as (c & H & _). eauto.
    - subst from. rewrite Forall_forall in Pl. split; [exact (Pl _ J)|]. destruct (L p n t0 I J E) as (c & H & _). eauto. }
  intros p n I N. destruct (T p I) as (t & E).
  assert (H : exists t' c, In (n, t') files /\ holds tzo ctx fl uuids n t' c /\ shows_zone n (snd p) c /\ path_name n).
  { rewrite Forall_forall in Pn, Pl. destruct N as [-> | J].
    - destruct (zone_held tzo ctx fl uuids prodid d minYear maxYear want zones p t U A F I E) as (c & H & Sh). exists t, c. split; [|auto]. apply Hf. left. split; [|exact E]. apply (in_map (fun p => znName (fst p)) _ _ I).
    - destruct (L p n t I J E) as (c & H & Sh). exists (str_replace t (znName (fst p)) n), c. split; [|split; [exact H|split; [exact Sh|exact (Pl _ J)]]]. apply Hf. right. exists (znName (fst p)), t.
      split; [exact J|]. split; [apply (in_map (fun p => znName (fst p)) _ _ I)|auto]. }
  destruct H as (t' & c & If & H & Sh & Nn & _). pose proof (dir_has tzo ctx fl uuids dir files n t' c If ND H) as Z. exists c.
  destruct (C51_lookup comp id reads (zone_at tzo ctx fl uuids dir files) dir final D Fin ops (Some n) Po) as [_ L1].
  destruct (C51_standard comp id reads (zone_at tzo ctx fl uuids dir files) dir final D Fin ops (Some n) Po) as [_ S1].
  split; [|split; [exact Sh|]].
  - unfold db. rewrite (L1 Nn). cbn [TzDbSpec.meaning]. rewrite Z. reflexivity.
  - unfold db. rewrite (S1 Nn). cbn [TzDbSpec.known]. rewrite Z. reflexivity.
Qed.
Print Assumptions C94_links.

(** US/Eastern, a link to New York. *)
Definition link_reads := db_files tz_none default_ctx fl0 uuids0 (directory tzdir (fst (files_of dir_data (Some est_alias)))).
Definition link_db := fst (db_run comp (fun c => sID (cState c)) link_reads (setPath comp (db_init comp) (lit "/usr/tz/")) two_ops).
Example C94_links_ex : all_links (tzLinks dir_data) (Some est_alias) dir_links /\ flat (map (fun p => znName (fst p)) both) dir_links /\ Forall (fun l => path_name (fst l)) dir_links /\
  (exists t, vtimezones tz_none fl0 prodid dir_data 1902 2030 [lit "New_York"] = Some (Ok t) /\ at_most_twice (lit "New_York") t) /\
  match snd (getTimezone comp (fun c => sID (cState c)) link_reads link_db (Some (lit "US/Eastern"))) with
  | Ok (Some c) => sID (cState c) = lit "US/Eastern" /\ map (fun s => (eName (element_of s), eTo (element_of s))) (cSubs c) = [(lit "EDT", -14400); (lit "EST", -18000); (lit "AST", -14400)]
  | _ => False
  end /\
  snd (isStandardTimezone comp (fun c => sID (cState c)) link_reads link_db (Some (lit "US/Eastern"))) = Ok true.
Proof.
  split; [exact dir_all|]. split; [exact dir_flat|]. split.
  { assert (Q : forall n, n <> [] -> n <> lit "." -> n <> lit ".." -> ~ In "/"%char n -> TzDbSpec.name n) by (intros; repeat split; assumption).
    constructor; [|constructor; [|constructor; [|constructor]]]; (split; [cbn; intuition discriminate|]).
    - exists [lit "US"; lit "Eastern"]. split; [discriminate|]. split; [|reflexivity]. constructor; [|constructor; [|constructor]]; apply Q; try discriminate; cbn; intuition discriminate.
    - exists [lit "Old"]. split; [discriminate|]. split; [|reflexivity]. constructor; [|constructor]; apply Q; try discriminate; cbn; intuition discriminate.
    - exists [lit "Eastern Standard Time"]. split; [discriminate|]. split; [|reflexivity]. constructor; [|constructor]; apply Q; try discriminate; cbn; intuition discriminate. }
  split; [eexists; split; [vm_compute; reflexivity|apply twice_check; vm_compute; lia]|]. split; [vm_compute; auto|]. vm_compute. reflexivity.
Qed.
