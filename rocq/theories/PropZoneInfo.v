(** C75: the directory of iCalendar files that the tz compiler writes, with links. *)
From Coq Require Import Lia Sorting.Permutation Sorting.Sorted.
From Verif Require Import PyBase PyProofs PropertySpec ComponentModel StatusProofs2 ZonalModel ZoneFileProofs4 ZoneInfoProofs ZoneInfoProofs3 PropTimezone PropZone PropTzFile PropZoneFile.
From Verif Require Import ZoneInfoSpec PropComponent PropZoneTz.

(** generateZoneinfoFiles(): one file for every zone that was asked for, with the text of vtimezones() for it alone, and one for every link or alias to such a zone,
    with the new name in place of the old one; nothing else.  links.txt has these links, sorted. *)
Theorem C75_files : forall tzo fl prodid d minYear maxYear aliases want zones links, utf8 prodid -> asks want d (map fst zones) ->
  Forall (fun p => zone_vtimezone tzo (fst p) (tzRules d) minYear maxYear = Ok (snd p) /\ zone_name (znName (fst p)) /\ Forall sub_fine (snd p)) zones ->
  NoDup (map fst (tzLinks d)) -> all_links (tzLinks d) aliases links -> flat (map (fun p => znName (fst p)) zones) links ->
  exists files ls, generateZoneinfoFiles tzo fl prodid d minYear maxYear true aliases want =
      Some (Ok (files, Some (join_char LF (map (fun l => fst l ++ [TAB] ++ snd l) ls)))) /\ NoDup (map fst files) /\
  (forall n t, In (n, t) files <->
     (In n (map (fun p => znName (fst p)) zones) /\ vtimezones tzo fl prodid d minYear maxYear [n] = Some (Ok t)) \/
     (exists from t0, In (n, from) links /\ In from (map (fun p => znName (fst p)) zones) /\ vtimezones tzo fl prodid d minYear maxYear [from] = Some (Ok t0) /\ t = str_replace t0 from n)) /\
  (forall to from, In (to, from) ls <-> In (to, from) links /\ In from (map (fun p => znName (fst p)) zones)) /\ StronglySorted text_lt (map fst ls).
Proof. intros tzo fl. exact (files_spec tzo default_ctx fl (fun _ => [])). Qed.
Print Assumptions C75_files.

(** Without links, the zones only. *)
Theorem C75_unlinked : forall tzo fl prodid d minYear maxYear aliases want zones, utf8 prodid -> asks want d (map fst zones) ->
  Forall (fun p => zone_vtimezone tzo (fst p) (tzRules d) minYear maxYear = Ok (snd p) /\ zone_name (znName (fst p)) /\ Forall sub_fine (snd p)) zones ->
  exists files, generateZoneinfoFiles tzo fl prodid d minYear maxYear false aliases want = Some (Ok (files, None)) /\ NoDup (map fst files) /\
  (forall n t, In (n, t) files <-> In n (map (fun p => znName (fst p)) zones) /\ vtimezones tzo fl prodid d minYear maxYear [n] = Some (Ok t)).
Proof. intros tzo fl. exact (unlinked_spec tzo default_ctx fl (fun _ => [])). Qed.
Print Assumptions C75_unlinked.

(** No zone is left out because it cannot be expanded: then there is an exception and no result. *)
Theorem C75_raises : forall tzo fl prodid d minYear maxYear links aliases want zn e, In zn (map snd (tzZones d)) -> want = [] \/ In (znName zn) want ->
  zone_vtimezone tzo zn (tzRules d) minYear maxYear = Raise e -> forall r, generateZoneinfoFiles tzo fl prodid d minYear maxYear links aliases want <> Some (Ok r).
Proof. exact info_raises. Qed.
Print Assumptions C75_raises.

(** The file of a zone is read as a calendar with this zone. *)
Theorem C75_zone : forall tzo ctx fl uuids prodid d minYear maxYear want zones p t, utf8 prodid -> asks want d (map fst zones) ->
  Forall (fun p => zone_vtimezone tzo (fst p) (tzRules d) minYear maxYear = Ok (snd p) /\ zone_name (znName (fst p)) /\ Forall sub_fine (snd p)) zones ->
  In p zones -> vtimezones tzo fl prodid d minYear maxYear [znName (fst p)] = Some (Ok t) ->
  exists cal c, parseTextData tzo ctx fl uuids t = Ok (Some cal) /\ cKind cal = VCALENDAR /\ loadString (lit "PRODID") (cProps cal) = Some prodid /\
    cSubs cal = [c] /\ shows_zone (znName (fst p)) (snd p) c.
Proof.
  intros tzo ctx fl uuids prodid d minYear maxYear want zones p t U A F I E. pose proof (asks_one d want zones (fst p) A (in_map fst _ _ I)) as A1. rewrite Forall_forall in F.
  destruct (C74_read tzo ctx fl uuids prodid d minYear maxYear [znName (fst p)] [p] U A1) as (t' & cal & E' & R & K & P & _ & _ & Z & _); [constructor; [exact (F p I)|constructor]|].
  rewrite E in E'. injection E' as <-. inversion Z as [|x c l l' H Z' E1 E2]; subst. inversion Z'; subst. exists cal, c. auto.
Qed.
Print Assumptions C75_zone.

(** The file of a link is read as a calendar with this zone under its new name, if the old name occurs only twice in the file of the zone. *)
Theorem C75_link : forall tzo ctx fl uuids prodid d minYear maxYear want zones p to t, utf8 prodid -> asks want d (map fst zones) ->
  Forall (fun p => zone_vtimezone tzo (fst p) (tzRules d) minYear maxYear = Ok (snd p) /\ zone_name (znName (fst p)) /\ Forall sub_fine (snd p)) zones ->
  In p zones -> vtimezones tzo fl prodid d minYear maxYear [znName (fst p)] = Some (Ok t) ->
  short_name (znName (fst p)) -> short_name to -> at_most_twice (znName (fst p)) t ->
  exists cal c, parseTextData tzo ctx fl uuids (str_replace t (znName (fst p)) to) = Ok (Some cal) /\ cKind cal = VCALENDAR /\ loadString (lit "PRODID") (cProps cal) = Some prodid /\
    cSubs cal = [c] /\ shows_zone to (snd p) c.
Proof.
  intros tzo ctx fl uuids prodid d minYear maxYear want zones [zn subs] to t U A F I E S1 S2 Tw. pose proof (asks_one d want zones zn A (in_map fst _ _ I)) as A1. rewrite Forall_forall in F.
  exact (link_spec tzo ctx fl uuids prodid d minYear maxYear zn subs to t U A1 (F _ I) S1 S2 E Tw).
Qed.
Print Assumptions C75_link.

(** ** Examples: New York with a link, an alias and a link to a zone that is not there *)
Definition est_alias := [mkAlias (lit "US") (lit "Eastern Standard Time") (lit "Detroit"); mkAlias (lit "001") (lit "Eastern Standard Time") (lit "New_York");
  mkAlias (lit "001") (lit "US/Eastern") (lit "AST"); mkAlias (lit "001") (lit "Eastern Standard Time") (lit "AST")].
Definition dir_data : tzdata := mkTzdata (tzRules two_data) (tzZones two_data) [(lit "US/Eastern", lit "New_York"); (lit "Old", lit "Gone")].
Definition dir_links : list (bytes * bytes) := [(lit "US/Eastern", lit "New_York"); (lit "Old", lit "Gone"); (lit "Eastern Standard Time", lit "New_York")].
Definition files_of (d : tzdata) (aliases : option (list alias)) : list (bytes * bytes) * option bytes :=
  match generateZoneinfoFiles tz_none fl0 prodid d 1902 2030 true aliases [] with Some (Ok r) => r | _ => ([], None) end.
Definition read_names (t : bytes) : list (bytes * list (bytes * Z)) :=
  match parseTextData tz_none default_ctx fl0 uuids0 t with Ok (Some cal) => map (fun c => (sID (cState c), map (fun s => (eName (element_of s), eTo (element_of s))) (cSubs c))) (cSubs cal) | _ => [] end.
Lemma short_check n : forallb (fun c => (nat_of_ascii c <? 128)%nat && negb (cin c [CR; LF; "\"%char; ","%char; ";"%char])) n = true -> n <> [] -> (List.length n <= 50)%nat -> short_name n.
Proof.
  intros H N L. rewrite forallb_forall in H. split; [exact N|]. split; [apply ascii_text, forallb_forall; intros c I; specialize (H c I); apply andb_true_iff in H as [H _]; exact H|]. split; [|exact L].
  apply Forall_forall. intros c I. specialize (H c I). apply andb_true_iff in H as [_ H]. apply negb_true_iff in H. repeat split; intros ->; discriminate H.
Qed.
Lemma dir_all : all_links (tzLinks dir_data) (Some est_alias) dir_links.
Proof.
  pose proof (known_all (tzLinks dir_data) (Some est_alias)) as H. change (known (tzLinks dir_data) (Some est_alias)) with dir_links in H. apply H.
  constructor; [intros [E|[]]; discriminate E|]. constructor; [intros []|constructor].
Qed.
Lemma dir_flat : flat (map (fun p => znName (fst p)) both) dir_links.
Proof.
  intros to from I. split.
  - intros [E|[E|[]]]; rewrite <- E in I; destruct I as [I|[I|[I|[]]]]; discriminate I.
  - intros to' from' I' E. rewrite E in I'. destruct I as [I|[I|[I|[]]]]; injection I as <- <-; destruct I' as [I'|[I'|[I'|[]]]]; discriminate I'.
Qed.
Example C75_files_ex : asks [] dir_data (map fst both) /\ NoDup (map fst (tzLinks dir_data)) /\ all_links (tzLinks dir_data) (Some est_alias) dir_links /\ flat (map (fun p => znName (fst p)) both) dir_links /\
  map fst (fst (files_of dir_data (Some est_alias))) = [lit "New_York"; lit "AST"; lit "Eastern Standard Time"; lit "US/Eastern"] /\
  snd (files_of dir_data (Some est_alias)) = Some (lit "Eastern Standard Time" ++ [TAB] ++ lit "New_York" ++ [LF] ++ lit "US/Eastern" ++ [TAB] ++ lit "New_York").
Proof.
  split; [exact both_asked|]. split; [constructor; [intros [E|[]]; discriminate E|]; constructor; [intros []|constructor]|]. split; [exact dir_all|]. split; [exact dir_flat|]. split; vm_compute; reflexivity.
Qed.
Example C75_unlinked_ex : exists files, generateZoneinfoFiles tz_none fl0 prodid dir_data 1902 2030 false (Some est_alias) [lit "New_York"] = Some (Ok (files, None)) /\ map fst files = [lit "New_York"].
Proof. eexists. split; [vm_compute; reflexivity|reflexivity]. Qed.
Example C75_raises_ex : zone_vtimezone tz_none (mkZone (lit "X") west) [(lit "N", back)] 1902 1950 = Raise AssertionError /\
  generateZoneinfoFiles tz_none fl0 prodid back_data 1902 1950 true None [] = Some (Raise AssertionError) /\
  exists r, generateZoneinfoFiles tz_none fl0 prodid back_data 1902 1950 true None [lit "AST"] = Some (Ok r).
Proof. split; [vm_compute; reflexivity|]. split; [vm_compute; reflexivity|]. eexists. vm_compute. reflexivity. Qed.
Example C75_zone_ex : exists t, vtimezones tz_none fl0 prodid dir_data 1902 2030 [lit "New_York"] = Some (Ok t) /\ assoc (lit "New_York") (fst (files_of dir_data None)) = Some t /\
  read_names t = [(lit "New_York", [(lit "EDT", -14400); (lit "EST", -18000); (lit "AST", -14400)])].
Proof. eexists. split; [vm_compute; reflexivity|]. split; vm_compute; reflexivity. Qed.
Example C75_link_ex : short_name (lit "New_York") /\ short_name (lit "Eastern Standard Time") /\
  exists t, vtimezones tz_none fl0 prodid dir_data 1902 2030 [lit "New_York"] = Some (Ok t) /\ at_most_twice (lit "New_York") t /\
  read_names (str_replace t (lit "New_York") (lit "Eastern Standard Time")) = [(lit "Eastern Standard Time", [(lit "EDT", -14400); (lit "EST", -18000); (lit "AST", -14400)])].
Proof.
  split; [apply short_check; [reflexivity|discriminate|cbn; lia]|]. split; [apply short_check; [reflexivity|discriminate|cbn; lia]|].
  eexists. split; [vm_compute; reflexivity|]. split; [apply twice_check; vm_compute; lia|]. vm_compute. reflexivity.
Qed.

(** ** What links do not do *)
(** A link to a link has a file only if its name comes after that of the other link. *)
Definition chain (n : string) : tzdata := mkTzdata (tzRules two_data) (tzZones two_data) [(lit "US/Eastern", lit "New_York"); (lit n, lit "US/Eastern")].
Theorem C75_chain_refuted : exists d n source, In (n, source) (tzLinks d) /\ In (source, lit "New_York") (tzLinks d) /\ In (lit "New_York") (map fst (tzZones d)) /\
  assoc source (fst (files_of d None)) <> None /\ assoc n (fst (files_of d None)) = None /\
  exists e m, tzRules e = tzRules d /\ tzZones e = tzZones d /\ tzLinks e = [(source, lit "New_York"); (m, source)] /\ assoc m (fst (files_of e None)) <> None.
Proof.
  exists (chain "Big_Apple"), (lit "Big_Apple"), (lit "US/Eastern"). split; [right; left; reflexivity|]. split; [left; reflexivity|]. split; [left; reflexivity|].
  split; [vm_compute; discriminate|]. split; [vm_compute; reflexivity|]. exists (chain "Yankee"), (lit "Yankee"). do 3 (split; [reflexivity|]). vm_compute. discriminate.
Qed.
Print Assumptions C75_chain_refuted.
(** The old name is replaced wherever it is: in the names of the times too. *)
Definition est : zone := mkZone (lit "EST") (znRules ny).
Definition est_data : tzdata := mkTzdata (tzRules two_data) [(lit "EST", est)] [(lit "Eastern", lit "EST")].
Theorem C75_rename_refuted : exists t u, assoc (lit "EST") (fst (files_of est_data None)) = Some t /\ assoc (lit "Eastern") (fst (files_of est_data None)) = Some u /\
  read_names t = [(lit "EST", [(lit "EDT", -14400); (lit "EST", -18000); (lit "AST", -14400)])] /\
  read_names u = [(lit "Eastern", [(lit "EDT", -14400); (lit "Eastern", -18000); (lit "AST", -14400)])].
Proof. eexists. eexists. split; [vm_compute; reflexivity|]. split; [vm_compute; reflexivity|]. split; vm_compute; reflexivity. Qed.
Print Assumptions C75_rename_refuted.
(** It can be in the names of the components: the file of the link cannot be read. *)
Definition odd_data : tzdata := mkTzdata (tzRules two_data) [(lit "TIME", mkZone (lit "TIME") (znRules ny))] [(lit "Eastern", lit "TIME")].
Theorem C75_broken_refuted : exists t u, assoc (lit "TIME") (fst (files_of odd_data None)) = Some t /\ assoc (lit "Eastern") (fst (files_of odd_data None)) = Some u /\
  read_names t = [(lit "TIME", [(lit "EDT", -14400); (lit "EST", -18000); (lit "AST", -14400)])] /\
  forall c e, parseTextData tz_none default_ctx fl0 uuids0 u = Ok (Some c) -> In e (cSubs c) -> cKind e <> VTIMEZONE.
Proof.
  eexists. eexists. split; [vm_compute; reflexivity|]. split; [vm_compute; reflexivity|]. split; [vm_compute; reflexivity|].
  intros c e H. vm_compute in H. first [discriminate H | injection H as <-; cbn; intuition (subst; discriminate)].
Qed.
Print Assumptions C75_broken_refuted.
(** A link with the name of a zone replaces its file. *)
Definition over_data : tzdata := mkTzdata (tzRules two_data) (tzZones two_data) [(lit "AST", lit "New_York")].
Theorem C75_overwritten_refuted : exists t u, vtimezones tz_none fl0 prodid over_data 1902 2030 [lit "AST"] = Some (Ok t) /\
  assoc (lit "AST") (fst (files_of over_data None)) = Some u /\ read_names t = [(lit "AST", [])] /\ read_names u <> read_names t.
Proof. eexists. eexists. split; [vm_compute; reflexivity|]. split; [vm_compute; reflexivity|]. split; [vm_compute; reflexivity|vm_compute; discriminate]. Qed.
Print Assumptions C75_overwritten_refuted.
