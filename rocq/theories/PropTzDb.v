(** Properties of the time zone database: C38 (which files it opens) and C51 (what lookups answer). *)
From Verif Require Import PyBase TzDbModel TzDbSpec TzDbProofs TzDbProofs2 TzDbProofs3.

(** For the examples: a zone is its TZID with a number, and some paths hold one zone each. *)
Definition zid (z : bytes * nat) : bytes := fst z.
Definition disk (l : list (bytes * (bytes * nat))) (p : bytes) : file (bytes * nat) :=
  match find (fun e => beq (fst e) p) l with Some e => Some ([snd e], Ok tt) | None => None end.
Definition fresh (p : bytes) : db (bytes * nat) := setPath _ (db_init _) p.
Definition ny : bytes * nat := (lit "America/New_York", 1%nat).
Definition office : bytes * nat := (lit "Office", 2%nat).
Definition one_zone := disk [(lit "/usr/share/tz/America/New_York.ics", ny)].
Definition usr_tz : list bytes := [lit "usr"; lit "share"; lit "tz"].
Ltac names := repeat constructor; try discriminate; cbn; intuition discriminate.

(** C38. Every file opened by any sequence of calls is the one that "TZID.ics", resolved relative to
    the configured directory, names for some TZID, and its path begins with the configured string. *)
Theorem C38_opened : forall tz getID files dir ops, Forall (keeps_path dir) ops ->
  forall p, In p (snd (db_run tz getID files (setPath tz (db_init tz) dir) ops)) ->
  startswith p dir = true /\ exists k, forall cwd, place cwd p = place (place cwd dir) (file_name k).
Proof.
  intros tz getID files dir ops K p I. destruct (run_opens tz getID files dir ops (setPath tz (db_init tz) dir) eq_refl K p I) as (k & zr & -> & S & _).
  split; [exact S|]. exists k. intro cwd. apply tz_path_place.
Qed.
Print Assumptions C38_opened.
Example C38_opened_ex :
  let ops := [DIsStd _ None; DGet _ (Some (lit "America/./New_York")); DMerge _ office; DClear _; DGet _ (Some (lit "America/New_York"))] in
  Forall (keeps_path (lit "/usr/share/tz")) ops /\
  snd (db_run _ zid one_zone (fresh (lit "/usr/share/tz")) ops) = [lit "/usr/share/tz/America/New_York.ics"; lit "/usr/share/tz/America/New_York.ics"].
Proof. split; [repeat constructor|vm_compute; reflexivity]. Qed.

(** A directory that is configured with a final "/" is never left. *)
Theorem C38_inside : forall tz getID files names ops, Forall name names -> Forall (keeps_path (abs_path names ++ lit "/")) ops ->
  forall p, In p (snd (db_run tz getID files (setPath tz (db_init tz) (abs_path names ++ lit "/")) ops)) ->
  forall cwd, below names (place cwd p).
Proof.
  intros tz getID files names ops FN K p I cwd. destruct (run_opens tz getID files _ ops (setPath tz (db_init tz) _) eq_refl K p I) as (k & zr & -> & S & _).
  apply inside; assumption.
Qed.
Print Assumptions C38_inside.
(** The secret would be found by its path, but is not opened; the zone is. *)
Example C38_inside_ex :
  let files := disk [(lit "/usr/share/tz/America/New_York.ics", ny); (lit "/usr/share/tz-private/x.ics", office)] in
  let ops := [DGet _ (Some (lit "../tz-private/x")); DGet _ (Some (lit "/usr/share/tz-private/x")); DGet _ (Some (lit "../tz/America/New_York"))] in
  Forall name usr_tz /\ abs_path usr_tz ++ lit "/" = lit "/usr/share/tz/" /\ Forall (keeps_path (abs_path usr_tz ++ lit "/")) ops /\
  snd (db_run _ zid files (fresh (lit "/usr/share/tz/")) ops) = [lit "/usr/share/tz/America/New_York.ics"] /\
  place [] (lit "/usr/share/tz/America/New_York.ics") = usr_tz ++ [lit "America"; lit "New_York.ics"].
Proof. split; [names|]. split; [reflexivity|]. split; [repeat constructor|]. split; vm_compute; reflexivity. Qed.

(** Without the final "/", the files opened are in the directory or in an entry of the parent
    directory whose name begins with the name of the directory. *)
Theorem C38_siblings : forall tz getID files parent n ops, Forall name parent -> name n -> Forall (keeps_path (abs_path (parent ++ [n]))) ops ->
  forall p, In p (snd (db_run tz getID files (setPath tz (db_init tz) (abs_path (parent ++ [n]))) ops)) ->
  forall cwd, exists s rest, place cwd p = parent ++ (n ++ s) :: rest.
Proof.
  intros tz getID files par n ops FN Nn K p I cwd. destruct (run_opens tz getID files _ ops (setPath tz (db_init tz) _) eq_refl K p I) as (k & zr & -> & S & _).
  apply beside; assumption.
Qed.
Print Assumptions C38_siblings.
Example C38_siblings_ex :
  let files := disk [(lit "/usr/share/tz/America/New_York.ics", ny); (lit "/usr/share/office.ics", office)] in
  let ops := [DGet _ (Some (lit "../office")); DGet _ (Some (lit "America/New_York"))] in
  Forall name [lit "usr"; lit "share"] /\ name (lit "tz") /\ Forall (keeps_path (abs_path usr_tz)) ops /\
  snd (db_run _ zid files (fresh (lit "/usr/share/tz")) ops) = [lit "/usr/share/tz/America/New_York.ics"].
Proof. split; [names|]. split; [names|]. split; [repeat constructor|]. vm_compute. reflexivity. Qed.

(** Such an entry is really opened. *)
Theorem C38_sibling_refuted : exists (files : bytes -> file (bytes * nat)) names tzid p cwd,
  Forall name names /\ In p (snd (fst (getTimezone _ zid files (fresh (abs_path names)) (Some tzid)))) /\ ~ below names (place cwd p).
Proof.
  exists (disk [(lit "/usr/share/tz-private/x.ics", office)]), usr_tz, (lit "../tz-private/x"), (lit "/usr/share/tz-private/x.ics"), [].
  split; [names|]. split; [vm_compute; auto|]. intros (rest & _ & E). vm_compute in E. discriminate.
Qed.
Print Assumptions C38_sibling_refuted.
(** With the current directory as "." the zones in it are not found, but files of its parent are. *)
Theorem C38_dot_refuted : exists (files : bytes -> file (bytes * nat)) cwd tzid p,
  In p (snd (fst (getTimezone _ zid files (fresh (lit ".")) (Some tzid)))) /\ ~ below cwd (place cwd p) /\
  files (lit "Office.ics") = Some ([office], Ok tt) /\ snd (getTimezone _ zid files (fresh (lit ".")) (Some (lit "Office"))) = Ok None.
Proof.
  exists (disk [(lit "../x.ics", ny); (lit "Office.ics", office)]), usr_tz, (lit "../x"), (lit "../x.ics").
  split; [vm_compute; auto|]. split; [|split; vm_compute; reflexivity]. intros (rest & _ & E). vm_compute in E. discriminate.
Qed.
Print Assumptions C38_dot_refuted.

(** The path opened for an ordinary TZID (names joined by "/") is the file TZID.ics of the
    directory, configured with or without a final "/". *)
Theorem C38_finds : forall dir names id (final : bool), Forall name dir -> names <> [] -> Forall name names -> rel_path names id ->
  final = true \/ dir <> [] ->
  let dbpath := if final then abs_path dir ++ lit "/" else abs_path dir in
  forall tz getID files zs r, files (abs_path dir ++ lit "/" ++ id ++ lit ".ics") = Some (zs, r) -> ~ In "000"%char (abs_path dir ++ id) ->
  snd (fst (getTimezone tz getID files (setPath tz (db_init tz) dbpath) (Some id))) = [abs_path dir ++ lit "/" ++ id ++ lit ".ics"].
Proof.
  intros dir names id final FD N FN R ND dbpath tz getID files zs r F NUL.
  destruct (found_path dir id names final FD N FN R) as [FP|[E1 E2]]; [|destruct ND; congruence].
  change (tz_path dbpath (Some id) = abs_path dir ++ "/"%char :: id ++ lit ".ics") in FP. unfold getTimezone, cacheTimezone. cbn [setPath dPath dCache dCal db_init cache_get cal_getTimezone find]. cbv zeta. rewrite FP.
  replace (startswith _ _) with true.
  2:{ symmetry. unfold dbpath. apply starts_app. destruct final; [exists (id ++ lit ".ics"); rewrite <- app_assoc; reflexivity|eexists; reflexivity]. }
  replace (cin "000" _) with false.
  2:{ symmetry. apply cin_out. rewrite in_app_iff in *. cbn [In]. rewrite in_app_iff. cbn. intuition discriminate. }
  change (abs_path dir ++ "/"%char :: id ++ lit ".ics") with (abs_path dir ++ lit "/" ++ id ++ lit ".ics"). rewrite F.
  destruct r as [u|[]]; reflexivity.
Qed.
Print Assumptions C38_finds.
Example C38_finds_ex : Forall name usr_tz /\ rel_path [lit "America"; lit "New_York"] (lit "America/New_York") /\
  Forall name [lit "America"; lit "New_York"] /\ one_zone (abs_path usr_tz ++ lit "/" ++ lit "America/New_York" ++ lit ".ics") = Some ([ny], Ok tt) /\
  getTimezone _ zid one_zone (fresh (lit "/usr/share/tz")) (Some (lit "America/New_York")) =
    (mkDb _ (Some (lit "/usr/share/tz")) [ny] [(Some (lit "America/New_York"), Some ny)] [Some (lit "America/New_York")] [],
     [lit "/usr/share/tz/America/New_York.ics"], Ok (Some ny)).
Proof. split; [names|]. split; [reflexivity|]. split; [names|]. split; vm_compute; reflexivity. Qed.

(** C51. After any sequence of lookups, questions and merges, a TZID stands for its definition in the
    database directory, else for the first definition merged from a calendar; the order of lookups
    and the caches do not matter. *)
Theorem C51_lookup : forall tz getID files zone dir (final : bool), db_dir tz getID zone files dir -> final = true \/ dir <> [] ->
  forall ops k, forallb plain_op ops = true ->
  let d := fst (db_run tz getID files (setPath tz (db_init tz) (if final then abs_path dir ++ lit "/" else abs_path dir)) ops) in
  let answer := snd (getTimezone tz getID files d k) in
  (forall v, answer = Ok v -> v = meaning tz getID zone ops k) /\ (no_nul k -> answer = Ok (meaning tz getID zone ops k)).
Proof. intros tz getID files zone dir final D N ops k. exact (lookup_meaning tz getID files zone dir final D N ops k). Qed.
Print Assumptions C51_lookup.
Definition one_id (id : bytes) : option (bytes * nat) := if beq id (lit "America/New_York") then Some ny else None.
Lemma one_dir : db_dir _ zid one_id one_zone usr_tz.
Proof.
  split; [names|]. split; [cbn; intuition discriminate|]. split.
  - intros id z H. unfold one_id in H. destruct (beq id _) eqn:E; [|discriminate]. injection H as <-. apply PyProofs.beq_eq in E. subst id.
    split; [reflexivity|]. split; [cbn; intuition discriminate|]. split; [|vm_compute; reflexivity].
    exists [lit "America"; lit "New_York"]. split; [discriminate|]. split; [names|reflexivity].
  - intros q zs r H. unfold one_zone, disk in H. cbn [find] in H. destruct (beq _ _); [|discriminate]. injection H as <- <-. exists ny. repeat split.
Qed.
(** The calendar's own definition of New York is ignored, its Office is taken. *)
Definition calls : list (dbop (bytes * nat)) :=
  [DGet _ (Some (lit "Office")); DMerge _ (lit "America/New_York", 7%nat); DMerge _ office; DIsStd _ (Some (lit "Office")); DMerge _ (lit "Office", 9%nat)].
Example C51_lookup_ex : db_dir _ zid one_id one_zone usr_tz /\ forallb plain_op calls = true /\
  let d := fst (db_run _ zid one_zone (fresh (lit "/usr/share/tz")) calls) in
  snd (getTimezone _ zid one_zone d (Some (lit "Office"))) = Ok (Some office) /\
  snd (getTimezone _ zid one_zone d (Some (lit "America/New_York"))) = Ok (Some ny) /\
  snd (getTimezone _ zid one_zone d (Some (lit "Moon"))) = Ok None /\ snd (getTimezone _ zid one_zone d None) = Ok None.
Proof. split; [exact one_dir|]. split; [reflexivity|]. cbv zeta. repeat (split; [vm_compute; reflexivity|]). vm_compute. reflexivity. Qed.

(** A TZID is called standard exactly if the database directory defines it, whatever happened before. *)
Theorem C51_standard : forall tz getID files zone dir (final : bool), db_dir tz getID zone files dir -> final = true \/ dir <> [] ->
  forall ops k, forallb plain_op ops = true ->
  let d := fst (db_run tz getID files (setPath tz (db_init tz) (if final then abs_path dir ++ lit "/" else abs_path dir)) ops) in
  let answer := snd (isStandardTimezone tz getID files d k) in
  (forall b, answer = Ok b -> b = known tz zone k) /\ (no_nul k -> answer = Ok (known tz zone k)).
Proof. intros tz getID files zone dir final D N ops k. exact (std_meaning tz getID files zone dir final D N ops k). Qed.
Print Assumptions C51_standard.
Example C51_standard_ex : db_dir _ zid one_id one_zone usr_tz /\ forallb plain_op calls = true /\
  let d := fst (db_run _ zid one_zone (fresh (lit "/usr/share/tz")) calls) in
  snd (isStandardTimezone _ zid one_zone d (Some (lit "Office"))) = Ok false /\
  snd (isStandardTimezone _ zid one_zone d (Some (lit "America/New_York"))) = Ok true.
Proof. split; [exact one_dir|]. split; [reflexivity|]. split; vm_compute; reflexivity. Qed.

(** With addTimezone (which adds without looking) the answers depend on the order: a zone of the
    database that was added before the first lookup is not called standard. *)
Theorem C51_added_refuted : exists files zone dir z k,
  db_dir (bytes * nat) zid zone files dir /\ zone (zid z) = Some z /\ k = Some (zid z) /\
  snd (isStandardTimezone _ zid files (fst (db_run _ zid files (fresh (abs_path dir)) [DGet _ k; DAdd _ z])) k) = Ok true /\
  snd (isStandardTimezone _ zid files (fst (db_run _ zid files (fresh (abs_path dir)) [DAdd _ z; DGet _ k])) k) = Ok false.
Proof.
  exists one_zone, one_id, usr_tz, ny, (Some (zid ny)). split; [exact one_dir|]. split; [reflexivity|]. split; [reflexivity|]. split; vm_compute; reflexivity.
Qed.
Print Assumptions C51_added_refuted.
