(** Specification for the time zone database: where a path leads, and what a database
    directory contains. *)
From Verif Require Import PyBase TzDbModel.

(** Places in the file tree are lists of names from the root.  Path resolution without symbolic
    links: empty pieces and "." stay, ".." goes to the parent (the root is its own parent). *)
Fixpoint walk (at_ : list bytes) (pieces : list bytes) : list bytes :=
  match pieces with
  | [] => at_
  | p :: t =>
    if beq p [] || beq p (lit ".") then walk at_ t
    else if beq p (lit "..") then walk (removelast at_) t
    else walk (at_ ++ [p]) t
  end.
(** The place that a path names when the current directory is [cwd]. *)
Definition place (cwd : list bytes) (path : bytes) : list bytes :=
  walk (match path with c :: _ => if Ascii.eqb c "/" then [] else cwd | [] => cwd end) (split_char "/" path).
(** q is below the directory p. *)
Definition below (p q : list bytes) : Prop := exists rest, rest <> [] /\ q = p ++ rest.

(** The name of a file or directory. *)
Definition name (s : bytes) : Prop := s <> [] /\ s <> lit "." /\ s <> lit ".." /\ ~ In "/"%char s.
(** The absolute path of a place: "/" before every name. *)
Definition abs_path (names : list bytes) : bytes := flat_map (fun n => "/"%char :: n) names.
(** The relative path a/b/c. *)
Definition rel_path (names : list bytes) (path : bytes) : Prop := abs_path names = "/"%char :: path.

(** No call changes the configured directory to something other than dir. *)
Definition keeps_path {tz} (dir : bytes) (o : dbop tz) : Prop :=
  match o with DSetPath _ p => p = dir | _ => True end.
(** Looking up, asking, merging. *)
Definition plain_op {tz} (o : dbop tz) : bool :=
  match o with DGet _ _ | DIsStd _ _ | DMerge _ _ => true | _ => false end.

Section Content.
Variable tz : Type.
Variable getID : tz -> bytes.
(** The zones of the database: zone id is the definition of the TZID id. *)
Variable zone : bytes -> option tz.
(** The directory at the place [dir] holds exactly these zones, each in the file that its TZID
    names, and every file whose path begins with the path of the directory (this includes sibling
    directories, see C38_siblings) holds one zone and can be read. *)
Definition db_dir (files : bytes -> file tz) (dir : list bytes) : Prop :=
  Forall name dir /\ ~ In "000"%char (abs_path dir) /\
  (forall id z, zone id = Some z ->
     getID z = id /\ ~ In "000"%char id /\
     (exists names, names <> [] /\ Forall name names /\ rel_path names id) /\
     files (abs_path dir ++ "/"%char :: id ++ lit ".ics") = Some ([z], Ok tt)) /\
  (forall q zs r, files (abs_path dir ++ q) = Some (zs, r) -> exists z, zs = [z] /\ r = Ok tt /\ zone (getID z) = Some z).

(** What a TZID stands for after the given calls: the definition of the database, else the
    first definition that was merged from a calendar. *)
Fixpoint merged (ops : list (dbop tz)) (id : bytes) : option tz :=
  match ops with
  | [] => None
  | DMerge _ z :: t => if beq (getID z) id then Some z else merged t id
  | _ :: t => merged t id
  end.
Definition meaning (ops : list (dbop tz)) (k : key) : option tz :=
  match k with
  | None => None
  | Some id => match zone id with Some z => Some z | None => merged ops id end
  end.
(** The TZID is one of the database. *)
Definition known (k : key) : bool :=
  match k with None => false | Some id => match zone id with Some _ => true | None => false end end.
(** A TZID that can be turned into a file name. *)
Definition no_nul (k : key) : Prop := match k with None => True | Some id => ~ In "000"%char id end.
End Content.
