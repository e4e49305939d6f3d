(** Model of the directory of iCalendar files that the tz compiler writes: /repo/src/zonal/tzconvert.py:114-131, 155-213.  Definitions only. *)
From Verif Require Export ZoneFileModel.

(** str.replace; with an empty text the new one is put before every character and at the end. *)
Fixpoint replace_from (old new s : bytes) (skip : nat) : bytes :=
  match s with
  | [] => []
  | c :: r =>
    match skip with
    | S k => replace_from old new r k
    | O => if startswith s old then new ++ replace_from old new r (List.length old - 1) else c :: replace_from old new r 0
    end
  end.
Definition str_replace (s old new : bytes) : bytes :=
  match old with
  | [] => flat_map (fun c => new ++ [c]) s ++ new
  | _ => replace_from old new s 0
  end.

(** tzconvert.py:114-131: the mapZone elements of the file, as territory, other and type; what is printed is left out, and so are files that
    cannot be read.  Simplification: all three attributes are present. *)
Record alias : Set := mkAlias { alTerritory : bytes; alOther : bytes; alType : bytes }.
Definition add_alias (links : list (bytes * bytes)) (a : alias) : list (bytes * bytes) :=
  if beq (alTerritory a) (lit "001") then
    match assoc (alOther a) links with
    | None => store (alOther a) (alType a) links
    | Some _ => links
    end
  else links.
Definition parseWindowsAliases (links : list (bytes * bytes)) (l : list alias) : list (bytes * bytes) := fold_left add_alias l links.

Section WithTz.
Variable tzo : tzid -> Z -> Z -> Z -> Z -> Z -> Z -> bool -> bool -> Z.
Variables (fl : floats) (prodid : bytes).

(** tzconvert.py:170-173: the text of a calendar with one zone. *)
Definition zone_text (d : tzdata) (minYear maxYear : Z) (zn : zone) : option (res bytes) :=
  match made_zone tzo d minYear maxYear zn with
  | Ok c => generate fl (new_calendar prodid [c])
  | Raise e => Some (Raise e)
  end.
(** 167-181: the files of the zones, by the name without `.ics'.  Simplification: different names are different files; names that are the paths of
    directories of others are left out, and so is what a run with an exception has written. *)
Fixpoint zone_files (d : tzdata) (minYear maxYear : Z) (l : list zone) (files : list (bytes * bytes)) : option (res (list (bytes * bytes))) :=
  match l with
  | [] => Some (Ok files)
  | zn :: r =>
    match zone_text d minYear maxYear zn with
    | Some (Ok t) => zone_files d minYear maxYear r (store (znName zn) t files)
    | Some (Raise e) => Some (Raise e)
    | None => None
    end
  end.
(** 188-208: the files of the links, and the lines of links.txt. *)
Fixpoint link_files (l : list (bytes * bytes)) (files : list (bytes * bytes)) (lines : list bytes) : list (bytes * bytes) * list bytes :=
  match l with
  | [] => (files, lines)
  | (linkTo, linkFrom) :: r =>
    match assoc linkFrom files with
    | None => link_files r files lines
    | Some data => link_files r (store linkTo (str_replace data linkFrom linkTo) files) (lines ++ [linkTo ++ [TAB] ++ linkFrom])
    end
  end.
(** 155-213: the files in the directory afterwards, and the text of links.txt if it is written.  What was there before is removed (157-165). *)
Definition generateZoneinfoFiles (d : tzdata) (minYear maxYear : Z) (links : bool) (windowsAliases : option (list alias)) (filterzones : list bytes)
  : option (res (list (bytes * bytes) * option bytes)) :=
  match zone_files d minYear maxYear (filter (wanted filterzones) (map snd (tzZones d))) [] with
  | None => None
  | Some (Raise e) => Some (Raise e)
  | Some (Ok files) =>
    if links then
      let all := match windowsAliases with Some l => parseWindowsAliases (tzLinks d) l | None => tzLinks d end in
      let '(files, lines) := link_files (sort_by fst all) files [] in
      Some (Ok (files, Some (join_char LF lines)))
    else Some (Ok (files, None))
  end.
End WithTz.
