(** Model of the reading of tz source files: /repo/src/zonal/tzconvert.py:44-112, 133-139.  Definitions only. *)
From Verif Require Export ZonalModel.

(** tzconvert.py:44-48: the three dictionaries, in the order of their first entries.  Of a RuleSet only the rules are used. *)
Record tzdata : Set := mkTzdata { tzRules : list (bytes * list zrule); tzZones : list (bytes * zone); tzLinks : list (bytes * bytes) }.
Definition no_data : tzdata := mkTzdata [] [] [].
(** d[k] = v *)
Fixpoint store {A} (k : bytes) (v : A) (d : list (bytes * A)) : list (bytes * A) :=
  match d with
  | [] => [(k, v)]
  | (k', v') :: r => if beq k k' then (k', v) :: r else (k', v') :: store k v r
  end.
(** d.setdefault(k, []).append(v) *)
Fixpoint append_to {A} (k : bytes) (v : A) (d : list (bytes * list A)) : list (bytes * list A) :=
  match d with
  | [] => [(k, [v])]
  | (k', l) :: r => if beq k k' then (k', l ++ [v]) :: r else (k', l) :: append_to k v r
  end.

(** `for line in f`: lines with the line feeds that end them; the last may have none. *)
Fixpoint file_lines (s : bytes) : list bytes :=
  match s with
  | [] => []
  | c :: r =>
    if Ascii.eqb c LF then [c] :: file_lines r
    else match file_lines r with [] => [[c]] | l :: ls => (c :: l) :: ls end
  end.
(** line[:-1] *)
Definition chop (s : bytes) : bytes := removelast s.
(** line.split() *)
Fixpoint words (s : bytes) : list bytes :=
  match s with
  | [] => []
  | c :: r =>
    if is_space c then words r
    else match r with
         | [] => [[c]]
         | d :: _ => if is_space d then [c] :: words r else match words r with [] => [[c]] | w :: ws => (c :: w) :: ws end
         end
  end.

(** tzconvert.py:81-84. *)
Definition parseRule (d : tzdata) (line : bytes) : res tzdata :=
  do r <- zrule_parse line;
  Ok (mkTzdata (append_to (rlName r) r (tzRules d)) (tzZones d) (tzLinks d)).
(** tzconvert.py:101-103: the end of parseZone. *)
Definition addZone (d : tzdata) (text : bytes) : res tzdata :=
  do z <- zone_parse text;
  Ok (mkTzdata (tzRules d) (store (znName z) z (tzZones d)) (tzLinks d)).
(** tzconvert.py:107-112. *)
Definition parseLink (d : tzdata) (line : bytes) : res tzdata :=
  match words line with
  | _ :: linkFrom :: linkTo :: _ => Ok (mkTzdata (tzRules d) (tzZones d) (store linkTo linkFrom (tzLinks d)))
  | _ => Raise IndexError
  end.
(** tzconvert.py:61, 95. *)
Definition skipped (line : bytes) : bool := startswith line (lit "#") || negb (nonempty line).
(** tzconvert.py:92. *)
Definition continued (line : bytes) : bool := startswith line [TAB] || startswith line [SPC].
(** tzconvert.py:53-79: the loops over the lines [f] that have not been read yet; `while True` goes round again only with the line at
    which a zone has ended (parseZone, 86-105, is the inner loop).  Simplification: an exception leaves no tzconvert object, although what was
    read before it stays there. *)
Fixpoint tz_line (f : list bytes) (d : tzdata) (line : bytes) {struct f} : res tzdata :=
  let next d := match f with [] => Ok d | l :: f' => tz_line f' d (chop l) end in
  if skipped line then next d
  else if startswith line (lit "Rule") then do d <- parseRule d line; next d
  else if startswith line (lit "Zone") then
    (fix zone_loop (os : bytes) (f : list bytes) {struct f} : res tzdata :=
       match f with
       | [] => addZone d os
       | l :: f' =>
         let nextline := chop l in
         if continued nextline then zone_loop (os ++ LF :: nextline) f'
         else if skipped nextline then zone_loop os f'
         else do d <- addZone d os; tz_line f' d nextline
       end) line f
  else if startswith line (lit "Link") then do d <- parseLink d line; next d
  else if nonempty (lstrip line) then Raise AssertionError
  else next d.
Definition tz_parse (d : tzdata) (file : bytes) : res tzdata :=
  match file_lines file with [] => Ok d | l :: f => tz_line f d (chop l) end.
(** tzconvert.py:133-139. *)
Definition expandZone (tzo : tzid -> Z -> Z -> Z -> Z -> Z -> Z -> bool -> bool -> Z) (d : tzdata) (zonename : bytes) (minYear maxYear : Z)
  : res (list (dt * Z * Z)) :=
  match find (fun e => beq zonename (fst e)) (tzZones d) with
  | None => Raise KeyError
  | Some (_, zn) => do l <- zone_expand tzo zn (tzRules d) minYear maxYear; Ok (map (fun c => (chAt c, chFrom c, chTo c)) l)
  end.
