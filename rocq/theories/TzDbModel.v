(** Model of /repo/src/pycalendar/timezonedb.py (class TimezoneDatabase) and of the two path
    functions of the Python 2 library that it uses (posixpath.join and posixpath.normpath).
    Line numbers refer to timezonedb.py.  Definitions only.

    Simplifications.  A VTIMEZONE object is a value of the type [tz] with its getID(); what it
    holds does not matter here, and duplicate() gives an equal value.  What a file contains is
    given by [file]: the VTIMEZONEs that parseComponent (icalendar/calendar.py:203-306, see ReadOneModel.v) adds
    to the calendar, in order, and the exception it ends with, if any; reading it has no other
    effect on the database (mergeTimezones returns at once for the database's own calendar,
    205-206).  TZIDs and paths are byte strings. *)
From Verif Require Import PyBase.

(** posixpath.join(a, b). *)
Definition ends_with (s : bytes) (c : ascii) : bool :=
  match rev s with [] => false | x :: _ => Ascii.eqb x c end.
Definition path_join (a b : bytes) : bytes :=
  if startswith b (lit "/") then b
  else match a with
       | [] => b
       | _ => if ends_with a "/" then a ++ b else a ++ lit "/" ++ b
       end.

(** posixpath.normpath: the loop over the components; [acc] is new_comps reversed. *)
Fixpoint norm_comps (slashes : bool) (acc comps : list bytes) : list bytes :=
  match comps with
  | [] => rev acc
  | c :: t =>
    if beq c [] || beq c (lit ".") then norm_comps slashes acc t
    else if negb (beq c (lit "..")) ||
            (negb slashes && match acc with [] => true | _ => false end) ||
            match acc with x :: _ => beq x (lit "..") | [] => false end
    then norm_comps slashes (c :: acc) t
    else norm_comps slashes (match acc with [] => [] | _ :: a => a end) t
  end.
(** posixpath.normpath: one or two leading slashes are kept, three or more become one. *)
Definition initial_slashes (path : bytes) : nat :=
  if startswith path (lit "/") then
    if startswith path (lit "//") && negb (startswith path (lit "///")) then 2%nat else 1%nat
  else 0%nat.
(** posixpath.normpath. *)
Definition normpath (path : bytes) : bytes :=
  match path with
  | [] => lit "."
  | _ =>
    let n := initial_slashes path in
    let p := repeat "/"%char n ++ join_char "/" (norm_comps (negb (Nat.eqb n 0)) [] (split_char "/" path)) in
    match p with [] => lit "." | _ => p end
  end.

Section Db.
Variable tz : Type.
Variable getID : tz -> bytes.

(** A TZID argument: None or a string (timezone.py:97-103 passes None for the default zone). *)
Definition key : Set := option bytes.
Definition key_eqb (a b : key) : bool :=
  match a, b with None, None => true | Some x, Some y => beq x y | _, _ => false end.

(** os.path.isfile(path) and open(path) followed by parseComponent: None, no such file;
    Some (Raise IOError)-like outcomes carry what had been added before. *)
Definition file : Type := option (list tz * res unit).
Variable files : bytes -> file.

(** 40-46. *)
Record db : Type := mkDb {
  dPath : option bytes; dCal : list tz; dCache : list (key * option tz); dStd : list key; dNotStd : list key
}.
Definition db_init : db := mkDb None [] [] [] [].
(** 48-49. *)
Definition setPath (d : db) (p : bytes) : db := mkDb (Some p) (dCal d) (dCache d) (dStd d) (dNotStd d).
(** 51-56. *)
Definition db_clear (d : db) : db := mkDb (dPath d) [] [] [] [].

(** calendar.py:611-617: the first VTIMEZONE with this ID (an ID never equals None). *)
Definition cal_getTimezone (cal : list tz) (k : key) : option tz :=
  match k with None => None | Some id => find (fun z => beq (getID z) id) cal end.

(** "%s.ics" % (tzid,), 117. *)
Definition file_name (k : key) : bytes := match k with None => lit "None" | Some id => id end ++ lit ".ics".
(** 117-118. *)
Definition tz_path (dbpath : bytes) (k : key) : bytes := normpath (path_join dbpath (file_name k)).

(** 105-126: the calendar afterwards, the paths that were opened, and the outcome.  A path with a NUL
    byte makes os.path.isfile raise TypeError. *)
Definition cacheTimezone (d : db) (k : key) : list tz * list bytes * res unit :=
  match dPath d with
  | None => (dCal d, [], Ok tt)
  | Some dbpath =>
    let p := tz_path dbpath k in
    if startswith p dbpath then
      if cin "000" p then (dCal d, [], Raise TypeError)
      else match files p with
           | None => (dCal d, [], Raise NoTimezoneInDatabase)
           | Some (zs, r) =>
             (dCal d ++ zs, [p], match r with
                                 | Raise IOError | Raise InvalidData => Raise NoTimezoneInDatabase
                                 | _ => r
                                 end)
           end
    else (dCal d, [], Raise NoTimezoneInDatabase)
  end.

(** `tzid in d` and d[tzid] on a dict, and d[tzid] = v, 180, 188, 194. *)
Fixpoint cache_get (c : list (key * option tz)) (k : key) : option (option tz) :=
  match c with [] => None | (k', v) :: t => if key_eqb k' k then Some v else cache_get t k end.
Definition cache_put (c : list (key * option tz)) (k : key) (v : option tz) : list (key * option tz) := (k, v) :: c.
Definition has_key (l : list key) (k : key) : bool := existsb (key_eqb k) l.

(** 171-194: the database afterwards, the paths that were opened, and the result. *)
Definition getTimezone (d : db) (k : key) : db * list bytes * res (option tz) :=
  match cache_get (dCache d) k with
  | Some v => (d, [], Ok v)
  | None =>
    let '(cal, opened, r) :=
      match cal_getTimezone (dCal d) k with
      | Some z => (dCal d, [], Ok (Some z))
      | None =>
        let '(cal, opened, r) := cacheTimezone d k in
        (cal, opened, match r with
                      | Ok _ | Raise NoTimezoneInDatabase => Ok (cal_getTimezone cal k)
                      | Raise e => Raise e
                      end)
      end in
    match r with
    | Raise e => (mkDb (dPath d) cal (dCache d) (dStd d) (dNotStd d), opened, Raise e)
    | Ok v =>
      let std := match v, k with Some _, Some _ => true | _, _ => false end in
      (mkDb (dPath d) cal (cache_put (dCache d) k v)
            (if std then k :: dStd d else dStd d) (if std then dNotStd d else k :: dNotStd d), opened, Ok v)
    end
  end.

(** 128-138. *)
Definition addTimezone (d : db) (z : tz) : db :=
  mkDb (dPath d) (dCal d ++ [z]) (cache_put (dCache d) (Some (getID z)) (Some z)) (dStd d) (dNotStd d).
(** 140-151. *)
Definition addStandardTimezone (d : db) (z : tz) : db :=
  let k := Some (getID z) in
  let d := match cache_get (dCache d) k with None => addTimezone d z | Some _ => d end in
  mkDb (dPath d) (dCal d) (dCache d) (k :: dStd d) (dNotStd d).
(** 153-169. *)
Definition isStandardTimezone (d : db) (k : key) : db * list bytes * res bool :=
  if has_key (dStd d) k then (d, [], Ok true)
  else if has_key (dNotStd d) k then (d, [], Ok false)
  else let '(d, opened, r) := getTimezone d k in (d, opened, do _ <- r; Ok (has_key (dStd d) k)).
(** 212-218. *)
Definition mergeTimezone (d : db) (z : tz) : db * list bytes * res unit :=
  let '(d, opened, r) := getTimezone d (Some (getID z)) in
  match r with
  | Raise e => (d, opened, Raise e)
  | Ok None => (addTimezone d z, opened, Ok tt)
  | Ok (Some _) => (d, opened, Ok tt)
  end.

(** The calls on the database. *)
Inductive dbop : Type :=
| DSetPath (p : bytes)        (* 48 *)
| DClear                      (* 51 *)
| DGet (k : key)              (* 171 *)
| DIsStd (k : key)            (* 153 *)
| DAdd (z : tz)               (* 128 *)
| DAddStd (z : tz)            (* 140 *)
| DMerge (z : tz).            (* 212 *)
(** One call: the database afterwards and the paths opened; an exception leaves the database as it
    is at that point. *)
Definition db_step (d : db) (o : dbop) : db * list bytes :=
  match o with
  | DSetPath p => (setPath d p, [])
  | DClear => (db_clear d, [])
  | DGet k => fst (getTimezone d k)
  | DIsStd k => fst (isStandardTimezone d k)
  | DAdd z => (addTimezone d z, [])
  | DAddStd z => (addStandardTimezone d z, [])
  | DMerge z => fst (mergeTimezone d z)
  end.
(** A sequence of calls; all the paths opened. *)
Fixpoint db_run (d : db) (l : list dbop) : db * list bytes :=
  match l with
  | [] => (d, [])
  | o :: l => let (d1, p1) := db_step d o in let (d2, p2) := db_run d1 l in (d2, p1 ++ p2)
  end.
End Db.
