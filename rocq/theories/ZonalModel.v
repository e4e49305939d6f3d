(** Model of the tz compiler: /repo/src/zonal/utils.py, rule.py and zone.py (without the writing of VTIMEZONE
    components).  Definitions only. *)
From Verif Require Export PyBase DateTimeModel.
From Verif Require RecurModel.

(** utils.py:24-26: a tz style date-time.  The mode is None in zone.py when there is no suffix, "" in rule.py. *)
Record zdt : Set := mkZdt { zDt : dt; zMode : option bytes }.
(** self.mode == "u" *)
Definition mode_is (z : zdt) (m : bytes) : bool := match zMode z with Some x => beq x m | None => false end.
(** utils.py:34-40. *)
Definition getLocaltime (z : zdt) (offset stdoffset : Z) : dt :=
  if mode_is z (lit "u") then offsetSeconds (zDt z) offset
  else if mode_is z (lit "s") then offsetSeconds (zDt z) (- stdoffset + offset)
  else zDt z.
(** utils.py:42-50. *)
Definition getUTC (z : zdt) (offset stdoffset : Z) : dt :=
  if mode_is z (lit "u") then zDt z
  else if mode_is z (lit "s") then offsetSeconds (zDt z) (- stdoffset)
  else offsetSeconds (zDt z) (- offset).

(** rule.py:167-178; the fields are texts once a line has been parsed. *)
Record zrule : Set := mkZrule {
  rlName : bytes; rlFrom : bytes; rlTo : bytes; rlType : bytes; rlIn : bytes; rlOn : bytes; rlAt : bytes; rlSave : bytes; rlLetter : bytes
}.

(** The tables of rule.py:110-163 that are needed; a missing key raises KeyError. *)
Fixpoint table (k : bytes) (l : list (bytes * Z)) : res Z :=
  match l with
  | [] => Raise KeyError
  | (k', v) :: r => if beq k k' then Ok v else table k r
  end.
(** `k in table` *)
Definition in_table (k : bytes) (l : list (bytes * Z)) : bool := existsb (fun e => beq k (fst e)) l.
(** rule.py:110-118. *)
Definition LASTDAY_NAME_TO_DAY : list (bytes * Z) :=
  [(lit "lastSun", 0); (lit "lastMon", 1); (lit "lastTue", 2); (lit "lastWed", 3); (lit "lastThu", 4); (lit "lastFri", 5);
   (lit "lastSat", 6)].
(** rule.py:120-128. *)
Definition DAY_NAME_TO_DAY : list (bytes * Z) :=
  [(lit "Sun", 0); (lit "Mon", 1); (lit "Tue", 2); (lit "Wed", 3); (lit "Thu", 4); (lit "Fri", 5); (lit "Sat", 6)].
(** rule.py:150-163. *)
Definition MONTH_NAME_TO_POS : list (bytes * Z) :=
  [(lit "Jan", 1); (lit "Feb", 2); (lit "Mar", 3); (lit "Apr", 4); (lit "May", 5); (lit "Jun", 6); (lit "Jul", 7); (lit "Aug", 8);
   (lit "Sep", 9); (lit "Oct", 10); (lit "Nov", 11); (lit "Dec", 12)].

(** `[x for x in line.expandtabs(1).split(" ") if len(x) > 0]`, rule.py:208, zone.py:71, 329: with a tab size of 1
    every tab becomes one space. *)
Definition expandtabs1 (s : bytes) : bytes := map (fun c => if Ascii.eqb c TAB then SPC else c) s.
Definition nonempty (s : bytes) : bool := match s with [] => false | _ => true end.
Definition fields (line : bytes) : list bytes := filter nonempty (split_char SPC (expandtabs1 line)).

(** rule.py:199-218. *)
Definition zrule_parse (line : bytes) : res zrule :=
  match fields line with
  | _ :: name :: from :: to :: ty :: mon :: on :: at_ :: save :: letter :: _ => Ok (mkZrule name from to ty mon on at_ save letter)
  | _ => Raise AssertionError
  end.
(** rule.py:220-239. *)
Definition zrule_generate (r : zrule) : bytes :=
  join_char TAB [lit "Rule"; rlName r; rlFrom r; rlTo r; rlType r; rlIn r; rlOn r; rlAt r; rlSave r; rlLetter r].

(** rule.py:42-44: a RuleSet. *)
Record zruleset : Set := mkRuleset { rsName : bytes; rsRules : list zrule }.
(** rule.py:58-76, one line after another. *)
Fixpoint ruleset_lines (s : zruleset) (lines : list bytes) : res zruleset :=
  match lines with
  | [] => Ok s
  | line :: rest =>
    match split_char SPC (expandtabs1 line) with
    | _ :: name :: _ =>
      if nonempty name then
        let own := if nonempty (rsName s) then rsName s else name in
        if beq own name then
          do r <- zrule_parse line; ruleset_lines (mkRuleset own (rsRules s ++ [r])) rest
        else Raise AssertionError
      else Raise AssertionError
    | _ => Raise IndexError
    end
  end.
Definition ruleset_parse (lines : bytes) : res zruleset := ruleset_lines (mkRuleset [] []) (split_char LF lines).
(** rule.py:78-85. *)
Definition ruleset_generate (s : zruleset) : bytes := join_char LF (map zrule_generate (rsRules s)).

(** rule.py:241-257. *)
Definition getOffset (r : zrule) : res Z :=
  match split_char ":" (rlSave r) with
  | [] => Raise IndexError
  | h :: rest =>
    do hours <- pyint h;
    do minutes <- match rest with [m] => pyint m | _ => Ok 0 end;
    Ok (if hours <? 0 then - ((- hours * 60 + minutes) * 60) else (hours * 60 + minutes) * 60)
  end.
(** rule.py:259-260. *)
Definition startYear (r : zrule) : res Z := pyint (rlFrom r).
(** rule.py:262-268. *)
Definition endYear (r : zrule) : res Z :=
  if beq (rlTo r) (lit "only") then startYear r
  else if beq (rlTo r) (lit "max") then Ok 9999
  else pyint (rlTo r).

(** s.split(">="). *)
Fixpoint split_ge (s : bytes) : list bytes :=
  match s with
  | [] => [[]]
  | c :: r =>
    match r with
    | d :: r' =>
      if Ascii.eqb c ">" && Ascii.eqb d "=" then [] :: split_ge r'
      else match split_ge r with [] => [[c]] | h :: t => (c :: h) :: t end
    | [] => [[c]]
    end
  end.

(** rule.py:288-308: the time of the AT field: hours, minutes, seconds and suffix. *)
Definition at_time (at_ : bytes) : res (Z * Z * Z * bytes) :=
  let splits := split_char ":" at_ in
  let splits := match splits with [h] => [h; lit "0"] | _ => splits end in
  match splits with
  | [h; m] =>
    do hours <- pyint h;
    do ms <- (if (2 <? Z.of_nat (List.length m)) then do mi <- pyint (slice m 0 2); Ok (mi, skipn 2 m)
              else do mi <- pyint m; Ok (mi, []));
    let '(minutes, special) := ms in
    Ok (if (hours =? 24) && (minutes =? 0) then (23, 59, 59, special) else (hours, minutes, 0, special))
  | _ => Raise AssertionError
  end.
(** rule.py:270-323.  The date-time is a floating one; its seconds are 0 before line 304. *)
Definition datetimeForYear (r : zrule) (year : Z) : res zdt :=
  let d := setYear newDefault year in
  do mon <- table (rlIn r) MONTH_NAME_TO_POS;
  let d := setDay (setMonth d mon) 1 in
  do t <- at_time (rlAt r);
  let '(h, mi, s, special) := t in
  let d := setSeconds (setMinutes (setHours d h) mi) s in
  do d <- (if in_table (rlOn r) LASTDAY_NAME_TO_DAY then
             do w <- table (rlOn r) LASTDAY_NAME_TO_DAY; setDayOfWeekInMonth d (-1) w false
           else match split_ge (rlOn r) with
                | wd :: n :: _ => do n <- pyint n; do w <- table wd DAY_NAME_TO_DAY; setNextDayOfWeek d n w
                | _ => match pyint (rlOn r) with Ok n => Ok (setDay d n) | Raise _ => Raise AssertionError end
                end);
  Ok (mkZdt d (Some special)).

(** rule.py:325-389: position, weekday and month days of the rule.  daysInMonth cannot fail for these months. *)
Definition getOnDayDetails (start : dt) (indicatedDay indicatedOffset : Z) : res (Z * Z * option (list Z)) :=
  do dayOfWeek <- getDayOfWeek start;
  let difference := dayOfWeek - indicatedDay in
  do om <-
    (if difference =? 0 then Ok (indicatedOffset, mMonth start)
     else if (difference =? 1) || (difference =? -6) then
       let month := if mDay start =? 1 then (if mMonth start - 1 <? 1 then 12 else mMonth start - 1) else mMonth start in
       Ok (indicatedOffset + 1, month)
     else if (difference =? -1) || (difference =? 6) then
       if indicatedOffset =? 1 then Raise AssertionError else Ok (indicatedOffset - 1, mMonth start)
     else if difference =? -5 then Ok (indicatedOffset, mMonth start)
     else Raise AssertionError);
  let '(offset, month) := om in
  if offset =? 1 then Ok (1, dayOfWeek, None)
  else if offset =? 8 then Ok (2, dayOfWeek, None)
  else if offset =? 15 then Ok (3, dayOfWeek, None)
  else if offset =? 22 then Ok (4, dayOfWeek, None)
  else
    do dim <- match daysInMonth_r month (mYear start) with Ok n => Ok n | Raise _ => Raise AssertionError end;
    if dim - offset =? 6 then Ok (-1, dayOfWeek, None)
    else if dim - offset =? 13 then Ok (-2, dayOfWeek, None)
    else if dim - offset =? 20 then Ok (-3, dayOfWeek, None)
    else Ok (0, dayOfWeek, Some (filter (fun n => n <=? dim) (map (fun i => offset + i) [0; 1; 2; 3; 4; 5; 6]))).

(** `xrange(a, b + 1)`. *)
Definition years (a b : Z) : list Z := map (fun i => a + Z.of_nat i) (seq 0 (Z.to_nat (b - a + 1))).
(** rule.py:412-428: the cache before (None at first) and after. *)
Definition fullExpand (r : zrule) (cache : option (list zdt)) (maxYear : Z) : option (list zdt) * res unit :=
  match cache with
  | Some _ => (cache, Ok tt)
  | None =>
    match startYear r with
    | Raise e => (None, Raise e)
    | Ok start =>
      match endYear r with
      | Raise e => (None, Raise e)
      | Ok e =>
        let e := if maxYear <? e then maxYear - 1 else e in
        (fix go (l : list Z) (acc : list zdt) : option (list zdt) * res unit :=
           match l with
           | [] => (Some acc, Ok tt)
           | y :: l => match datetimeForYear r y with Ok d => go l (acc ++ [d]) | Raise x => (Some acc, Raise x) end
           end) (years start e) []
      end
    end
  end.

(** zone.py:298-306: a ZoneRule as parsed; [zUntil] is None or a text. *)
Record zonerule : Set := mkZonerule { zGmtoff : bytes; zRule : bytes; zFormat : bytes; zUntil : option bytes }.
(** zone.py:322-335. *)
Definition zonerule_parse (line : bytes) (offset : nat) : res zonerule :=
  match skipn (2 - offset) (fields line) with
  | gmtoff :: rule :: format :: rest => Ok (mkZonerule gmtoff rule format (match rest with [] => None | _ => Some (join_char SPC rest) end))
  | _ => Raise AssertionError
  end.
(** zone.py:337-350. *)
Definition zonerule_generate (z : zonerule) : bytes :=
  join_char TAB ([zGmtoff z; zRule z; zFormat z] ++ match zUntil z with Some u => if nonempty u then [u] else [] | None => [] end).

(** zone.py:42-44. *)
Record zone : Set := mkZone { znName : bytes; znRules : list zonerule }.
(** zone.py:76-82: the lines after the first. *)
Fixpoint zone_lines (lines : list bytes) : res (list zonerule) :=
  match lines with
  | [] => Ok []
  | line :: rest =>
    if nonempty line then
      do z <- zonerule_parse line 2;
      do l <- zone_lines rest;
      Ok (if beq (zGmtoff z) (lit "#") then l else z :: l)
    else zone_lines rest
  end.
(** zone.py:58-82. *)
Definition zone_parse (lines : bytes) : res zone :=
  match split_char LF lines with
  | [] => Raise IndexError
  | first :: rest =>
    match fields first with
    | _ :: name :: _ =>
      do z <- zonerule_parse first 0;
      do l <- zone_lines rest;
      Ok (mkZone name (z :: l))
    | _ => Raise IndexError
    end
  end.
(** zone.py:84-106. *)
Definition zone_generate (z : zone) : bytes :=
  match znRules z with
  | [] => []
  | r :: rest =>
    join_char LF (join_char TAB [lit "Zone " ++ znName z; zonerule_generate r] ::
                  map (fun r => join_char TAB [[]; []; []; zonerule_generate r]) rest)
  end.

(** zone.py:374-390: the day of the third field of UNTIL. *)
Definition until_day (year month : Z) (s : bytes) : res Z :=
  let base := newDate year month 1 false TzNone in
  if beq s (lit "lastSun") then do d <- setDayOfWeekInMonth base (-1) 0 false; Ok (mDay d)
  else if beq s (lit "lastSat") then do d <- setDayOfWeekInMonth base (-1) 6 false; Ok (mDay d)
  else if beq s (lit "Sun>=1") then do d <- setNextDayOfWeek base 1 0; Ok (mDay d)
  else if beq s (lit "Sun>=8") then do d <- setNextDayOfWeek base 8 0; Ok (mDay d)
  else pyint s.
(** zone.py:391-400: hours, minutes, seconds and mode of the fourth field. *)
Definition until_time (s : bytes) : res (Z * Z * Z * option bytes) :=
  match split_char ":" s with
  | h :: rest =>
    do hours <- pyint h;
    match rest with
    | [] => Raise IndexError
    | m :: rest =>
      do minutes <- pyint (slice m 0 2);
      let mode := if (2 <? Z.of_nat (List.length m)) then Some (skipn 2 m) else None in
      do seconds <- match rest with s :: _ => pyint s | [] => Ok 0 end;
      Ok (hours, minutes, seconds, mode)
    end
  | [] => Raise IndexError
  end.
Definition hash (s : bytes) : bool := startswith s (lit "#").
(** zone.py:352-404, without the cache (the answer does not change). *)
Definition getUntilDate (z : zonerule) : res zdt :=
  let none := Ok (mkZdt (newDateTime 9999 12 1 0 0 0 false TzNone) None) in
  match zUntil z with
  | None => none
  | Some u =>
    if nonempty u && negb (hash u) then
      let splits := split_char SPC u in
      do year <- pyint (hd [] splits);
      match tl splits with
      | [] => Ok (mkZdt (newDateTime year 1 1 0 0 0 false TzNone) None)
      | m :: rest =>
        if hash m then Ok (mkZdt (newDateTime year 1 1 0 0 0 false TzNone) None)
        else
          do month <- table m MONTH_NAME_TO_POS;
          match rest with
          | [] => Ok (mkZdt (newDateTime year month 1 0 0 0 false TzNone) None)
          | d :: rest =>
            if hash d then Ok (mkZdt (newDateTime year month 1 0 0 0 false TzNone) None)
            else
              do day <- until_day year month d;
              match rest with
              | [] => Ok (mkZdt (newDateTime year month day 0 0 0 false TzNone) None)
              | t :: _ =>
                if hash t then Ok (mkZdt (newDateTime year month day 0 0 0 false TzNone) None)
                else
                  do x <- until_time t;
                  let '(h, mi, s, mode) := x in
                  Ok (mkZdt (newDateTime year month day h mi s false TzNone) mode)
              end
          end
      end
    else none
  end.

(** zone.py:406-418, without the cache. *)
Definition getUTCOffset (z : zonerule) : res Z :=
  match split_char ":" (zGmtoff z) with
  | [] => Raise IndexError
  | h :: rest =>
    do c <- sget h 0;
    let negative := Ascii.eqb c "-" in
    do hours <- pyint (if negative then skipn 1 h else h);
    do minutes <- match rest with m :: _ => pyint m | [] => Ok 0 end;
    do seconds <- match rest with _ :: s :: _ => pyint s | _ => Ok 0 end;
    let o := (hours * 60 + minutes) * 60 + seconds in
    Ok (if negative then -1 * o else o)
  end.
(** zone.py:475-481. *)
Definition isNumericOffset (z : zonerule) : res bool :=
  if beq (zRule z) (lit "-") then Ok true
  else
    do c <- sget (zRule z) 0;
    if is_digit c then Ok true
    else if Ascii.eqb c "-" then do d <- sget (zRule z) 1; Ok (is_digit d)
    else Ok false.
(** zone.py:483-490. *)
Definition getNumericOffset (z : zonerule) : res Z :=
  if beq (zRule z) (lit "-") then Ok 0
  else
    match split_char ":" (zRule z) with
    | [] => Raise IndexError
    | h :: rest =>
      do hours <- pyint h;
      do minutes <- match rest with m :: _ => pyint m | [] => Ok 0 end;
      Ok (60 * 60 * hours + 60 * minutes)
    end.

Section WithTz.
(** The date-times compared below are floating: no time zone is looked up (tzo is not used). *)
Variable tzo : tzid -> Z -> Z -> Z -> Z -> Z -> Z -> bool -> bool -> Z.

(** `l.sort(cmp=lambda x, y: x[0].compareDateTime(y[0]))`, zone.py:149, 434; floating date-times are compared without an
    exception. *)
Definition earlier (a b : dt) : bool := match compareDateTime tzo a b with Ok c => c <? 0 | Raise _ => false end.
Definition sort_at {A} (at_ : A -> dt) (l : list A) : list A := RecurModel.isort (fun x y => earlier (at_ x) (at_ y)) l.

(** rule.py:391-410 for a rule that was not expanded before: (onset, offset, rule). *)
Definition rule_expand (z : zonerule) (maxYear : Z) (r : zrule) : res (list (zdt * Z * zrule)) :=
  do start <- startYear r;
  if maxYear <=? start then Ok []
  else
    match fullExpand r None maxYear with
    | (_, Raise e) => Raise e
    | (cache, Ok _) =>
      do zoneoffset <- getUTCOffset z;
      do offset <- getOffset r;
      Ok (map (fun d => (d, zoneoffset + offset, r)) (match cache with Some l => l | None => [] end))
    end.
(** rule.py:87-99. *)
Fixpoint ruleset_expand (z : zonerule) (maxYear : Z) (l : list zrule) : res (list (zdt * Z * zrule)) :=
  match l with
  | [] => Ok []
  | r :: l => do a <- rule_expand z maxYear r; do b <- ruleset_expand z maxYear l; Ok (a ++ b)
  end.

(** The tuples appended in zone.py:453, 460, 466, 472. *)
Record trans : Set := mkTrans { trUTC : dt; trTo : Z; trZone : zonerule; trRule : option zrule }.

(** zone.py:442-463: the loop over the sorted onsets; also whether found_start is set at the end. *)
Fixpoint zonerule_loop (z : zonerule) (lastUntilUTC : dt) (finalUntil : zdt) (l : list (zdt * Z * zrule))
    (found_one found_start : bool) (last_offset last_stdoffset : Z) (last_tzrule : option zrule) (acc : list trans)
    : res (list trans * bool * Z * Z) :=
  match l with
  | [] => Ok (acc, found_start, last_offset, last_stdoffset)
  | (d, to_offset, tzrule) :: rest =>
    let dtutc := getUTC d last_offset last_stdoffset in
    do ge <- dt_ge tzo dtutc lastUntilUTC;
    if ge then
      do ne <- dt_ne tzo dtutc lastUntilUTC;
      do st <-
        (if negb found_start && ne then
           if found_one then Ok (last_offset, last_stdoffset, dtutc, acc ++ [mkTrans lastUntilUTC last_offset z last_tzrule])
           else
             do o <- getUTCOffset z;
             Ok (o, o, getUTC d o o, acc ++ [mkTrans lastUntilUTC o z last_tzrule])
         else Ok (last_offset, last_stdoffset, dtutc, acc));
      let '(last_offset, last_stdoffset, dtutc, acc) := st in
      do past <- dt_ge tzo dtutc (getUTC finalUntil last_offset last_stdoffset);
      if past then Ok (acc, true, last_offset, last_stdoffset)
      else
        do o <- getUTCOffset z;
        zonerule_loop z lastUntilUTC finalUntil rest true true to_offset o (Some tzrule)
          (acc ++ [mkTrans dtutc to_offset z (Some tzrule)])
    else
      do o <- getUTCOffset z;
      zonerule_loop z lastUntilUTC finalUntil rest true found_start to_offset o (Some tzrule) acc
  end.
(** zone.py:420-473: what is appended to results, and the two offsets returned. *)
Definition zonerule_expand (rules : list (bytes * list zrule)) (z : zonerule) (lastUntilUTC : dt) (lastOffset lastStdOffset maxYear : Z)
    : res (list trans * Z * Z) :=
  do numeric <- isNumericOffset z;
  if numeric then
    do to_offset <- getNumericOffset z;
    do o <- getUTCOffset z;
    Ok ([mkTrans lastUntilUTC (o + to_offset) z None], o + to_offset, o)
  else
    match find (fun e => beq (fst e) (zRule z)) rules with
    | None => Raise AssertionError
    | Some (_, ruleset) =>
      do temp <- ruleset_expand z maxYear ruleset;
      do finalUntil <- getUntilDate z;
      do x <- zonerule_loop z lastUntilUTC finalUntil (sort_at (fun x => zDt (fst (fst x))) temp) false false lastOffset lastStdOffset None [];
      let '(acc, found_start, lo, ls) := x in
      Ok (if found_start then acc else acc ++ [mkTrans lastUntilUTC lo z None], lo, ls)
    end.

(** zone.py:137-146: the rules of the zone one after another; [drop]: the transitions of the first are dropped. *)
Fixpoint zone_transitions (rules : list (bytes * list zrule)) (maxYear : Z) (l : list zonerule) (lastUntilUTC : dt) (lo ls : Z)
    (drop : bool) (acc : list trans) : res (list trans) :=
  match l with
  | [] => Ok acc
  | z :: rest =>
    do x <- zonerule_expand rules z lastUntilUTC lo ls maxYear;
    let '(new, lo, ls) := x in
    do u <- getUntilDate z;
    zone_transitions rules maxYear rest (getUTC u lo ls) lo ls false (if drop then [] else acc ++ new)
  end.

(** The tuples of zone.py:161-166. *)
Record change : Set := mkChange { chAt : dt; chFrom : Z; chTo : Z; chZone : zonerule; chRule : option zrule }.
(** zone.py:152-168: last_transition is (lastDt, lastTo, start offset). *)
Fixpoint zone_scan (minYear start_offset : Z) (l : list trans) (lastDt : dt) (lastTo : Z) (results : list change) : res (list change) :=
  match l with
  | [] => Ok results
  | t :: rest =>
    let d := offsetSeconds (trUTC t) lastTo in
    do results <-
      (if minYear <=? mYear (trUTC t) then
         do gt <- dt_gt tzo d lastDt;
         if gt then Ok (results ++ [mkChange d lastTo (trTo t) (trZone t) (trRule t)])
         else
           do le <- dt_le tzo d lastDt;
           Ok (if le then
                 match rev results with
                 | c :: r => rev r ++ [mkChange (chAt c) (chFrom c) (trTo t) (trZone t) None]
                 | [] => [mkChange lastDt lastTo start_offset (trZone t) None]
                 end
               else results)
       else Ok results);
    zone_scan minYear start_offset rest d (trTo t) results
  end.
(** zone.py:108-170. *)
Definition zone_expand (zn : zone) (rules : list (bytes * list zrule)) (minYear maxYear : Z) : res (list change) :=
  match znRules zn with
  | [] => Raise IndexError
  | z :: _ =>
    let start := newDateTime 1800 1 1 0 0 0 false TzNone in
    do o <- getUTCOffset z;
    do l <- zone_transitions rules maxYear (znRules zn) start o o (1 <? Z.of_nat (List.length (znRules zn))) [];
    zone_scan minYear o (sort_at trUTC l) start o []
  end.
End WithTz.
