(** Model of the writing of VTIMEZONE components by the tz compiler: /repo/src/zonal/zone.py (Zone.vtimezone, _compressRDateComponents,
    ZoneRule.vtimezone) and rule.py (Rule.vtimezone).  Definitions only.

    Simplifications.  A sub-component is the record of the properties that are put in it, as they are written and read again; the
    copies of them that finalise puts in the fields of the objects are described by [in_memory] below.  Rules are compared
    field by field, also where the code uses them as keys of a dictionary (there by identity: it makes a difference only if a set has the
    same line twice). *)
From Verif Require Export ZonalModel RecurModel RecurExpand RecurSetModel VTimezoneModel.

(** The properties of a STANDARD ([sbDay] false) or DAYLIGHT component: TZOFFSETFROM, TZOFFSETTO, TZNAME, DTSTART, RRULE, RDATEs. *)
Record sub : Set := mkSub {
  sbDay : bool; sbFrom : Z; sbTo : Z; sbName : bytes; sbStart : dt; sbRule : option rule; sbDates : list dt
}.

(** `format % (arg,)` for texts, rule.py:461, zone.py:505: %s stands for the argument, which must be used once, and %% for %.
    Simplification: all other conversions raise. *)
Fixpoint percent (fmt : bytes) (arg : option bytes) : res bytes :=
  match fmt with
  | [] => match arg with Some _ => Raise TypeError | None => Ok [] end
  | c :: r =>
    if Ascii.eqb c "%" then
      match r with
      | d :: r' =>
        if Ascii.eqb d "s" then
          match arg with Some a => do t <- percent r' None; Ok (a ++ t) | None => Raise TypeError end
        else if Ascii.eqb d "%" then do t <- percent r' arg; Ok (c :: t)
        else Raise ValueError
      | [] => Raise ValueError
      end
    else do t <- percent r arg; Ok (c :: t)
  end.

(** rule.py:459-467. *)
Definition rule_tzname (r : zrule) (z : zonerule) (dstoffset : Z) : res bytes :=
  if cin "%" (zFormat z) then percent (zFormat z) (Some (if beq (rlLetter r) (lit "-") then [] else rlLetter r))
  else if cin "/" (zFormat z) then
    match split_char "/" (zFormat z) with
    | a :: b :: _ => Ok (if dstoffset =? 0 then a else b)
    | _ => Raise IndexError
    end
  else Ok (zFormat z).

(** A rule with the parts set in rule.py:477-480, 488-550. *)
Definition yearly (bymonth : list Z) (byday : option (list (Z * Z))) (bymonthday byyearday : option (list Z)) : rule :=
  mkRule YEARLY (rUseCount rule_init) (rCount rule_init) (rUseUntil rule_init) (rUntil rule_init) (rInterval rule_init)
    (rBySeconds rule_init) (rByMinutes rule_init) (rByHours rule_init) byday bymonthday byyearday (rByWeekNo rule_init)
    (Some bymonth) (rBySetPos rule_init) (rWeekstart rule_init).
(** rule.py:494-498, 519-522 and 536-539: `if bymday: rrule.setByMonthDay(bymday)`. *)
Definition of_details (m : Z) (p : Z * Z * option (list Z)) : rule :=
  let '(offset, rday, bymday) := p in
  yearly [m] (Some [(offset, rday)]) (match bymday with Some (n :: l) => Some (n :: l) | _ => None end) None.
(** rule.py:503-506. *)
Definition daysBackStartOfMonth : list Z := [365; 334; 306; 275; 245; 214; 184; 153; 122; 92; 61; 31; 0].
(** rule.py:477-545.  dayoffset (a text) is never equal to 1 in line 523. *)
Definition rule_parts (r : zrule) (start : dt) : res rule :=
  do m <- table (rlIn r) MONTH_NAME_TO_POS;
  if in_table (rlOn r) LASTDAY_NAME_TO_DAY then
    do dayOfWeek <- getDayOfWeek start;
    do indicatedDay <- table (rlOn r) LASTDAY_NAME_TO_DAY;
    if dayOfWeek =? indicatedDay then Ok (yearly [m] (Some [(-1, indicatedDay)]) None None)
    else if (dayOfWeek <? indicatedDay) || ((dayOfWeek =? 6) && (indicatedDay =? 0)) then
      do dim <- daysInMonth_r (mMonth start) (mYear start);
      do p <- getOnDayDetails start indicatedDay (dim - 6);
      Ok (of_details m p)
    else
      let back := nth (Z.to_nat m) daysBackStartOfMonth 0 in
      Ok (yearly [] (Some [(0, (indicatedDay + 1) mod 7)]) None (Some (map (fun i => - (back + i)) [0; 1; 2; 3; 4; 5; 6])))
  else match split_ge (rlOn r) with
       | [wd; n] =>
         do _ <- getDayOfWeek start;
         do indicatedDay <- table wd DAY_NAME_TO_DAY;
         do n <- pyint n;
         do p <- getOnDayDetails start indicatedDay n;
         Ok (of_details m p)
       | _ :: _ :: _ => Raise ValueError
       | _ => match pyint (rlOn r) with Ok _ => Ok (yearly [m] None None None) | Raise _ => Raise AssertionError end
       end.
(** rule.py:554-555: setUseUntil, setUntil. *)
Definition with_until (r : rule) (u : dt) : rule :=
  mkRule (rFreq r) (rUseCount r) (rCount r) true (Some u) (rInterval r) (rBySeconds r) (rByMinutes r) (rByHours r) (rByDay r)
    (rByMonthDay r) (rByYearDay r) (rByWeekNo r) (rByMonth r) (rBySetPos r) (rWeekstart r).

Section WithTz.
Variable tzo : tzid -> Z -> Z -> Z -> Z -> Z -> Z -> bool -> bool -> Z.

(** rule.py:430-562. *)
Definition rule_vtimezone (r : zrule) (z : zonerule) (start end_ : dt) (offsetfrom offsetto instanceCount : Z) : res sub :=
  do dstoffset <- getOffset r;
  do name <- rule_tzname r z dstoffset;
  do same <- dt_eq tzo start end_;
  let instanceCount := if same then 1 else instanceCount in
  if negb (beq (rlTo r) (lit "only")) && negb (instanceCount =? 1) then
    do rrule <- rule_parts r start;
    do u <- getUntilDate z;
    do e <- (if mYear (zDt u) <? 9999 then Ok 0 else endYear r);
    let rrule := if (mYear (zDt u) <? 9999) || (e <? 9999) then with_until rrule (setTimezoneUTC (offsetSeconds end_ (- offsetfrom)) true) else rrule in
    Ok (mkSub (negb (dstoffset =? 0)) offsetfrom offsetto name start (Some rrule) [])
  else Ok (mkSub (negb (dstoffset =? 0)) offsetfrom offsetto name start None [start]).

(** zone.py:490-519. *)
Definition zonerule_vtimezone (z : zonerule) (start : dt) (offsetfrom offsetto : Z) : res sub :=
  do numeric <- isNumericOffset z;
  do day <- (if numeric then do o <- getNumericOffset z; Ok (negb (o =? 0)) else Ok false);
  do name <- (if cin "%" (zFormat z) then percent (zFormat z) (Some (lit "S")) else Ok (zFormat z));
  Ok (mkSub day offsetfrom offsetto name start None [start]).

(** zone.py:236: the tuples in rulemap: time, offset before, offset after. *)
Definition entry : Set := dt * Z * Z.
Definition pair_of (e : entry) : Z * Z := (snd (fst e), snd e).
Definition same_pair (a b : entry) : bool := (snd (fst a) =? snd (fst b)) && (snd a =? snd b).
(** zone.py:202-229: the run from s to prev (n entries) goes on, or is written. *)
Fixpoint rule_runs (r : zrule) (z : zonerule) (total : Z) (s prev : entry) (n : Z) (l : list entry) : res (list sub) :=
  match l with
  | [] => do x <- rule_vtimezone r z (fst (fst s)) (fst (fst prev)) (snd (fst s)) (snd s) total; Ok [x]
  | e :: l =>
    if same_pair e s then rule_runs r z total s e (n + 1) l
    else
      do x <- rule_vtimezone r z (fst (fst s)) (fst (fst prev)) (snd (fst s)) (snd s) n;
      do xs <- rule_runs r z total e e 1 l;
      Ok (x :: xs)
  end.
(** rulemap and ruleorder: the keys in the order in which they were added. *)
Definition groups : Set := list (option zrule * list entry).
(** zone.py:198-240: for one key, and for all. *)
Definition group_subs (z : zonerule) (g : option zrule * list entry) : res (list sub) :=
  match g with
  | (_, []) => Raise IndexError
  | (Some r, e :: l) => rule_runs r z (Z.of_nat (List.length (e :: l))) e e 1 l
  | (None, e :: _) => do x <- zonerule_vtimezone z (fst (fst e)) (snd (fst e)) (snd e); Ok [x]
  end.
Fixpoint generate (z : zonerule) (gs : groups) : res (list sub) :=
  match gs with
  | [] => Ok []
  | g :: gs => do a <- group_subs z g; do b <- generate z gs; Ok (a ++ b)
  end.
(** Rule.__eq__, rule.py:183-194, and the same for None. *)
Definition zrule_eqb (a b : zrule) : bool :=
  beq (rlName a) (rlName b) && beq (rlFrom a) (rlFrom b) && beq (rlTo a) (rlTo b) && beq (rlType a) (rlType b) && beq (rlIn a) (rlIn b) &&
  beq (rlOn a) (rlOn b) && beq (rlAt a) (rlAt b) && beq (rlSave a) (rlSave b) && beq (rlLetter a) (rlLetter b).
Definition key_eqb (a b : option zrule) : bool :=
  match a, b with
  | None, None => true
  | Some a, Some b => zrule_eqb a b
  | _, _ => false
  end.
(** ZoneRule.__eq__, zone.py:310-316. *)
Definition zonerule_eqb (a b : zonerule) : bool :=
  beq (zGmtoff a) (zGmtoff b) && beq (zRule a) (zRule b) && beq (zFormat a) (zFormat b) &&
  match zUntil a, zUntil b with None, None => true | Some u, Some v => beq u v | _, _ => false end.
(** zone.py:250-252: `rulemap.setdefault(tzrule, []).append(...)`. *)
Fixpoint add_entry (k : option zrule) (e : entry) (gs : groups) : groups :=
  match gs with
  | [] => [(k, [e])]
  | (k', l) :: gs => if key_eqb k' k then (k', l ++ [e]) :: gs else (k', l) :: add_entry k e gs
  end.
(** zone.py:244-256. *)
Fixpoint zone_subs (cs : list change) (last : option zonerule) (gs : groups) : res (list sub) :=
  match cs with
  | [] => match last with Some z => generate z gs | None => Ok [] end
  | c :: cs =>
    if beq (zFormat (chZone c)) (lit "LMT") then zone_subs cs (Some (chZone c)) gs
    else
      let e := (chAt c, chFrom c, chTo c) in
      match last with
      | Some z =>
        if zonerule_eqb z (chZone c) then zone_subs cs (Some (chZone c)) (add_entry (chRule c) e gs)
        else
          do a <- generate z gs;
          do b <- zone_subs cs (Some (chZone c)) (add_entry (chRule c) e []);
          Ok (a ++ b)
      | None => zone_subs cs (Some (chZone c)) (add_entry (chRule c) e gs)
      end
  end.

(** zone.py:272-277: the keys of similarMap, for components with RDATE. *)
Definition similar (a b : sub) : bool :=
  Bool.eqb (sbDay a) (sbDay b) && beq (sbName a) (sbName b) && (sbTo a =? sbTo b) && (sbFrom a =? sbFrom b).
Definition has_rdate (a : sub) : bool := match sbDates a with [] => false | _ => true end.
(** zone.py:282-290: the RDATEs of b are put in the first component that is similar to it; nothing if there is none. *)
Fixpoint merge_into (b : sub) (l : list sub) : option (list sub) :=
  match l with
  | [] => None
  | a :: l =>
    if has_rdate a && similar a b then
      Some (mkSub (sbDay a) (sbFrom a) (sbTo a) (sbName a) (sbStart a) (sbRule a) (sbDates a ++ sbDates b) :: l)
    else match merge_into b l with Some l => Some (a :: l) | None => None end
  end.
(** zone.py:259-290, one component after another. *)
Fixpoint compress (done rest : list sub) : list sub :=
  match rest with
  | [] => done
  | b :: rest =>
    if has_rdate b then match merge_into b done with Some d => compress d rest | None => compress (done ++ [b]) rest end
    else compress (done ++ [b]) rest
  end.

(** zone.py:172-257 and vtimezone.py:77-78: the sub-components, sorted by DTSTART. *)
Definition zone_vtimezone (zn : zone) (rules : list (bytes * list zrule)) (minYear maxYear : Z) : res (list sub) :=
  do cs <- zone_expand tzo zn rules minYear maxYear;
  do subs <- zone_subs cs None [];
  Ok (sort_at tzo sbStart (compress [] subs)).
End WithTz.

(** The fields of the STANDARD or DAYLIGHT object when the component is read: vtimezoneelement.py:62-90. *)
Definition elem_of (s : sub) : elem :=
  mkElem (sbStart s) (sbTo s) (sbFrom s) (sbName s)
    (mkRset (match sbRule s with Some r => [(r, cache_init)] | None => [] end) [] (sbDates s) [] [] []) None None.
(** The same for the object made by vtimezone(): finalise (vtimezoneelement.py:86-90) was called twice (rule.py:561, zone.py:271), so that
    the rules are there twice; RDATE properties made from a single value are not multi-valued and not put in the field (componentbase.py:530). *)
Definition in_memory (s : sub) : elem :=
  mkElem (sbStart s) (sbTo s) (sbFrom s) (sbName s)
    (mkRset (match sbRule s with Some r => [(r, cache_init); (r, cache_init)] | None => [] end) [] [] [] [] []) None None.
