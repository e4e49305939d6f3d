(** Model of /repo/src/pycalendar/icalendar/recurrence.py: expansion of a rule and its cache.
    Definitions only.  Line numbers without a file name refer to that file.

    Throughout, DateTime objects are values: d.duplicate() is d, and a comparison that fills
    the offset and posix caches of its operands leaves them as they were (DateTimeOps.v
    shows that these caches never change what is observed).  Objects that the Python code
    shares (mCacheStart and the caller's start at 870, mRecurrences and the items handed
    out at 877) are copied here. *)
From Verif Require Export RecurModel PeriodModel.

(** for x in l: output.extend(f(x)). *)
Fixpoint flat_mapr {A B} (f : A -> res (list B)) (l : list A) : res (list B) :=
  match l with
  | [] => Ok []
  | x :: t => do a <- f x; do b <- flat_mapr f t; Ok (a ++ b)
  end.
(** for x in l: if f(x): output.append(x). *)
Fixpoint keepr {A} (f : A -> res bool) (l : list A) : res (list A) :=
  match l with
  | [] => Ok []
  | x :: t => do b <- f x; do r <- keepr f t; Ok (if b then x :: r else r)
  end.
(** keep = False; for x in l: keep = f(x); if keep: break. *)
Fixpoint anyr {A} (f : A -> res bool) (l : list A) : res bool :=
  match l with
  | [] => Ok false
  | x :: t => do b <- f x; if b then Ok true else anyr f t
  end.

(** 1372-1383. *)
Definition byMonthExpand (l : list Z) (dates : list dt) : res (list dt) :=
  flat_mapr (fun d => Ok (map (setMonth d) l)) dates.
(** 1385-1396. *)
Definition byWeekNoExpand (l : list Z) (dates : list dt) : res (list dt) :=
  flat_mapr (fun d => mapr (setWeekNo d) l) dates.
(** 1398-1409. *)
Definition byYearDayExpand (l : list Z) (dates : list dt) : res (list dt) :=
  flat_mapr (fun d => Ok (map (fun n => setYearDay d n true) l)) dates.
(** 1411-1422. *)
Definition byMonthDayExpand (l : list Z) (dates : list dt) : res (list dt) :=
  flat_mapr (fun d => mapr (fun n => setMonthDay d n true) l) dates.
(** range(1, n + 1), 1438 and 1460. *)
Definition ints1 (n : nat) : list Z := map Z.of_nat (seq 1 n).
(** 1424-1444. *)
Definition byDayExpandYearly (l : list (Z * Z)) (dates : list dt) : res (list dt) :=
  flat_mapr (fun d => flat_mapr (fun nw : Z * Z =>
    if negb (fst nw =? 0) then do t <- setDayOfWeekInYear d (fst nw) (snd nw); Ok [t]
    else flat_mapr (fun i => do t <- setDayOfWeekInYear d i (snd nw);
                             Ok (if mYear t =? mYear d then [t] else [])) (ints1 53)) l) dates.
(** 1446-1466. *)
Definition byDayExpandMonthly (l : list (Z * Z)) (dates : list dt) : res (list dt) :=
  flat_mapr (fun d => flat_mapr (fun nw : Z * Z =>
    if negb (fst nw =? 0) then do t <- setDayOfWeekInMonth d (fst nw) (snd nw) true; Ok [t]
    else flat_mapr (fun i => do t <- setDayOfWeekInMonth d i (snd nw) true;
                             Ok (if mMonth t =? mMonth d then [t] else [])) (ints1 6)) l) dates.
(** 1468-1497. *)
Definition byDayExpandWeekly (wkst : Z) (l : list (Z * Z)) (dates : list dt) : res (list dt) :=
  flat_mapr (fun d => flat_mapr (fun nw : Z * Z =>
    if fst nw =? 0 then
      do dow <- getDayOfWeek d;
      let week_start_offset := wkst - dow in
      let week_start_offset := if 0 <? week_start_offset then week_start_offset - 7 else week_start_offset in
      let day_in_week_offset := snd nw - wkst in
      let day_in_week_offset := if day_in_week_offset <? 0 then day_in_week_offset + 7 else day_in_week_offset in
      Ok [offsetDay d (week_start_offset + day_in_week_offset)]
    else Ok []) l) dates.
(** 1499-1510. *)
Definition byHourExpand (l : list Z) (dates : list dt) : res (list dt) :=
  flat_mapr (fun d => Ok (map (setHours d) l)) dates.
(** 1512-1523. *)
Definition byMinuteExpand (l : list Z) (dates : list dt) : res (list dt) :=
  flat_mapr (fun d => Ok (map (setMinutes d) l)) dates.
(** 1525-1536. *)
Definition bySecondExpand (l : list Z) (dates : list dt) : res (list dt) :=
  flat_mapr (fun d => Ok (map (setSeconds d) l)) dates.

(** 1538-1552. *)
Definition byMonthLimit (l : list Z) (dates : list dt) : res (list dt) :=
  keepr (fun d => anyr (fun n => Ok (mMonth d =? n)) l) dates.
(** 1554-1568. *)
Definition byWeekNoLimit (l : list Z) (dates : list dt) : res (list dt) :=
  keepr (fun d => anyr (isWeekNo d) l) dates.
(** 1570-1585. *)
Definition byMonthDayLimit (l : list Z) (dates : list dt) : res (list dt) :=
  keepr (fun d => anyr (isMonthDay d) l) dates.
(** 1587-1601. *)
Definition byDayLimit (l : list (Z * Z)) (dates : list dt) : res (list dt) :=
  keepr (fun d => anyr (fun nw : Z * Z => isDayOfWeekInMonth d (fst nw) (snd nw)) l) dates.
(** 1603-1617. *)
Definition byHourLimit (l : list Z) (dates : list dt) : res (list dt) :=
  keepr (fun d => anyr (fun n => Ok (mHours d =? n)) l) dates.
(** 1619-1633. *)
Definition byMinuteLimit (l : list Z) (dates : list dt) : res (list dt) :=
  keepr (fun d => anyr (fun n => Ok (mMinutes d =? n)) l) dates.
(** 1635-1649. *)
Definition bySecondLimit (l : list Z) (dates : list dt) : res (list dt) :=
  keepr (fun d => anyr (fun n => Ok (mSeconds d =? n)) l) dates.

(** `if mByX is not None and len(mByX) != 0: items[:] = self.byX(items)`, e.g. 1054-1055. *)
Definition when {A} (l : option (list A)) (f : list A -> list dt -> res (list dt)) (ds : list dt)
  (k : list dt -> res (list dt)) : res (list dt) :=
  if has l then do o <- f (items l) ds; k o else k ds.
(** The same followed by `if len(items) == 0: return`, e.g. 1104-1108. *)
Definition limit {A} (l : option (list A)) (f : list A -> list dt -> res (list dt)) (ds : list dt)
  (k : list dt -> res (list dt)) : res (list dt) :=
  if has l then do o <- f (items l) ds; match o with [] => Ok [] | _ => k o end else k ds.
(** filter(lambda x: not x.invalid(), items), e.g. 1093. *)
Definition drop_invalid (ds : list dt) : res (list dt) :=
  keepr (fun x => do b <- invalid x; Ok (negb b)) ds.

Section WithTz.
Variable tzo : tzid -> Z -> Z -> Z -> Z -> Z -> Z -> bool -> bool -> Z.

(** l.sort(key=lambda x: x.getPosixTime()), 964 and 1654.  The sort is stable; the elements
    afterwards carry the cached posix time. *)
Definition posix_key (d : dt) : res (Z * dt) :=
  let (d1, r) := getPosixTime tzo d in do p <- r; Ok (p, d1).
Definition sort_posix (ds : list dt) : res (list dt) :=
  do ks <- mapr posix_key ds;
  Ok (map snd (isort (fun a b : Z * dt => fst a <? fst b) ks)).

(** 1660-1668.  Both indexes are in range. *)
Definition set_pos (dates : list dt) (i : Z) : list dt :=
  let size := Z.of_nat (List.length dates) in
  if 0 <? i then
    if i <=? size then match nth_error dates (Z.to_nat (i - 1)) with Some d => [d] | None => [] end else []
  else if i <? 0 then
    if - i <=? size then match nth_error dates (Z.to_nat (size + i)) with Some d => [d] | None => [] end else []
  else [].
(** 1651-1670. *)
Definition bySetPosLimit (l : list Z) (dates : list dt) : res (list dt) :=
  do ds <- sort_posix dates; Ok (flat_map (set_pos ds) l).

(** The common end of the set generators, e.g. 1092-1096. *)
Definition finish_set (r : rule) (ds : list dt) : res (list dt) :=
  do ds <- drop_invalid ds; when (rBySetPos r) bySetPosLimit ds (fun ds => Ok ds).

(** 1048-1096. *)
Definition generateYearlySet (r : rule) (start : dt) : res (list dt) :=
  when (rByMonth r) byMonthExpand [start] (fun ds =>
  when (rByWeekNo r) byWeekNoExpand ds (fun ds =>
  when (rByYearDay r) byYearDayExpand ds (fun ds =>
  when (rByMonthDay r) byMonthDayExpand ds (fun ds =>
  when (rByDay r)
    (if has (rByYearDay r) || has (rByMonthDay r) then byDayLimit
     else if has (rByWeekNo r) then byDayExpandWeekly (rWeekstart r)
     else if has (rByMonth r) then byDayExpandMonthly
     else byDayExpandYearly) ds (fun ds =>
  when (rByHours r) byHourExpand ds (fun ds =>
  when (rByMinutes r) byMinuteExpand ds (fun ds =>
  when (rBySeconds r) bySecondExpand ds (finish_set r)))))))).

(** 1098-1143. *)
Definition generateMonthlySet (r : rule) (start : dt) : res (list dt) :=
  limit (rByMonth r) byMonthLimit [start] (fun ds =>
  when (rByMonthDay r) byMonthDayExpand ds (fun ds =>
  when (rByDay r)
    (if has (rByYearDay r) || has (rByMonthDay r) then byDayLimit else byDayExpandMonthly) ds (fun ds =>
  when (rByHours r) byHourExpand ds (fun ds =>
  when (rByMinutes r) byMinuteExpand ds (fun ds =>
  when (rBySeconds r) bySecondExpand ds (finish_set r)))))).

(** 1145-1182. *)
Definition generateWeeklySet (r : rule) (start : dt) : res (list dt) :=
  limit (rByMonth r) byMonthLimit [start] (fun ds =>
  limit (rByWeekNo r) byWeekNoLimit ds (fun ds =>
  when (rByDay r) (byDayExpandWeekly (rWeekstart r)) ds (fun ds =>
  when (rByHours r) byHourExpand ds (fun ds =>
  when (rByMinutes r) byMinuteExpand ds (fun ds =>
  when (rBySeconds r) bySecondExpand ds (finish_set r)))))).

(** 1184-1226. *)
Definition generateDailySet (r : rule) (start : dt) : res (list dt) :=
  limit (rByMonth r) byMonthLimit [start] (fun ds =>
  limit (rByWeekNo r) byWeekNoLimit ds (fun ds =>
  limit (rByMonthDay r) byMonthDayLimit ds (fun ds =>
  limit (rByDay r) byDayLimit ds (fun ds =>
  when (rByHours r) byHourExpand ds (fun ds =>
  when (rByMinutes r) byMinuteExpand ds (fun ds =>
  when (rBySeconds r) bySecondExpand ds (finish_set r))))))).

(** 1228-1272. *)
Definition generateHourlySet (r : rule) (start : dt) : res (list dt) :=
  limit (rByMonth r) byMonthLimit [start] (fun ds =>
  limit (rByWeekNo r) byWeekNoLimit ds (fun ds =>
  limit (rByMonthDay r) byMonthDayLimit ds (fun ds =>
  limit (rByDay r) byDayLimit ds (fun ds =>
  limit (rByHours r) byHourLimit ds (fun ds =>
  when (rByMinutes r) byMinuteExpand ds (fun ds =>
  when (rBySeconds r) bySecondExpand ds (finish_set r))))))).

(** 1274-1320. *)
Definition generateMinutelySet (r : rule) (start : dt) : res (list dt) :=
  limit (rByMonth r) byMonthLimit [start] (fun ds =>
  limit (rByWeekNo r) byWeekNoLimit ds (fun ds =>
  limit (rByMonthDay r) byMonthDayLimit ds (fun ds =>
  limit (rByDay r) byDayLimit ds (fun ds =>
  limit (rByHours r) byHourLimit ds (fun ds =>
  limit (rByMinutes r) byMinuteLimit ds (fun ds =>
  when (rBySeconds r) bySecondExpand ds (finish_set r))))))).

(** 1322-1370. *)
Definition generateSecondlySet (r : rule) (start : dt) : res (list dt) :=
  limit (rByMonth r) byMonthLimit [start] (fun ds =>
  limit (rByWeekNo r) byWeekNoLimit ds (fun ds =>
  limit (rByMonthDay r) byMonthDayLimit ds (fun ds =>
  limit (rByDay r) byDayLimit ds (fun ds =>
  limit (rByHours r) byHourLimit ds (fun ds =>
  limit (rByMinutes r) byMinuteLimit ds (fun ds =>
  limit (rBySeconds r) bySecondLimit ds (finish_set r))))))).

(** 938-964: the sorted set of one interval. *)
Definition generate_set (r : rule) (start : dt) : res (list dt) :=
  do ds <- (match rFreq r with
            | SECONDLY => generateSecondlySet r start
            | MINUTELY => generateMinutelySet r start
            | HOURLY => generateHourlySet r start
            | DAILY => generateDailySet r start
            | WEEKLY => generateWeeklySet r start
            | MONTHLY => generateMonthlySet r start
            | YEARLY => generateYearlySet r start
            end);
  sort_posix ds.

(** `maxInstances and len(items) > maxInstances`, 899 and 994. *)
Definition too_many (max : option Z) (items : list dt) : bool :=
  match max with
  | None => false
  | Some n => negb (n =? 0) && (n <? Z.of_nat (List.length items))
  end.

(** The loops below return the list `items` as it is at the end, also after an exception, and
    the result of the call.  None means that the loop is still running when the fuel,
    which counts rounds, is used up. *)
Definition out : Set := list dt * res bool.

(** 904-905. *)
Fixpoint skip_invalid (fuel : nat) (f : freq) (interval : Z) (d : dt) : option (res dt) :=
  match invalid d with
  | Raise e => Some (Raise e)
  | Ok false => Some (Ok d)
  | Ok true => match fuel with
               | O => None
               | S n => skip_invalid n f interval (recur d f interval true)
               end
  end.

(** 884-890: the UNTIL value used.  zone is 0 at 889 and None at 926. *)
Definition float_until (zone : tzid) (r : rule) (start : dt) (float_offset : Z) : res (option dt) :=
  if rUseUntil r then
    match rUntil r with
    | None => Raise AttributeError
    | Some u => Ok (Some (if floating start then offsetSeconds (setTimezoneID u zone) float_offset else u))
    end
  else Ok None.

(** 892-917. *)
Fixpoint simple_loop (fuel : nat) (r : rule) (range : period) (until : option dt) (max : option Z)
    (it : dt) (ctr : Z) (items : list dt) : option out :=
  match fuel with
  | O => None
  | S n =>
    match isDateAfterPeriod tzo range it with
    | Raise e => Some (items, Raise e)
    | Ok true => Some (items, Ok false)
    | Ok false =>
      let items := items ++ [it] in
      if too_many max items then Some (items, Raise TooManyInstancesError)
      else
        match skip_invalid n (rFreq r) (rInterval r) (recur it (rFreq r) (rInterval r) true) with
        | None => None
        | Some (Raise e) => Some (items, Raise e)
        | Some (Ok it) =>
          if rUseCount r then
            let ctr := ctr + 1 in
            if rCount r <=? ctr then Some (items, Ok true)
            else simple_loop n r range until max it ctr items
          else match until with
               | None => simple_loop n r range until max it ctr items
               | Some u => match dt_gt tzo it u with
                           | Raise e => Some (items, Raise e)
                           | Ok true => Some (items, Ok true)
                           | Ok false => simple_loop n r range until max it ctr items
                           end
               end
        end
    end
  end.
(** 882-917. *)
Definition simpleExpand (fuel : nat) (r : rule) (start : dt) (range : period) (float_offset : Z) (max : option Z)
  : option out :=
  match float_until (TzInt 0) r start float_offset with
  | Raise e => Some ([], Raise e)
  | Ok until => simple_loop fuel r range until max start 0 []
  end.

(** 967-1002: one generated set.  inl: the call returns (or raises); inr: the loop goes on. *)
Fixpoint set_loop (r : rule) (start : dt) (range : period) (until : option dt) (max : option Z)
    (set : list dt) (ctr : Z) (items : list dt) : out + (Z * list dt) :=
  match set with
  | [] => inr (ctr, items)
  | it :: set' =>
    match dt_lt tzo it start with
    | Raise e => inl (items, Raise e)
    | Ok true => set_loop r start range until max set' ctr items
    | Ok false =>
      match isDateAfterPeriod tzo range it with
      | Raise e => inl (items, Raise e)
      | Ok true => inl (items, Ok false)
      | Ok false =>
        match (match until with None => Ok false | Some u => dt_gt tzo it u end) with
        | Raise e => inl (items, Raise e)
        | Ok true => inl (items, Ok true)
        | Ok false =>
          match (if ctr =? 1 then dt_eq tzo start it else Ok false) with
          | Raise e => inl (items, Raise e)
          | Ok true => set_loop r start range until max set' ctr items
          | Ok false =>
            let items := items ++ [it] in
            if too_many max items then inl (items, Raise TooManyInstancesError)
            else if rUseCount r then
              let ctr := ctr + 1 in
              if rCount r <=? ctr then inl (items, Ok true)
              else set_loop r start range until max set' ctr items
            else set_loop r start range until max set' ctr items
          end
        end
      end
    end
  end.

(** 937-1009. *)
Fixpoint complex_loop (fuel : nat) (r : rule) (start : dt) (range : period) (until : option dt) (max : option Z)
    (it : dt) (ctr : Z) (items : list dt) : option out :=
  match fuel with
  | O => None
  | S n =>
    match generate_set r it with
    | Raise e => Some (items, Raise e)
    | Ok set =>
      match set_loop r start range until max set ctr items with
      | inl o => Some o
      | inr (ctr, items) =>
        match isDateAfterPeriod tzo range it with
        | Raise e => Some (items, Raise e)
        | Ok true => Some (items, Ok false)
        | Ok false =>
          complex_loop n r start range until max (recur it (rFreq r) (rInterval r) true) ctr items
        end
      end
    end
  end.
(** 919-1009. *)
Definition complexExpand (fuel : nat) (r : rule) (start : dt) (range : period) (float_offset : Z) (max : option Z)
  : option out :=
  match float_until TzNone r start float_offset with
  | Raise e => Some ([], Raise e)
  | Ok until =>
    if rUseCount r then
      if rCount r <=? 1 then Some ([], Ok true)
      else complex_loop fuel r start range until max start 1 []
    else complex_loop fuel r start range until max start 0 []
  end.

(** 863-866: the recomputation. *)
Definition compute (fuel : nat) (r : rule) (start : dt) (range : period) (float_offset : Z) (max : option Z)
  : option out :=
  if negb (hasBy r) then simpleExpand fuel r start range float_offset max
  else complexExpand fuel r start range float_offset max.

(** 166-170. *)
Record rcache : Set := mkCache {
  cCached : bool; cStart : option dt; cUpto : option dt; cFully : bool; cRecs : list dt
}.
Definition cache_init : rcache := mkCache false None None false [].

(** 873-880. *)
Fixpoint in_range (range : period) (recs : list dt) (limited : bool) (items : list dt) : out :=
  match recs with
  | [] => (items, Ok limited)
  | d :: t =>
    match isDateWithinPeriod tzo range d with
    | Raise e => (items, Raise e)
    | Ok true => in_range range t limited (items ++ [d])
    | Ok false => in_range range t true items
    end
  end.

(** 848-851, after the normalise of 842. *)
Definition check_start (c : rcache) (start : dt) : res rcache :=
  if cCached c then
    do ne <- (match cStart c with Some s => dt_ne tzo start s | None => Ok true end);
    Ok (if ne then mkCache false (cStart c) (cUpto c) false (cRecs c) else c)
  else Ok c.
(** 855-856. *)
Definition must_compute (c : rcache) (range : period) : res bool :=
  if negb (cCached c) then Ok true
  else if cFully c then Ok false
  else match cUpto c with
       | None => Ok true
       | Some u => do e <- snd (getEnd range); dt_lt tzo u e
       end.

(** 838-880: the cache afterwards, the items appended to the caller's list and the result.
    start is normalised in place (842): the caller's object becomes normalise start. *)
Definition expand (fuel : nat) (r : rule) (c : rcache) (start : dt) (range : period) (float_offset : Z)
    (max : option Z) : option (rcache * out) :=
  let start := normalise start in
  match check_start c start with
  | Raise e => Some (c, ([], Raise e))
  | Ok c =>
    match must_compute c range with
    | Raise e => Some (c, ([], Raise e))
    | Ok false => Some (c, in_range range (cRecs c) (negb (cFully c)) [])
    | Ok true =>
      match compute fuel r start range float_offset max with
      | None => None
      | Some (recs, Raise e) => Some (mkCache (cCached c) (cStart c) (cUpto c) (cFully c) recs, ([], Raise e))
      | Some (recs, Ok full) =>
        match snd (getEnd range) with
        | Raise e => Some (mkCache true (Some start) (cUpto c) full recs, ([], Raise e))
        | Ok e =>
          let c := mkCache true (Some start) (Some e) full recs in
          Some (c, in_range range recs (negb full) [])
        end
      end
    end
  end.

(** 1011-1015. *)
Definition cache_clear (c : rcache) : rcache := mkCache false (cStart c) (cUpto c) false [].

(** The setters 270-331, through _setAndclearIfChanged 262-265.  `!=` on mUntil is
    DateTime.__ne__ (datetime.py:175-176); None differs from every value. *)
Inductive setter : Set :=
| SetFreq (f : freq) | SetUseUntil (b : bool) | SetUntil (d : dt) | SetUseCount (b : bool) | SetCount (n : Z)
| SetInterval (n : Z) | SetByMonth (l : list Z) | SetByMonthDay (l : list Z) | SetByYearDay (l : list Z)
| SetByDay (l : list (Z * Z)) | SetBySetPos (l : list Z).
Definition opt_list_eqb {A} (eqb : A -> A -> bool) (o : option (list A)) (l : list A) : bool :=
  match o with Some l' => list_eqb eqb l' l | None => false end.
Definition set_use_until (b : bool) (r : rule) : rule :=
  mkRule (rFreq r) (rUseCount r) (rCount r) b (rUntil r) (rInterval r) (rBySeconds r) (rByMinutes r)
    (rByHours r) (rByDay r) (rByMonthDay r) (rByYearDay r) (rByWeekNo r) (rByMonth r) (rBySetPos r) (rWeekstart r).
Definition set_until_value (d : dt) (r : rule) : rule :=
  mkRule (rFreq r) (rUseCount r) (rCount r) (rUseUntil r) (Some d) (rInterval r) (rBySeconds r) (rByMinutes r)
    (rByHours r) (rByDay r) (rByMonthDay r) (rByYearDay r) (rByWeekNo r) (rByMonth r) (rBySetPos r) (rWeekstart r).
Definition set_use_count (b : bool) (r : rule) : rule :=
  mkRule (rFreq r) b (rCount r) (rUseUntil r) (rUntil r) (rInterval r) (rBySeconds r) (rByMinutes r)
    (rByHours r) (rByDay r) (rByMonthDay r) (rByYearDay r) (rByWeekNo r) (rByMonth r) (rBySetPos r) (rWeekstart r).
Definition set_count_value (n : Z) (r : rule) : rule :=
  mkRule (rFreq r) (rUseCount r) n (rUseUntil r) (rUntil r) (rInterval r) (rBySeconds r) (rByMinutes r)
    (rByHours r) (rByDay r) (rByMonthDay r) (rByYearDay r) (rByWeekNo r) (rByMonth r) (rBySetPos r) (rWeekstart r).
(** The `!=` test of 263 and the assignment of 265. *)
Definition setter_differs (s : setter) (r : rule) : res bool :=
  match s with
  | SetFreq f => Ok (negb (freq_eqb (rFreq r) f))
  | SetUseUntil b => Ok (negb (Bool.eqb (rUseUntil r) b))
  | SetUntil d => match rUntil r with None => Ok true | Some u => dt_ne tzo u d end
  | SetUseCount b => Ok (negb (Bool.eqb (rUseCount r) b))
  | SetCount n => Ok (negb (rCount r =? n))
  | SetInterval n => Ok (negb (rInterval r =? n))
  | SetByMonth l => Ok (negb (opt_list_eqb Z.eqb (rByMonth r) l))
  | SetByMonthDay l => Ok (negb (opt_list_eqb Z.eqb (rByMonthDay r) l))
  | SetByYearDay l => Ok (negb (opt_list_eqb Z.eqb (rByYearDay r) l))
  | SetByDay l => Ok (negb (opt_list_eqb day_eqb (rByDay r) l))
  | SetBySetPos l => Ok (negb (opt_list_eqb Z.eqb (rBySetPos r) l))
  end.
Definition setter_assign (s : setter) (r : rule) : rule :=
  match s with
  | SetFreq f => set_freq f r
  | SetUseUntil b => set_use_until b r
  | SetUntil d => set_until_value d r
  | SetUseCount b => set_use_count b r
  | SetCount n => set_count_value n r
  | SetInterval n => set_interval n r
  | SetByMonth l => set_bymonth l r
  | SetByMonthDay l => set_bymonthday l r
  | SetByYearDay l => set_byyearday l r
  | SetByDay l => set_byday l r
  | SetBySetPos l => set_bysetpos l r
  end.
(** 262-265. *)
Definition setAndClear (s : setter) (rc : rule * rcache) : res (rule * rcache) :=
  do b <- setter_differs s (fst rc);
  Ok (if b then (setter_assign s (fst rc), cache_clear (snd rc)) else rc).

(** 102-143: the copy.  mUntil is copied only when mUseUntil is set. *)
Definition rule_duplicate (r : rule) : res rule :=
  do u <- (if rUseUntil r then match rUntil r with Some d => Ok (Some d) | None => Raise AttributeError end
           else Ok None);
  Ok (mkRule (rFreq r) (rUseCount r) (rCount r) (rUseUntil r) u (rInterval r) (rBySeconds r) (rByMinutes r)
    (rByHours r) (rByDay r) (rByMonthDay r) (rByYearDay r) (rByWeekNo r) (rByMonth r) (rBySetPos r) (rWeekstart r)).
End WithTz.

(** 1024-1046: Period has no method init (period.py:24-180), so 1028 always raises. *)
Definition excludeFutureRecurrence (r : rule) (exclude : dt) : res unit := Raise AttributeError.
