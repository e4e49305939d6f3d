(** Model of /repo/src/pycalendar/icalendar/recurrence.py (class Recurrence): the rule,
    its text and JSON forms, equality and setters.  The expansion is in RecurExpand.v.
    Definitions only.  Line numbers without a file name refer to that file. *)
From Verif Require Export DateTimeText.

(** 145-164: the rule proper.  The cache fields (166-170) are in RecurExpand.v.  Lists are
    None until set.  A BYDAY entry is the pair (number, weekday).  mFreq and the weekday
    numbers (0 = SU ... 6 = SA) are those of icalendar/definitions.py:211-217 and 259-266. *)
Record rule : Set := mkRule {
  rFreq : freq;
  rUseCount : bool; rCount : Z;
  rUseUntil : bool; rUntil : option dt;
  rInterval : Z;
  rBySeconds : option (list Z); rByMinutes : option (list Z); rByHours : option (list Z);
  rByDay : option (list (Z * Z));
  rByMonthDay : option (list Z); rByYearDay : option (list Z); rByWeekNo : option (list Z);
  rByMonth : option (list Z); rBySetPos : option (list Z);
  rWeekstart : Z
}.

(** 145-164. *)
Definition rule_init : rule :=
  mkRule YEARLY false 0 false None 1 None None None None None None None None None 1.

(** Attribute assignments (363, 367-371, 378-380, 390, 401-456). *)
Definition set_freq (f : freq) (r : rule) : rule :=
  mkRule f (rUseCount r) (rCount r) (rUseUntil r) (rUntil r) (rInterval r) (rBySeconds r) (rByMinutes r)
    (rByHours r) (rByDay r) (rByMonthDay r) (rByYearDay r) (rByWeekNo r) (rByMonth r) (rBySetPos r) (rWeekstart r).
Definition set_count (n : Z) (r : rule) : rule :=
  mkRule (rFreq r) true n (rUseUntil r) (rUntil r) (rInterval r) (rBySeconds r) (rByMinutes r)
    (rByHours r) (rByDay r) (rByMonthDay r) (rByYearDay r) (rByWeekNo r) (rByMonth r) (rBySetPos r) (rWeekstart r).
Definition set_until (d : dt) (r : rule) : rule :=
  mkRule (rFreq r) (rUseCount r) (rCount r) true (Some d) (rInterval r) (rBySeconds r) (rByMinutes r)
    (rByHours r) (rByDay r) (rByMonthDay r) (rByYearDay r) (rByWeekNo r) (rByMonth r) (rBySetPos r) (rWeekstart r).
Definition set_interval (n : Z) (r : rule) : rule :=
  mkRule (rFreq r) (rUseCount r) (rCount r) (rUseUntil r) (rUntil r) n (rBySeconds r) (rByMinutes r)
    (rByHours r) (rByDay r) (rByMonthDay r) (rByYearDay r) (rByWeekNo r) (rByMonth r) (rBySetPos r) (rWeekstart r).
Definition set_bysecond (l : list Z) (r : rule) : rule :=
  mkRule (rFreq r) (rUseCount r) (rCount r) (rUseUntil r) (rUntil r) (rInterval r) (Some l) (rByMinutes r)
    (rByHours r) (rByDay r) (rByMonthDay r) (rByYearDay r) (rByWeekNo r) (rByMonth r) (rBySetPos r) (rWeekstart r).
Definition set_byminute (l : list Z) (r : rule) : rule :=
  mkRule (rFreq r) (rUseCount r) (rCount r) (rUseUntil r) (rUntil r) (rInterval r) (rBySeconds r) (Some l)
    (rByHours r) (rByDay r) (rByMonthDay r) (rByYearDay r) (rByWeekNo r) (rByMonth r) (rBySetPos r) (rWeekstart r).
Definition set_byhour (l : list Z) (r : rule) : rule :=
  mkRule (rFreq r) (rUseCount r) (rCount r) (rUseUntil r) (rUntil r) (rInterval r) (rBySeconds r) (rByMinutes r)
    (Some l) (rByDay r) (rByMonthDay r) (rByYearDay r) (rByWeekNo r) (rByMonth r) (rBySetPos r) (rWeekstart r).
Definition set_byday (l : list (Z * Z)) (r : rule) : rule :=
  mkRule (rFreq r) (rUseCount r) (rCount r) (rUseUntil r) (rUntil r) (rInterval r) (rBySeconds r) (rByMinutes r)
    (rByHours r) (Some l) (rByMonthDay r) (rByYearDay r) (rByWeekNo r) (rByMonth r) (rBySetPos r) (rWeekstart r).
Definition set_bymonthday (l : list Z) (r : rule) : rule :=
  mkRule (rFreq r) (rUseCount r) (rCount r) (rUseUntil r) (rUntil r) (rInterval r) (rBySeconds r) (rByMinutes r)
    (rByHours r) (rByDay r) (Some l) (rByYearDay r) (rByWeekNo r) (rByMonth r) (rBySetPos r) (rWeekstart r).
Definition set_byyearday (l : list Z) (r : rule) : rule :=
  mkRule (rFreq r) (rUseCount r) (rCount r) (rUseUntil r) (rUntil r) (rInterval r) (rBySeconds r) (rByMinutes r)
    (rByHours r) (rByDay r) (rByMonthDay r) (Some l) (rByWeekNo r) (rByMonth r) (rBySetPos r) (rWeekstart r).
Definition set_byweekno (l : list Z) (r : rule) : rule :=
  mkRule (rFreq r) (rUseCount r) (rCount r) (rUseUntil r) (rUntil r) (rInterval r) (rBySeconds r) (rByMinutes r)
    (rByHours r) (rByDay r) (rByMonthDay r) (rByYearDay r) (Some l) (rByMonth r) (rBySetPos r) (rWeekstart r).
Definition set_bymonth (l : list Z) (r : rule) : rule :=
  mkRule (rFreq r) (rUseCount r) (rCount r) (rUseUntil r) (rUntil r) (rInterval r) (rBySeconds r) (rByMinutes r)
    (rByHours r) (rByDay r) (rByMonthDay r) (rByYearDay r) (rByWeekNo r) (Some l) (rBySetPos r) (rWeekstart r).
Definition set_bysetpos (l : list Z) (r : rule) : rule :=
  mkRule (rFreq r) (rUseCount r) (rCount r) (rUseUntil r) (rUntil r) (rInterval r) (rBySeconds r) (rByMinutes r)
    (rByHours r) (rByDay r) (rByMonthDay r) (rByYearDay r) (rByWeekNo r) (rByMonth r) (Some l) (rWeekstart r).
Definition set_wkst (w : Z) (r : rule) : rule :=
  mkRule (rFreq r) (rUseCount r) (rCount r) (rUseUntil r) (rUntil r) (rInterval r) (rBySeconds r) (rByMinutes r)
    (rByHours r) (rByDay r) (rByMonthDay r) (rByYearDay r) (rByWeekNo r) (rByMonth r) (rBySetPos r) w.

(** `s in d` / d.get(s, -1) on the class dictionaries: 48-56, 68-93, with the names of
    icalendar/definitions.py:234-274. *)
Fixpoint assoc {A} (s : bytes) (l : list (bytes * A)) : option A :=
  match l with
  | [] => None
  | (k, v) :: t => if beq s k then Some v else assoc s t
  end.

(** 48-56, cFreqMap. *)
Definition cFreqMap : list (bytes * freq) :=
  [(lit "SECONDLY", SECONDLY); (lit "MINUTELY", MINUTELY); (lit "HOURLY", HOURLY); (lit "DAILY", DAILY);
   (lit "WEEKLY", WEEKLY); (lit "MONTHLY", MONTHLY); (lit "YEARLY", YEARLY)].

(** 68-83, cRecurMap. *)
Inductive part : Set :=
| PFreq | PUntil | PCount | PInterval | PBySecond | PByMinute | PByHour | PByDay | PByMonthDay
| PByYearDay | PByWeekNo | PByMonth | PBySetPos | PWkst.
Definition cRecurMap : list (bytes * part) :=
  [(lit "FREQ", PFreq); (lit "UNTIL", PUntil); (lit "COUNT", PCount); (lit "INTERVAL", PInterval);
   (lit "BYSECOND", PBySecond); (lit "BYMINUTE", PByMinute); (lit "BYHOUR", PByHour); (lit "BYDAY", PByDay);
   (lit "BYMONTHDAY", PByMonthDay); (lit "BYYEARDAY", PByYearDay); (lit "BYWEEKNO", PByWeekNo);
   (lit "BYMONTH", PByMonth); (lit "BYSETPOS", PBySetPos); (lit "WKST", PWkst)].

(** 85-93, cWeekdayMap. *)
Definition cWeekdayMap : list (bytes * Z) :=
  [(lit "SU", 0); (lit "MO", 1); (lit "TU", 2); (lit "WE", 3); (lit "TH", 4); (lit "FR", 5); (lit "SA", 6)].

(** A loop that appends one converted value per token. *)
Fixpoint mapr {A B} (f : A -> res B) (l : list A) : res (list B) :=
  match l with
  | [] => Ok []
  | x :: t => do y <- f x; do ys <- mapr f t; Ok (y :: ys)
  end.

(** 458-474.  txt.split(",") of a text without comma is [txt]. *)
Definition parse_num (mn mx : option Z) (neg : bool) (token : bytes) : res Z :=
  do value <- pyint token;
  if negb neg && (value <? 0) then Raise ValueError
  else
    let avalue := Z.abs value in
    if match mn with Some m => avalue <? m | None => false end then Raise ValueError
    else if match mx with Some m => m <? avalue | None => false end then Raise ValueError
    else Ok value.
Definition parseList (txt : bytes) (mn mx : option Z) (neg : bool) : res (list Z) :=
  mapr (parse_num mn mx neg) (split_char "," txt).

(** 486-489: the characters "+-1234567890". *)
Definition is_numch (c : ascii) : bool := cin c (lit "+-1234567890").
Fixpoint span_num (s : bytes) : bytes * bytes :=
  match s with
  | c :: r => if is_numch c then let (d, t) := span_num r in (c :: d, t) else ([], s)
  | [] => ([], [])
  end.

(** 476-506. *)
Definition parse_dw (token : bytes) : res (Z * Z) :=
  let (ns, rest) := span_num token in
  do num <- (match ns with
             | [] => Ok 0
             | _ => do n <- pyint ns;
                    if Z.abs n <? 1 then Raise ValueError
                    else if 53 <? Z.abs n then Raise ValueError
                    else Ok n
             end);
  match assoc rest cWeekdayMap with
  | None => Raise ValueError
  | Some w => Ok (num, w)
  end.
Definition parseListDW (txt : bytes) : res (list (Z * Z)) := mapr parse_dw (split_char "," txt).

(** The test `if self.mByX is not None: raise ValueError` of 399-448, followed by the list. *)
Definition once {A} (old : option (list A)) (new : res (list A)) (set : list A -> rule) : res rule :=
  match old with
  | Some _ => Raise ValueError
  | None => do l <- new; Ok (set l)
  end.

Section Parse.
Variable ctx : pctx.

(** 356-456: one rule part. *)
Definition parse_part (p : part) (v : bytes) (r : rule) : res rule :=
  match p with
  | PFreq => match assoc v cFreqMap with
             | None => Raise ValueError
             | Some f => Ok (set_freq f r)
             end
  | PUntil => if rUseCount r then Raise ValueError
              else match dt_parse ctx false v (match rUntil r with Some d => d | None => newDefault end) with
                   | (d, Ok _) => Ok (set_until d r)
                   | (_, Raise e) => Raise e
                   end
  | PCount => if rUseUntil r then Raise ValueError
              else do n <- pyint v;
                   if n <? 1 then Raise ValueError else Ok (set_count n r)
  | PInterval => do n <- pyint v;
                 if n <? 1 then Raise ValueError else Ok (set_interval n r)
  | PBySecond => once (rBySeconds r) (parseList v (Some 0) (Some 60) false) (fun l => set_bysecond l r)
  | PByMinute => once (rByMinutes r) (parseList v (Some 0) (Some 59) false) (fun l => set_byminute l r)
  | PByHour => once (rByHours r) (parseList v (Some 0) (Some 23) false) (fun l => set_byhour l r)
  | PByDay => once (rByDay r) (parseListDW v) (fun l => set_byday l r)
  | PByMonthDay => once (rByMonthDay r) (parseList v (Some 1) (Some 31) true) (fun l => set_bymonthday l r)
  | PByYearDay => once (rByYearDay r) (parseList v (Some 1) (Some 366) true) (fun l => set_byyearday l r)
  | PByWeekNo => once (rByWeekNo r) (parseList v (Some 1) (Some 53) true) (fun l => set_byweekno l r)
  | PByMonth => once (rByMonth r) (parseList v (Some 1) (Some 12) false) (fun l => set_bymonth l r)
  | PBySetPos => once (rBySetPos r) (parseList v None None true) (fun l => set_bysetpos l r)
  | PWkst => match assoc v cWeekdayMap with
             | None => Raise ValueError
             | Some w => Ok (set_wkst w r)
             end
  end.

(** 345-354: one token.  `tname, tvalue = token.split("=")` is a ValueError unless there are
    exactly two pieces. *)
Definition parse_token (token : bytes) (r : rule) : res rule :=
  match split_char "=" token with
  | [n; v] => match assoc n cRecurMap with
              | Some p => parse_part p v r
              | None => Raise ValueError
              end
  | _ => Raise ValueError
  end.

(** 343-456: the loop over the tokens.  tokens is reversed and popped from the end, so they
    are taken in text order. *)
Fixpoint parse_tokens (ts : list bytes) (r : rule) : res rule :=
  match ts with
  | [] => Ok r
  | t :: ts' => do r' <- parse_token t r; parse_tokens ts' r'
  end.

(** 333-456, starting from init_Recurrence (so the caches are empty too).  The list of
    tokens is never empty.  After a ValueError the object is left half filled in; that state
    is not modelled. *)
Definition rule_parse (data : bytes) : res rule := parse_tokens (split_char ";" data) rule_init.
End Parse.

(** 513-532, also cFreqToXMLMap 58-66 with icalendar/xmldefinitions.py:26-32. *)
Definition freq_text (f : freq) : bytes :=
  match f with
  | SECONDLY => lit "SECONDLY" | MINUTELY => lit "MINUTELY" | HOURLY => lit "HOURLY" | DAILY => lit "DAILY"
  | WEEKLY => lit "WEEKLY" | MONTHLY => lit "MONTHLY" | YEARLY => lit "YEARLY"
  end.

(** 568-587, 601-620; nothing is written for another number. *)
Definition weekday_text (w : Z) : bytes :=
  if w =? 0 then lit "SU" else if w =? 1 then lit "MO" else if w =? 2 then lit "TU"
  else if w =? 3 then lit "WE" else if w =? 4 then lit "TH" else if w =? 5 then lit "FR"
  else if w =? 6 then lit "SA" else [].

(** 565-587: one BYDAY entry. *)
Definition byday_text (nw : Z * Z) : bytes :=
  (if negb (fst nw =? 0) then pystr (fst nw) else []) ++ weekday_text (snd nw).

(** 625-636: the text written for one list, or nothing. *)
Definition generateList (title : bytes) (items : option (list bytes)) : bytes :=
  match items with
  | None | Some [] => []
  | Some l => lit ";" ++ title ++ lit "=" ++ join_char "," l
  end.
Definition num_texts (l : option (list Z)) : option (list bytes) := option_map (map pystr) l.
Definition day_texts (l : option (list (Z * Z))) : option (list bytes) := option_map (map byday_text) l.

(** 508-623.  `except: pass` can only be reached at 543 when mUseUntil is set and mUntil
    is None (AttributeError): then the output stops after ";UNTIL=". *)
Definition rule_generate (r : rule) : bytes :=
  lit "FREQ=" ++ freq_text (rFreq r) ++
  let tail :=
    (if 1 <? rInterval r then lit ";INTERVAL=" ++ pystr (rInterval r) else []) ++
    generateList (lit "BYSECOND") (num_texts (rBySeconds r)) ++
    generateList (lit "BYMINUTE") (num_texts (rByMinutes r)) ++
    generateList (lit "BYHOUR") (num_texts (rByHours r)) ++
    generateList (lit "BYDAY") (day_texts (rByDay r)) ++
    generateList (lit "BYMONTHDAY") (num_texts (rByMonthDay r)) ++
    generateList (lit "BYYEARDAY") (num_texts (rByYearDay r)) ++
    generateList (lit "BYWEEKNO") (num_texts (rByWeekNo r)) ++
    generateList (lit "BYMONTH") (num_texts (rByMonth r)) ++
    generateList (lit "BYSETPOS") (num_texts (rBySetPos r)) ++
    (if negb (rWeekstart r =? 1) then lit ";WKST=" ++ weekday_text (rWeekstart r) else []) in
  if rUseCount r then lit ";COUNT=" ++ pystr (rCount r) ++ tail
  else if rUseUntil r then
    match rUntil r with
    | Some d => lit ";UNTIL=" ++ getText d ++ tail
    | None => lit ";UNTIL="
    end
  else tail.

(** The values of a jCal recur object: 699-703, 713-753. *)
Inductive jval : Set := JStr (s : bytes) | JInt (n : Z) | JInts (l : list Z) | JStrs (l : list bytes).

(** s.replace(c, "") for one character, 702. *)
Definition remove_char (c : ascii) (s : bytes) : bytes := filter (fun x => negb (Ascii.eqb c x)) s.

(** 694-698: the names whose list values are joined with commas. *)
Definition json_list_names : list bytes :=
  [lit "bysecond"; lit "byminute"; lit "byhour"; lit "bymonthday"; lit "byyearday"; lit "byweekno";
   lit "bymonth"; lit "bysetpos"; lit "byday"].
(** str() of a Python list of integers or strings, reached by "%s" only for names outside
    694-698; the result is never a valid value, so its exact form does not matter. *)
Definition jval_str (v : jval) : bytes :=
  match v with JStr s => s | JInt n => pystr n | JInts _ | JStrs _ => lit "[]" end.
Definition json_item (nv : bytes * jval) : res bytes :=
  let (name, value) := nv in
  do v <- (if existsb (beq name) json_list_names then
             Ok (match value with
                 | JInts l => join_char "," (map pystr l)
                 | JStrs l => join_char "," l
                 | _ => jval_str value
                 end)
           else if beq name (lit "until") then
             match value with
             | JStr s => Ok (remove_char ":" (remove_char "-" s))
             | _ => Raise AttributeError
             end
           else Ok (jval_str value));
  Ok (upper name ++ lit "=" ++ v).
(** 686-704.  A Python dictionary is given by the list of its items in the order in which items()
    yields them, which is arbitrary. *)
Definition rule_parseJSON (ctx : pctx) (jobject : list (bytes * jval)) : res rule :=
  do items <- mapr json_item jobject;
  rule_parse ctx (join_char ";" items).

(** `if self.mByX: jdict[name] = self.mByX`, 723-749. *)
Definition json_list (name : bytes) (l : option (list Z)) : list (bytes * jval) :=
  match l with None | Some [] => [] | Some l => [(name, JInts l)] end.
(** 706-755, the items of the dictionary in the order of insertion.  cWeekdayRecurMap.get(w, "MO")
    at 753 falls back to MO for an unknown weekday. *)
Definition rule_json (r : rule) : res (list (bytes * jval)) :=
  do u <- (if rUseCount r then Ok [(lit "count", JInt (rCount r))]
           else if rUseUntil r then
             match rUntil r with
             | Some d => Ok [(lit "until", JStr (getXMLText d))]
             | None => Raise AttributeError
             end
           else Ok []);
  Ok ((lit "freq", JStr (freq_text (rFreq r))) :: u ++
    (if 1 <? rInterval r then [(lit "interval", JInt (rInterval r))] else []) ++
    json_list (lit "bysecond") (rBySeconds r) ++
    json_list (lit "byminute") (rByMinutes r) ++
    json_list (lit "byhour") (rByHours r) ++
    (match rByDay r with None | Some [] => [] | Some l => [(lit "byday", JStrs (map byday_text l))] end) ++
    json_list (lit "bymonthday") (rByMonthDay r) ++
    json_list (lit "byyearday") (rByYearDay r) ++
    json_list (lit "byweekno") (rByWeekNo r) ++
    json_list (lit "bymonth") (rByMonth r) ++
    json_list (lit "bysetpos") (rBySetPos r) ++
    (if negb (rWeekstart r =? 1)
     then [(lit "wkst", JStr (match weekday_text (rWeekstart r) with [] => lit "MO" | t => t end))] else [])).

(** list.sort() on integers and on pairs of integers (231-234, 254-257): insertion sort; equal
    elements are indistinguishable, so any sorting algorithm gives the same list. *)
Section Sort.
Variable A : Type.
Variable lt : A -> A -> bool.
Fixpoint insert (x : A) (l : list A) : list A :=
  match l with
  | [] => [x]
  | y :: t => if lt y x then y :: insert x t else x :: l
  end.
Fixpoint isort (l : list A) : list A :=
  match l with [] => [] | x :: t => insert x (isort t) end.
End Sort.
Arguments insert {A}. Arguments isort {A}.

(** Tuple comparison of (number, weekday) pairs. *)
Definition day_lt (a b : Z * Z) : bool :=
  (fst a <? fst b) || ((fst a =? fst b) && (snd a <? snd b)).
Definition day_eqb (a b : Z * Z) : bool := (fst a =? fst b) && (snd a =? snd b).

(** 218-238 and 240-260: the two functions have the same body. *)
Fixpoint list_eqb {A} (eqb : A -> A -> bool) (a b : list A) : bool :=
  match a, b with
  | [], [] => true
  | x :: a', y :: b' => eqb x y && list_eqb eqb a' b'
  | _, _ => false
  end.
Definition equalsList {A} (lt eqb : A -> A -> bool) (i1 i2 : option (list A)) : bool :=
  let l1 := match i1 with Some l => l | None => [] end in
  let l2 := match i2 with Some l => l | None => [] end in
  if negb (Nat.eqb (List.length l1) (List.length l2)) then false
  else if Nat.eqb (List.length l1) 0 then true
  else list_eqb eqb (isort lt l1) (isort lt l2).
Definition equalsNum := @equalsList Z Z.ltb Z.eqb.
Definition equalsDayNum := @equalsList (Z * Z) day_lt day_eqb.

Definition freq_eqb (a b : freq) : bool :=
  match a, b with
  | SECONDLY, SECONDLY | MINUTELY, MINUTELY | HOURLY, HOURLY | DAILY, DAILY
  | WEEKLY, WEEKLY | MONTHLY, MONTHLY | YEARLY, YEARLY => true
  | _, _ => false
  end.

Section WithTz.
Variable tzo : tzid -> Z -> Z -> Z -> Z -> Z -> Z -> bool -> bool -> Z.

(** self.mUntil == comp.mUntil, 204: DateTime.__eq__ (datetime.py:172-173), whose compareDateTime(None) is
    1 (datetime.py:192-193); None == None is True. *)
Definition until_eq (a b : option dt) : res bool :=
  match a, b with
  | None, None => Ok true
  | Some x, Some y => dt_eq tzo x y
  | _, _ => Ok false
  end.

(** 200-216. *)
Definition rule_equals (a b : rule) : res bool :=
  if freq_eqb (rFreq a) (rFreq b) && Bool.eqb (rUseCount a) (rUseCount b) && (rCount a =? rCount b) &&
     Bool.eqb (rUseUntil a) (rUseUntil b) then
    do u <- until_eq (rUntil a) (rUntil b);
    Ok (u && (rInterval a =? rInterval b) &&
        equalsNum (rBySeconds a) (rBySeconds b) &&
        equalsNum (rByMinutes a) (rByMinutes b) &&
        equalsNum (rByHours a) (rByHours b) &&
        equalsDayNum (rByDay a) (rByDay b) &&
        equalsNum (rByMonthDay a) (rByMonthDay b) &&
        equalsNum (rByYearDay a) (rByYearDay b) &&
        equalsNum (rByWeekNo a) (rByWeekNo b) &&
        equalsNum (rByMonth a) (rByMonth b) &&
        equalsNum (rBySetPos a) (rBySetPos b) &&
        (rWeekstart a =? rWeekstart b))
  else Ok false.

(** 172-190: the tuple that is hashed; the posix time of mUntil stands for its hash
    (datetime.py:118-119), and the tuple stands for its hash. *)
Definition tup {A} (l : option (list A)) : option (list A) :=
  match l with None | Some [] => None | Some l => Some l end.
Definition rule_hash (r : rule) :=
  do u <- (match rUntil r with None => Ok None | Some d => do h <- dt_hash tzo d; Ok (Some h) end);
  Ok ((rFreq r, rUseCount r, rCount r, rUseUntil r, u, rInterval r),
      (tup (rBySeconds r), tup (rByMinutes r), tup (rByHours r), tup (rByDay r)),
      (tup (rByMonthDay r), tup (rByYearDay r), tup (rByWeekNo r), tup (rByMonth r), tup (rBySetPos r)),
      rWeekstart r).
End WithTz.

(** `(l is not None) and (len(l) != 0)`, 759-767 and throughout 1048-1370. *)
Definition has {A} (l : option (list A)) : bool :=
  match l with None | Some [] => false | Some _ => true end.
(** The list itself under that test. *)
Definition items {A} (l : option (list A)) : list A := match l with Some l => l | None => [] end.

(** 757-768. *)
Definition hasBy (r : rule) : bool :=
  has (rBySeconds r) || has (rByMinutes r) || has (rByHours r) || has (rByDay r) ||
  has (rByMonthDay r) || has (rByYearDay r) || has (rByWeekNo r) || has (rByMonth r) || has (rBySetPos r).
(** 770-772. *)
Definition isSimpleRule (r : rule) : bool := negb (hasBy r).

(** 774-825. *)
Definition isAdvancedRule (r : rule) : bool :=
  if has (rBySeconds r) || has (rByMinutes r) || has (rByHours r) || has (rByYearDay r) || has (rByWeekNo r)
  then false
  else if existsb (fun i => (i <? -7) || (31 <? i) || (i =? 0)) (items (rByMonthDay r)) then false
  else if match items (rByDay r) with
          | [] => false
          | (number, _) :: t =>
            (4 <? number) || (number <? -2) || existsb (fun nw => negb (number =? fst nw)) t
          end then false
  else match items (rBySetPos r) with
       | [] => true
       | [p] => (p =? -1) || (p =? 1)
       | _ => false
       end.
