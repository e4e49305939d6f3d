(** Model of /repo/src/pycalendar/period.py (class Period) and of
    /repo/src/pycalendar/utcoffsetvalue.py (class UTCOffsetValue).  Definitions only. *)
From Verif Require Export DateTimeText DurationModel.

(** period.py:26-41, the instance variables. *)
Record period : Set := mkPeriod {
  pStart : dt; pEnd : option dt; pDur : option dur; pUse : bool
}.

(** period.py:26-41, Period(start, end=...). *)
Definition newPeriodEnd (s e : dt) : period := mkPeriod s (Some e) None false.
(** period.py:34-37, Period(start, duration=...). *)
Definition newPeriodDur (s : dt) (d : dur) : period := mkPeriod s None (Some d) true.
(** period.py:26-41, Period(). *)
Definition newPeriod : period := newPeriodEnd newDefault newDefault.

(** data.split('/', 1), period.py:77. *)
Fixpoint split1 (c : ascii) (s : bytes) : option (bytes * bytes) :=
  match s with
  | [] => None
  | x :: r => if Ascii.eqb c x then Some ([], r)
              else match split1 c r with Some (a, b) => Some (x :: a, b) | None => None end
  end.

(** period.py:75-94.  On an object that holds a duration, mEnd may be None, and then
    self.mEnd.parse at 89 is an AttributeError. *)
Definition period_parse (ctx : pctx) (fullISO : bool) (data : bytes) (p : period) : period * res unit :=
  match split1 "/" data with
  | None => (p, Raise ValueError)
  | Some (s, e) =>
    match dt_parse ctx fullISO s (pStart p) with
    | (d, Raise x) => (mkPeriod d (pEnd p) (pDur p) (pUse p), index_to_value (Raise x))
    | (d, Ok _) =>
      let p := mkPeriod d (pEnd p) (pDur p) (pUse p) in
      match e with
      | [] => (p, Raise ValueError)
      | c :: _ =>
        if Ascii.eqb c "P" then
          match dur_parseText ctx e with
          | Ok du => (mkPeriod d None (Some du) true, Ok tt)
          | Raise x => (p, index_to_value (Raise x))
          end
        else
          match pEnd p with
          | None => (p, Raise AttributeError)
          | Some old =>
            match dt_parse ctx fullISO e old with
            | (d2, Ok _) => (mkPeriod d (Some d2) None false, Ok tt)
            | (d2, Raise x) => (mkPeriod d (Some d2) (pDur p) (pUse p), index_to_value (Raise x))
            end
          end
      end
    end
  end.

(** period.py:69-73. *)
Definition period_parseText (ctx : pctx) (fullISO : bool) (data : bytes) : res period :=
  match period_parse ctx fullISO data newPeriod with
  | (p, Ok _) => Ok p
  | (_, Raise e) => Raise e
  end.

(** period.py:96-105.  The exception swallowed at 104 can only come from a missing end or
    duration; then only the first part is written. *)
Definition period_generate (p : period) : bytes :=
  getText (pStart p) ++ "/"%char ::
  (if pUse p then match pDur p with Some d => dur_generate d | None => [] end
   else match pEnd p with Some d => getText d | None => [] end).

(** period.py:126-135, writeJSON: the two texts. *)
Definition period_json (p : period) : res (bytes * bytes) :=
  do second <- (if pUse p then match pDur p with Some d => Ok (dur_generate d) | None => Raise AttributeError end
                else match pEnd p with Some d => Ok (getXMLText d) | None => Raise AttributeError end);
  Ok (getXMLText (pStart p), second).

(** period.py:119-124, parseJSON. *)
Definition period_parseJSON (ctx : pctx) (t : bytes * bytes) (p : period) : period * res unit :=
  period_parse ctx true (fst t ++ "/"%char :: snd t) p.

Section WithTz.
Variable tzo : tzid -> Z -> Z -> Z -> Z -> Z -> Z -> bool -> bool -> Z.

(** period.py:139-142: the object with mEnd filled in, and the end. *)
Definition getEnd (p : period) : period * res dt :=
  match pEnd p with
  | Some e => (p, Ok e)
  | None => match pDur p with
            | None => (p, Raise AttributeError)
            | Some du => let e := addSeconds (pStart p) (getTotalSeconds du) in
                         (mkPeriod (pStart p) (Some e) (pDur p) (pUse p), Ok e)
            end
  end.

(** period.py:144-147. *)
Definition getDuration (p : period) : period * res dur :=
  match pDur p with
  | Some d => (p, Ok d)
  | None => match pEnd p with
            | None => (p, Raise TypeError)
            | Some e => match subDateTime tzo e (pStart p) with
                        | Raise x => (p, Raise x)
                        | Ok n => let d := setDuration n in
                                  (mkPeriod (pStart p) (pEnd p) (Some d) (pUse p), Ok d)
                        end
            end
  end.

(** period.py:152-157. *)
Definition setUseDuration (p : period) (use : bool) : period * res unit :=
  let p := mkPeriod (pStart p) (pEnd p) (pDur p) use in
  if use then match pDur p with
              | None => let (q, r) := getDuration p in (q, do _ <- r; Ok tt)
              | Some _ => (p, Ok tt)
              end
  else match pEnd p with
       | None => let (q, r) := getEnd p in (q, do _ <- r; Ok tt)
       | Some _ => (p, Ok tt)
       end.

(** period.py:159-161. *)
Definition isDateWithinPeriod (p : period) (t : dt) : res bool :=
  do a <- dt_ge tzo t (pStart p);
  if a then do e <- snd (getEnd p); dt_lt tzo t e else Ok false.
(** period.py:163-165. *)
Definition isDateBeforePeriod (p : period) (t : dt) : res bool := dt_lt tzo t (pStart p).
(** period.py:167-169. *)
Definition isDateAfterPeriod (p : period) (t : dt) : res bool := do e <- snd (getEnd p); dt_ge tzo t e.
(** period.py:171-173. *)
Definition isPeriodOverlap (p q : period) : res bool :=
  do e <- snd (getEnd q);
  do a <- dt_ge tzo (pStart p) e;
  if a then Ok false
  else do e <- snd (getEnd p); do b <- dt_le tzo e (pStart q); Ok (negb b).
(** period.py:59-60. *)
Definition period_eq (p q : period) : res bool :=
  do a <- dt_eq tzo (pStart p) (pStart q);
  if a then do e <- snd (getEnd p); do f <- snd (getEnd q); dt_eq tzo e f else Ok false.
(** period.py:65-67. *)
Definition period_lt (p q : period) : res bool :=
  do a <- dt_lt tzo (pStart p) (pStart q);
  if a then Ok true
  else do b <- dt_eq tzo (pStart p) (pStart q);
       if b then do e <- snd (getEnd p); do f <- snd (getEnd q); dt_lt tzo e f else Ok false.
(** period.py:62-63: the DateTime start is compared with the Period [comp], so
    DateTime.__gt__ (datetime.py:186-187) calls compareDateTime, which reads
    comp.mDateOnly (datetime.py:197); a Period has no such attribute. *)
Definition period_gt (p q : period) : res bool := Raise AttributeError.
(** period.py:50-51; the pair of hashes stands for the hash. *)
Definition period_hash (p : period) : res (Z * Z) :=
  do a <- dt_hash tzo (pStart p); do e <- snd (getEnd p); do b <- dt_hash tzo e; Ok (a, b).
(** period.py:175-177. *)
Definition period_adjustToUTC (p : period) : res period :=
  do e <- snd (getEnd p);
  Ok (mkPeriod (adjustToUTC tzo (pStart p)) (Some (adjustToUTC tzo e)) (pDur p) (pUse p)).
End WithTz.

(** utcoffsetvalue.py:35-65: the new mValue and the outcome. *)
Definition utcoffset_parse (vcard : bool) (data : bytes) (old : Z) : Z * res unit :=
  let datalen := List.length data in
  if negb (existsb (Nat.eqb datalen) (if vcard then [6; 9]%nat else [5; 7]%nat)) then (0, Raise ValueError)
  else
    match data with
    | [] => (old, Raise IndexError)
    | c :: _ =>
      if negb (Ascii.eqb c "+" || Ascii.eqb c "-") then (old, Raise ValueError)
      else
        let plus := Ascii.eqb c "+" in
        let index := if vcard then 4%nat else 3%nat in
        match (do hours <- pyint (slice data 1 3);
               do mins <- pyint (slice data index (index + 2));
               do secs <- (if (6 <? datalen)%nat then pyint (skipn (if vcard then 7 else 5)%nat data) else Ok 0);
               Ok ((hours * 60 + mins) * 60 + secs)) with
        | Ok v => (if plus then v else - v, Ok tt)
        | Raise e => (old, Raise e)
        end
    end.

(** utcoffsetvalue.py:68-87.  The only raising operation inside the try would be a write
    error. *)
Definition utcoffset_generate (fullISO : bool) (v : Z) : bytes :=
  let a := if v <? 0 then - v else v in
  let sign := if v <? 0 then lit "-" else lit "+" in
  let colon := if fullISO then lit ":" else [] in
  let secs := a mod 60 in
  let s := sign ++ fmt0 2 (a / 3600) ++ colon ++ fmt0 2 ((a / 60) mod 60) in
  if negb (secs =? 0) then s ++ colon ++ fmt0 2 secs else s.

(** utcoffsetvalue.py:89-97: the text of the XML element; s[:-2] and s[-2:]. *)
Definition utcoffset_xml (v : Z) : bytes :=
  let text := utcoffset_generate false v in
  let n := (List.length text - 2)%nat in
  firstn n text ++ ":"%char :: skipn n text.
