(** Model of the text codecs of /repo/src/pycalendar/datetime.py.  Definitions only.
    Line numbers refer to that file.

    The parser position `index` is represented by the unread part of `data`:
    `data[index:index+2]` is its first two bytes, `data[index]` its head (IndexError if empty)
    and `index < dlen` says that it is not empty.  This is exact also when index has run past the end
    (slices shorter than two bytes), because then both are empty.  *)
From Verif Require Export DateTimeModel ParserCtx.

(** 840-853.  divmod(abs/60, 60)[1] is (abs/60) mod 60. *)
Definition tz_sign (n : Z) : bytes := if n <? 0 then lit "-" else lit "+".
Definition getText (d : dt) : bytes :=
  let date := fmt0 4 (mYear d) ++ fmt0 2 (mMonth d) ++ fmt0 2 (mDay d) in
  if mDateOnly d then date
  else
    let dtm := date ++ lit "T" ++ fmt0 2 (mHours d) ++ fmt0 2 (mMinutes d) ++ fmt0 2 (mSeconds d) in
    if mTZUTC d then dtm ++ lit "Z"
    else match mTZID d with
         | TzInt n => dtm ++ tz_sign n ++ fmt0 2 (Z.abs n / 3600) ++ fmt0 2 ((Z.abs n / 60) mod 60)
         | _ => dtm
         end.

(** 855-870; also getJSONText. *)
Definition getXMLText (d : dt) : bytes :=
  let date := fmt0 4 (mYear d) ++ lit "-" ++ fmt0 2 (mMonth d) ++ lit "-" ++ fmt0 2 (mDay d) in
  if mDateOnly d then date
  else
    let dtm := date ++ lit "T" ++ fmt0 2 (mHours d) ++ lit ":" ++ fmt0 2 (mMinutes d) ++ lit ":" ++ fmt0 2 (mSeconds d) in
    if mTZUTC d then dtm ++ lit "Z"
    else match mTZID d with
         | TzInt n => dtm ++ tz_sign n ++ fmt0 2 (Z.abs n / 3600) ++ lit ":" ++ fmt0 2 ((Z.abs n / 60) mod 60)
         | _ => dtm
         end.

(** `if fullISO and data[index] == c: index += 1` (882, 888, 905, 911). *)
Definition skip_sep (fullISO : bool) (c : ascii) (rest : bytes) : res bytes :=
  if fullISO then do x <- head_r rest; Ok (if Ascii.eqb x c then tl rest else rest)
  else Ok rest.

(** Attribute assignments (880, 886, 892, 903, 909, 915, 933, 953, 980). *)
Definition set_y (y : Z) (d : dt) := with_ymd d y (mMonth d) (mDay d).
Definition set_mo (m : Z) (d : dt) := with_ymd d (mYear d) m (mDay d).
Definition set_da (x : Z) (d : dt) := with_ymd d (mYear d) (mMonth d) x.
Definition set_h (h : Z) (d : dt) := with_hms d h (mMinutes d) (mSeconds d).
Definition set_mi (m : Z) (d : dt) := with_hms d (mHours d) m (mSeconds d).
Definition set_s (s : Z) (d : dt) := with_hms d (mHours d) (mMinutes d) s.
Definition set_utc (b : bool) (d : dt) := with_tz d b (mTZID d).
Definition set_tzid (t : tzid) (d : dt) := with_tz d (mTZUTC d) t.
Definition set_donly (b : bool) (d : dt) := with_dateonly d b.

Section Parse.
Variable ctx : pctx.
Variable fullISO : bool.

(** 878-899; returns the unread part. *)
Definition parseDate (data : bytes) : M dt bytes :=
  dom y <- mlift (pyint (firstn 4 data));
  dom _ <- mupd (set_y y);
  dom r1 <- mlift (skip_sep fullISO "-" (skipn 4 data));
  dom m <- mlift (pyint (firstn 2 r1));
  dom _ <- mupd (set_mo m);
  dom r2 <- mlift (skip_sep fullISO "-" (skipn 2 r1));
  dom dd <- mlift (pyint (firstn 2 r2));
  dom _ <- mupd (set_da dd);
  let r3 := skipn 2 r2 in
  let consumed := firstn (List.length data - List.length r3) data in
  if cin SPC consumed && peqb (INVALID_DATETIME_LEADINGSPACE ctx) PARSER_RAISE then mraise ValueError
  else if (y <? 0) || (m <? 0) || (dd <? 0) then mraise ValueError
  else mret r3.

(** 901-918. *)
Definition parseTime (rest : bytes) : M dt bytes :=
  dom h <- mlift (pyint (firstn 2 rest));
  dom _ <- mupd (set_h h);
  dom r1 <- mlift (skip_sep fullISO ":" (skipn 2 rest));
  dom m <- mlift (pyint (firstn 2 r1));
  dom _ <- mupd (set_mi m);
  dom r2 <- mlift (skip_sep fullISO ":" (skipn 2 r1));
  dom s <- mlift (pyint (firstn 2 r2));
  dom _ <- mupd (set_s s);
  mret (skipn 2 r2).

(** 920-928: the optional fraction. *)
Definition skip_fraction (rest : bytes) : res bytes :=
  do c <- head_r rest;
  if Ascii.eqb c "," then
    let r := tl rest in
    do c <- head_r r;
    if negb (is_digit c) then Raise ValueError
    else Ok (snd (span_digits r))
  else Ok rest.

(** 920-957. *)
Definition parseFractionalAndUTCOffset (rest0 : bytes) : M dt bytes :=
  dom rest <- mlift (skip_fraction rest0);
  dom r <- (match rest with
            | [] => mret []
            | c :: t =>
              if Ascii.eqb c "Z" then dom _ <- mupd (set_utc true); mret t
              else
                dom sign <- (if Ascii.eqb c "+" then mret 1
                             else if Ascii.eqb c "-" then mret (-1) else mraise ValueError);
                dom h <- mlift (pyint (firstn 2 t));
                let r1 := skipn 2 t in
                dom c1 <- mlift (head_r r1);
                let r2 := if Ascii.eqb c1 ":" then tl r1 else r1 in
                dom m <- mlift (pyint (firstn 2 r2));
                dom _ <- mupd (set_tzid (TzInt (sign * (h * 60 + m) * 60)));
                mret (skipn 2 r2)
            end);
  match r with
  | [] => mret r
  | _ => mraise ValueError
  end.

(** 966-996, the body of the try block. *)
Definition dt_parse_body (data : bytes) : M dt unit :=
  dom r <- parseDate data;
  match r with
  | [] => mupd (set_donly true)
  | c :: t =>
    if negb (Ascii.eqb c "T") then mraise ValueError
    else
      dom r <- parseTime t;
      dom _ <- mupd (set_donly false);
      match r with
      | [] => mupd (set_utc false)
      | c :: t =>
        if fullISO then dom _ <- parseFractionalAndUTCOffset r; mret tt
        else if negb (Ascii.eqb c "Z") then mraise ValueError
        else dom _ <- mupd (set_utc true);
             match t with [] => mret tt | _ => mraise ValueError end
      end
  end.

(** 959-1001. *)
Definition dt_parse (data : bytes) : M dt unit :=
  fun d => match dt_parse_body data d with
           | (d', Ok _) => (changed d', Ok tt)
           | (d', r) => (d', index_to_value r)
           end.

(** 872-876. *)
Definition dt_parseText (data : bytes) : res dt :=
  match dt_parse data newDefault with
  | (d, Ok _) => Ok d
  | (_, Raise e) => Raise e
  end.
End Parse.
