(** Model of /repo/src/pycalendar/duration.py.  Definitions only. *)
From Verif Require Export ParserCtx.

(** duration.py:24-32, the instance variables. *)
Record dur : Set := mkDur {
  mForward : bool; dWeeks : Z; dDays : Z; dHours : Z; dMinutes : Z; dSeconds : Z
}.

(** duration.py:63-65. *)
Definition getTotalSeconds (d : dur) : Z :=
  (if negb (mForward d) then -1 else 1) *
  (dSeconds d + (dMinutes d + (dHours d + (dDays d + dWeeks d * 7) * 24) * 60) * 60).

(** duration.py:67-97.  All fields are assigned, so the old value does not matter. *)
Definition setDuration (seconds : Z) : dur :=
  let fwd := 0 <=? seconds in
  let remainder := if seconds <? 0 then - seconds else seconds in
  if remainder mod (7 * 24 * 60 * 60) =? 0 then
    mkDur fwd (remainder / (7 * 24 * 60 * 60)) 0 0 0 0
  else
    let s := remainder mod 60 in
    let remainder := (remainder - s) / 60 in
    let mi := remainder mod 60 in
    let remainder := (remainder - mi) / 60 in
    let h := remainder mod 24 in
    let remainder := remainder - h in
    mkDur fwd 0 (remainder / 24) h mi s.

(** duration.py:24-36 with component arguments. *)
Definition newDuration (weeks days hours minutes seconds : Z) : dur :=
  setDuration ((((weeks * 7 + days) * 24 + hours) * 60 + minutes) * 60 + seconds).

(** Attribute assignments at 131-133, 149, 160, 189, 202, 215. *)
Definition set_fwd (b : bool) (d : dur) := mkDur b (dWeeks d) (dDays d) (dHours d) (dMinutes d) (dSeconds d).
Definition set_weeks (n : Z) (d : dur) := mkDur (mForward d) n (dDays d) (dHours d) (dMinutes d) (dSeconds d).
Definition set_days (n : Z) (d : dur) := mkDur (mForward d) (dWeeks d) n (dHours d) (dMinutes d) (dSeconds d).
Definition set_hours (n : Z) (d : dur) := mkDur (mForward d) (dWeeks d) (dDays d) n (dMinutes d) (dSeconds d).
Definition set_minutes (n : Z) (d : dur) := mkDur (mForward d) (dWeeks d) (dDays d) (dHours d) n (dSeconds d).
Definition set_seconds (n : Z) (d : dur) := mkDur (mForward d) (dWeeks d) (dDays d) (dHours d) (dMinutes d) n.

Section Parse.
Variable ctx : pctx.

(** The parser state (offset) is represented by the unread part of the text: `data[offset]` is
    its head and `offset == maxoffset` means it is empty. *)

(** duration.py:212-222. *)
Definition parse_secs (num : Z) (rest : bytes) : M dur unit :=
  dom c <- mlift (head_r rest);
  if Ascii.eqb c "S" then
    dom _ <- mupd (set_seconds num);
    match tl rest with
    | [] => mret tt
    | _ => mraise ValueError
    end
  else mraise ValueError.

(** duration.py:199-210. *)
Definition parse_mins (num : Z) (rest : bytes) : M dur unit :=
  dom c <- mlift (head_r rest);
  if Ascii.eqb c "M" then
    dom _ <- mupd (set_minutes num);
    match tl rest with
    | [] => mret tt
    | r => dom (n, r') <- mlift (strtoul_rest r); parse_secs n r'
    end
  else parse_secs num rest.

(** duration.py:186-197. *)
Definition parse_hrs (num : Z) (rest : bytes) : M dur unit :=
  dom c <- mlift (head_r rest);
  if Ascii.eqb c "H" then
    dom _ <- mupd (set_hours num);
    match tl rest with
    | [] => mret tt
    | r => dom (n, r') <- mlift (strtoul_rest r); parse_mins n r'
    end
  else parse_mins num rest.

(** duration.py:174-184; [rest] starts at the 'T', which is not looked at again. *)
Definition parse_time (rest : bytes) : M dur unit :=
  match tl rest with
  | [] => if peqb (INVALID_DURATION_VALUE ctx) PARSER_RAISE then mraise ValueError else mret tt
  | r => dom (n, r') <- mlift (strtoul_rest r); parse_hrs n r'
  end.

(** duration.py:141-172 (text after the 'P'). *)
Definition parse_dates (rest : bytes) : M dur unit :=
  dom c <- mlift (head_r rest);
  if negb (Ascii.eqb c "T") then
    dom (num, r) <- mlift (strtoul_rest rest);
    dom c <- mlift (head_r r);
    if Ascii.eqb c "W" then
      dom _ <- mupd (set_weeks num);
      match tl r with
      | [] => mret tt
      | _ => if negb (peqb (INVALID_DURATION_VALUE ctx) PARSER_RAISE) then mret tt else mraise ValueError
      end
    else if Ascii.eqb c "D" then
      dom _ <- mupd (set_days num);
      match tl r with
      | [] => mret tt
      | c :: _ => if negb (Ascii.eqb c "T") then mraise ValueError else parse_time (tl r)
      end
    else mraise ValueError
  else parse_time rest.

(** duration.py:126-139. *)
Definition dur_parse_body (data : bytes) : M dur unit :=
  dom _ <- mupd (set_fwd true);
  dom c <- mlift (head_r data);
  dom rest <- (if Ascii.eqb c "-" || Ascii.eqb c "+" then
                 dom _ <- mupd (set_fwd (Ascii.eqb c "+")); mret (tl data)
               else mret data);
  dom c <- mlift (head_r rest);
  if negb (Ascii.eqb c "P") then mraise ValueError
  else parse_dates (tl rest).

(** duration.py:123-225: IndexError becomes ValueError. *)
Definition dur_parse (data : bytes) : M dur unit :=
  fun d => let (d', r) := dur_parse_body data d in (d', index_to_value r).

(** duration.py:117-121. *)
Definition dur_parseText (data : bytes) : res dur :=
  match dur_parse data (newDuration 0 0 0 0 0) with
  | (d, Ok _) => Ok d
  | (_, Raise e) => Raise e
  end.
End Parse.

(** duration.py:227-253.  The try/except: pass cannot trigger (only string writes). *)
Definition nz (n : Z) : bool := negb (n =? 0).
Definition dur_generate (d : dur) : bytes :=
  (if negb (mForward d) && (nz (dWeeks d) || nz (dDays d) || nz (dHours d) || nz (dMinutes d) || nz (dSeconds d))
   then lit "-" else []) ++
  lit "P" ++
  (if nz (dWeeks d) then pystr (dWeeks d) ++ lit "W"
   else
     (if nz (dDays d) then pystr (dDays d) ++ lit "D" else []) ++
     (if nz (dHours d) || nz (dMinutes d) || nz (dSeconds d) then
        lit "T" ++
        (if nz (dHours d) then pystr (dHours d) ++ lit "H" else []) ++
        (if nz (dMinutes d) || (nz (dHours d) && nz (dSeconds d)) then pystr (dMinutes d) ++ lit "M" else []) ++
        (if nz (dSeconds d) then pystr (dSeconds d) ++ lit "S" else [])
      else if dDays d =? 0 then lit "T0S" else [])).
