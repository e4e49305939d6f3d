(** Model of the offset lookup of /repo/src/pycalendar/icalendar/vtimezone.py (class VTimezone)
    and vtimezoneelement.py (class VTimezoneElement: STANDARD and DAYLIGHT).  Line numbers refer
    to vtimezone.py unless another file is named.  Definitions only.

    Simplifications.  TZOFFSETTO, TZOFFSETFROM and DTSTART are present in every element, so the
    properties read again in vtimezoneelement.py:158-159 have the values stored by finalise
    (vtimezoneelement.py:62-90).  [tzo] answers for the other zones: the default zone that is
    used for the posix time of the floating onsets must not be the zone that is being expanded
    (the code would recurse).  Sets are treated as in RecurSetModel; [order] is the iteration
    order of sets of date-times and [torder] the one of sets of tuples.  fuel bounds the rounds
    of the rule expansion. *)
From Verif Require Import PyBase DateTimeModel PeriodModel RecurModel RecurExpand RecurSetModel.

(** vtimezoneelement.py:41-49. *)
Record elem : Set := mkElem {
  eStart : dt; eTo : Z; eFrom : Z; eName : bytes; eRec : rset;
  eBelow : option dt; eItems : option (list dt)
}.

(** The tuples of vtimezoneelement.py:170-172 and 205-207. *)
Record onset_row : Set := mkOnset { oAt : dt; oFrom : Z; oTo : Z; oName : option bytes }.
(** The tuples of 264-270: with the UTC time inserted. *)
Record trow : Set := mkTrow { tAt : dt; tUTC : dt; tFrom : Z; tTo : Z; tName : option bytes }.

Section WithTz.
Variable tzo : tzid -> Z -> Z -> Z -> Z -> Z -> Z -> bool -> bool -> Z.
Variable order : list dt -> list dt.
Variable torder : list onset_row -> list onset_row.

(** vtimezoneelement.py:127 and 187: 1 January of the year of d, floating. *)
Definition jan1 (d : dt) : dt := newDateTime (mYear d) 1 1 0 0 0 false TzNone.

(** vtimezoneelement.py:129-138 and 189-198: the cached items, recomputed up to [upto] when
    temp is later than the cached bound.  mStart is normalised in place by the expansion when
    there are rules (see rset_expand). *)
Definition fill (fuel : nat) (e : elem) (temp upto : dt) : option (elem * res unit) :=
  let items := match eItems e with None => [] | Some l => l end in
  let below := match eBelow e with None => eStart e | Some d => d end in
  match dt_gt tzo temp below with
  | Raise x => Some (mkElem (eStart e) (eTo e) (eFrom e) (eName e) (eRec e) (Some below) (Some items), Raise x)
  | Ok false => Some (mkElem (eStart e) (eTo e) (eFrom e) (eName e) (eRec e) (Some below) (Some items), Ok tt)
  | Ok true =>
    let start := match sRrules (eRec e) with [] => eStart e | _ => normalise (eStart e) end in
    match rset_expand tzo order fuel (eRec e) (eStart e) (newPeriodEnd (eStart e) upto) (eFrom e) None with
    | None => None
    | Some (s, (items, Raise x)) => Some (mkElem start (eTo e) (eFrom e) (eName e) s (Some below) (Some items), Raise x)
    | Some (s, (items, Ok _)) => Some (mkElem start (eTo e) (eFrom e) (eName e) s (Some temp) (Some items), Ok tt)
    end
  end.

(** bisect.bisect_right (Python library, used in vtimezoneelement.py:143) and 211-226: the two
    loops are the same, [key] gives the date-time of an entry.  fuel bounds the rounds. *)
Fixpoint bisect {A} (fuel : nat) (key : A -> dt) (a : list A) (x : dt) (lo hi : nat) : res nat :=
  match fuel with
  | O => Ok lo
  | S n =>
    if (lo <? hi)%nat then
      let mid := Nat.div (lo + hi) 2 in
      match nth_error a mid with
      | None => Raise IndexError
      | Some r =>
        do b <- dt_lt tzo x (key r);
        if b then bisect n key a x lo mid else bisect n key a x (S mid) hi
      end
    else Ok lo
  end.
(** Every round shrinks hi - lo, so as many rounds as there are entries are enough. *)
Definition bisect_right {A} (key : A -> dt) (a : list A) (x : dt) : res nat :=
  bisect (S (List.length a)) key a x 0 (List.length a).

(** vtimezoneelement.py:110-150. *)
Definition expandBelow (fuel : nat) (e : elem) (below : dt) : option (elem * res dt) :=
  if negb (hasRecurrence (eRec e)) then Some (e, Ok (eStart e))
  else
    match dt_gt tzo (eStart e) below with
    | Raise x => Some (e, Raise x)
    | Ok true => Some (e, Ok (eStart e))
    | Ok false =>
      match fill fuel e (jan1 below) (jan1 below) with
      | None => None
      | Some (e, Raise x) => Some (e, Raise x)
      | Some (e, Ok _) =>
        let items := match eItems e with None => [] | Some l => l end in
        match items with
        | [] => Some (e, Ok (eStart e))
        | first :: _ =>
          match bisect_right (fun d => d) items below with
          | Raise x => Some (e, Raise x)
          | Ok O => Some (e, Ok first)
          | Ok (S i) => Some (e, match nth_error items i with None => Raise IndexError | Some d => Ok d end)
          end
        end
      end
    end.

(** vtimezoneelement.py:202-209. *)
Fixpoint rows_within (e : elem) (start stop : dt) (with_name : bool) (items : list dt) : res (list onset_row) :=
  match items with
  | [] => Ok []
  | d :: t =>
    do ge <- dt_ge tzo d start;
    do inside <- (if ge then dt_lt tzo d stop else Ok false);
    do r <- rows_within e start stop with_name t;
    Ok (if inside then mkOnset d (eFrom e) (eTo e) (if with_name then Some (eName e) else None) :: r else r)
  end.
(** vtimezoneelement.py:152-211.  The default for start is the object mStart itself. *)
Definition elem_expandAll (fuel : nat) (e : elem) (start : option dt) (stop : dt) (with_name : bool)
  : option (elem * res (list onset_row)) :=
  match dt_gt tzo (eStart e) stop with
  | Raise x => Some (e, Raise x)
  | Ok true => Some (e, Ok [])
  | Ok false =>
    if negb (hasRecurrence (eRec e)) then
      Some (e, do ge <- dt_ge tzo (eStart e) (match start with None => eStart e | Some s => s end);
               Ok (if ge then [mkOnset (eStart e) (eFrom e) (eTo e) (if with_name then Some (eName e) else None)] else []))
    else
      match fill fuel e (jan1 stop) stop with
      | None => None
      | Some (e, Raise x) => Some (e, Raise x)
      | Some (e, Ok _) =>
        Some (e, rows_within e (match start with None => eStart e | Some s => s end) stop with_name
                   (match eItems e with None => [] | Some l => l end))
      end
  end.

(** 259-261: the elements one after the other. *)
Fixpoint expand_elems (fuel : nat) (es : list elem) (start : option dt) (stop : dt) (with_name : bool)
  : option (list elem * res (list onset_row)) :=
  match es with
  | [] => Some ([], Ok [])
  | e :: t =>
    match elem_expandAll fuel e start stop with_name with
    | None => None
    | Some (e', Raise x) => Some (e' :: t, Raise x)
    | Some (e', Ok rows) =>
      match expand_elems fuel t start stop with_name with
      | None => None
      | Some (t', Raise x) => Some (e' :: t', Raise x)
      | Some (t', Ok rows') => Some (e' :: t', Ok (rows ++ rows'))
      end
    end
  end.

(** 264: set(results).  Tuples are equal when their entries are; the hash of the date-time is
    compared before __eq__ is called. *)
Definition name_eqb (a b : option bytes) : bool :=
  match a, b with None, None => true | Some x, Some y => beq x y | _, _ => false end.
Fixpoint has_row (ks : list (Z * onset_row)) (k : Z * onset_row) : res bool :=
  match ks with
  | [] => Ok false
  | k' :: t =>
    if (fst k' =? fst k) && (oFrom (snd k') =? oFrom (snd k)) && (oTo (snd k') =? oTo (snd k)) && name_eqb (oName (snd k')) (oName (snd k))
    then do e <- dt_eq tzo (oAt (snd k')) (oAt (snd k)); if e then Ok true else has_row t k
    else has_row t k
  end.
Fixpoint add_rows (acc l : list (Z * onset_row)) : res (list (Z * onset_row)) :=
  match l with
  | [] => Ok acc
  | k :: t => do b <- has_row acc k; add_rows (if b then acc else acc ++ [k]) t
  end.
Definition row_key (r : onset_row) : res (Z * onset_row) :=
  do k <- posix_key tzo (oAt r); Ok (fst k, mkOnset (snd k) (oFrom r) (oTo r) (oName r)).
Definition unique_rows (l : list onset_row) : res (list onset_row) :=
  do ks <- mapr row_key l;
  do u <- add_rows [] ks;
  Ok (torder (map snd u)).

(** 265-270. *)
Definition with_utc (r : onset_row) : trow :=
  mkTrow (oAt r) (setTimezoneUTC (offsetSeconds (oAt r) (- oFrom r)) true) (oFrom r) (oTo r) (oName r).
(** 271: list.sort is stable and calls the key function once for each row, in order. *)
Definition trow_key (r : trow) : res (Z * trow) :=
  do k <- posix_key tzo (tAt r); Ok (fst k, mkTrow (snd k) (tUTC r) (tFrom r) (tTo r) (tName r)).
Definition sort_rows (l : list trow) : res (list trow) :=
  do ks <- mapr trow_key l;
  Ok (map snd (isort (fun a b => fst a <? fst b) ks)).
(** 258-272. *)
Definition expandAll (fuel : nat) (es : list elem) (start : option dt) (stop : dt) (with_name : bool)
  : option (list elem * res (list trow)) :=
  match expand_elems fuel es start stop with_name with
  | None => None
  | Some (es, Raise x) => Some (es, Raise x)
  | Some (es, Ok rows) => Some (es, do u <- unique_rows rows; sort_rows (map with_utc u))
  end.

(** 211-226. *)
Definition tuple_bisect_right (a : list trow) (x : dt) (relative_to_utc : bool) : res nat :=
  bisect_right (fun r => if relative_to_utc then tUTC r else tAt r) a x.

(** 40-45: the elements and the caches; 166 is the key of mCachedOffsets. *)
Definition ckey : Set := (Z * Z * Z * Z * Z * bool)%type.
Record vtz : Set := mkVtz {
  zElems : list elem; zMaxYear : option Z; zTable : list trow; zOffsets : list (ckey * nat)
}.
Definition vtz_init (es : list elem) : vtz := mkVtz es None [] [].

(** 166. *)
Definition cache_key (d : dt) (rel : bool) : ckey := (mYear d, mMonth d, mDay d, mHours d, mMinutes d, rel).
Definition ckey_eqb (a b : ckey) : bool :=
  let '(y, m, d, h, mi, r) := a in let '(y', m', d', h', mi', r') := b in
  (y =? y') && (m =? m') && (d =? d') && (h =? h') && (mi =? mi') && Bool.eqb r r'.
Fixpoint lookup (l : list (ckey * nat)) (k : ckey) : option nat :=
  match l with [] => None | (k', i) :: t => if ckey_eqb k' k then Some i else lookup t k end.
(** 36. *)
Definition max_entries : Z := 100000.

(** 155-159. *)
Definition cache_max (temp : dt) : dt := setDay (setMonth (offsetYear (setHHMMSS temp 0 0 0) 2) 1) 1.

(** 165-176: the search in the table of z. *)
Definition lookup_offset (z : vtz) (temp : dt) (rel : bool) : vtz * res Z :=
  match zTable z with
  | [] => (z, Ok 0)
  | _ =>
    let answer (i : nat) := match i with
      | O => Ok 0
      | S j => match nth_error (zTable z) j with None => Raise IndexError | Some r => Ok (tTo r) end
      end in
    match lookup (zOffsets z) (cache_key temp rel) with
    | Some i => (z, answer i)
    | None =>
      match tuple_bisect_right (zTable z) temp rel with
      | Raise x => (z, Raise x)
      | Ok i =>
        let l := if max_entries <=? Z.of_nat (List.length (zOffsets z)) then [] else zOffsets z in
        (mkVtz (zElems z) (zMaxYear z) (zTable z) ((cache_key temp rel, i) :: l), answer i)
      end
    end
  end.
(** 129-176. *)
Definition getTimezoneOffsetSeconds (fuel : nat) (z : vtz) (d : dt) (rel : bool) : option (vtz * res Z) :=
  let temp := setTimezoneID d TzNone in
  if match zMaxYear z with None => true | Some y => y <=? mYear temp end then
    match expandAll fuel (zElems z) None (cache_max temp) false with
    | None => None
    | Some (es, Raise x) => Some (mkVtz es (zMaxYear z) (zTable z) (zOffsets z), Raise x)
    | Some (es, Ok table) => Some (lookup_offset (mkVtz es (Some (mYear (cache_max temp))) table []) temp rel)
    end
  else Some (lookup_offset z temp rel).

(** 239-256: the loop over the elements; found with its time. *)
Fixpoint find_elem (fuel : nat) (es : list elem) (temp : dt) (found : option (elem * dt)) : option (list elem * res (option (elem * dt))) :=
  match es with
  | [] => Some ([], Ok found)
  | e :: t =>
    match expandBelow fuel e temp with
    | None => None
    | Some (e, Raise x) => Some (e :: t, Raise x)
    | Some (e, Ok d) =>
      match (do ge <- dt_ge tzo temp d;
             if ge then
               match found with
               | None => Ok (Some (e, d))
               | Some (_, df) => do gt <- dt_gt tzo d df; Ok (if gt then Some (e, d) else found)
               end
             else Ok found) with
      | Raise x => Some (e :: t, Raise x)
      | Ok found =>
        match find_elem fuel t temp found with
        | None => None
        | Some (t, r) => Some (e :: t, r)
        end
      end
    end
  end.
(** 228-256. *)
Definition findTimezoneElement (fuel : nat) (z : vtz) (d : dt) : option (vtz * res (option elem)) :=
  match find_elem fuel (zElems z) (setTimezoneID d TzNone) None with
  | None => None
  | Some (es, r) => Some (mkVtz es (zMaxYear z) (zTable z) (zOffsets z), do f <- r; Ok (option_map fst f))
  end.
(** 183-206; Python 2 division rounds down. *)
Definition descriptor (e : elem) : bytes :=
  match eName e with
  | [] =>
    let n := Z.abs (eTo e) in
    let two k := (if k <? 10 then lit "0" else []) ++ pystr k in
    lit (if eTo e <? 0 then "-" else "+") ++ two (n / 3600) ++ two (n / 60 mod 60)
  | _ => lit "(" ++ eName e ++ lit ")"
  end.
(** 178-206. *)
Definition getTimezoneDescriptor (fuel : nat) (z : vtz) (d : dt) : option (vtz * res bytes) :=
  match findTimezoneElement fuel z d with
  | None => None
  | Some (z, r) => Some (z, do f <- r; Ok (match f with None => [] | Some e => descriptor e end))
  end.
End WithTz.
