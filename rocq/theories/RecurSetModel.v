(** Model of /repo/src/pycalendar/icalendar/recurrenceset.py (class RecurrenceSet) and of
    utils.py:513-520 (set_difference).  Line numbers refer to recurrenceset.py unless another
    file is named.  Definitions only.

    Python sets.  set(l) keeps the first of several equal elements, where equal means: same
    hash (datetime.py:118-119; the posix time stands for its hash) and __eq__
    (datetime.py:173-174) true.  The order in which a set is iterated is an implementation
    detail of the hash table: [order], applied to the elements in the order of their insertion,
    is an arbitrary function here; theorems assume that it permutes its argument. *)
From Verif Require Import PyBase DateTimeModel PeriodModel RecurModel RecurExpand.

Section WithTz.
Variable tzo : tzid -> Z -> Z -> Z -> Z -> Z -> Z -> bool -> bool -> Z.

(** Is an element equal to k among ks?  The hash is compared before __eq__ is called. *)
Fixpoint has_key (ks : list (Z * dt)) (k : Z * dt) : res bool :=
  match ks with
  | [] => Ok false
  | k' :: t => if fst k' =? fst k then do e <- dt_eq tzo (snd k') (snd k); if e then Ok true else has_key t k
               else has_key t k
  end.
(** Insertion of the elements of l, one by one, into the set with elements acc. *)
Fixpoint add_all (acc l : list (Z * dt)) : res (list (Z * dt)) :=
  match l with
  | [] => Ok acc
  | k :: t => do b <- has_key acc k; add_all (if b then acc else acc ++ [k]) t
  end.

Variable order : list dt -> list dt.

(** The keys of set(l), in insertion order.  Computing a hash fills the caches of the
    elements. *)
Definition set_keys (l : list dt) : res (list (Z * dt)) := do ks <- mapr (posix_key tzo) l; add_all [] ks.
(** [x for x in set(l)], 203 and 222. *)
Definition unique (l : list dt) : res (list dt) := do ks <- set_keys l; Ok (order (map snd ks)).

(** The elements of ks without an equal one in s2, utils.py:519. *)
Fixpoint without (s2 ks : list (Z * dt)) : res (list dt) :=
  match ks with
  | [] => Ok []
  | k :: t => do b <- has_key s2 k; do r <- without s2 t; Ok (if b then r else snd k :: r)
  end.
(** utils.py:513-520. *)
Definition set_difference (v1 v2 : list dt) : res (list dt) :=
  match v1, v2 with
  | [], _ | _, [] => Ok v1
  | _, _ =>
    do s1 <- set_keys v1;
    do s2 <- set_keys v2;
    do k1 <- mapr (posix_key tzo) (order (map snd s1));
    do s3 <- without s2 k1;
    Ok (order s3)
  end.

(** 23-29; every rule object carries its cache. *)
Record rset : Set := mkRset {
  sRrules : list (rule * rcache); sExrules : list (rule * rcache);
  sRdates : list dt; sExdates : list dt;
  sRperiods : list period; sExperiods : list period
}.
(** 23-29. *)
Definition rset_init : rset := mkRset [] [] [] [] [] [].

(** 41-46. *)
Definition hasRecurrence (s : rset) : bool :=
  negb (Nat.eqb (List.length (sRrules s)) 0) || negb (Nat.eqb (List.length (sRdates s)) 0) || negb (Nat.eqb (List.length (sRperiods s)) 0) ||
  negb (Nat.eqb (List.length (sExrules s)) 0) || negb (Nat.eqb (List.length (sExdates s)) 0) || negb (Nat.eqb (List.length (sExperiods s)) 0).

(** 48-50: `comp.self` is not an attribute of a RecurrenceSet. *)
Definition rset_equals (s comp : rset) : res bool := Raise AttributeError.

(** 182-184 and 210-211: the rules one after the other; the caches afterwards, the dates
    appended and whether a limit was applied. *)
Fixpoint expand_rules (fuel : nat) (rules : list (rule * rcache)) (start : dt) (range : period) (off : Z) (max : option Z)
  (include : list dt) (limited : bool) : option (list (rule * rcache) * (list dt * res bool)) :=
  match rules with
  | [] => Some ([], (include, Ok limited))
  | (r, c) :: t =>
    match expand tzo fuel r c start range off max with
    | None => None
    | Some (c', (items, Raise e)) => Some ((r, c') :: t, (include ++ items, Raise e))
    | Some (c', (items, Ok l)) =>
      match expand_rules fuel t start range off max (include ++ items) (l || limited) with
      | None => None
      | Some (t', o) => Some ((r, c') :: t', o)
      end
    end
  end.

(** `if maxInstances and len(include) > maxInstances`, 190 and 197. *)
Definition over (max : option Z) (l : list dt) : bool :=
  match max with None => false | Some m => negb (m =? 0) && (m <? Z.of_nat (List.length l)) end.
(** 187-193. *)
Fixpoint add_dates (ds : list dt) (range : period) (max : option Z) (include : list dt) (limited : bool) : res (list dt * bool) :=
  match ds with
  | [] => Ok (include, limited)
  | d :: t =>
    do w <- isDateWithinPeriod tzo range d;
    if w then let include := include ++ [d] in
              if over max include then Raise TooManyInstancesError else add_dates t range max include limited
    else add_dates t range max include true
  end.
(** 194-200. *)
Fixpoint add_periods (ps : list period) (range : period) (max : option Z) (include : list dt) (limited : bool) : res (list dt * bool) :=
  match ps with
  | [] => Ok (include, limited)
  | p :: t =>
    do w <- isPeriodOverlap tzo range p;
    if w then let include := include ++ [pStart p] in
              if over max include then Raise TooManyInstancesError else add_periods t range max include limited
    else add_periods t range max include true
  end.

(** 186-204: from the dates of the rules to the list of dates to include. *)
Definition finish_include (s : rset) (range : period) (max : option Z) (include : list dt) (limited : bool) : res (list dt * bool) :=
  do i <- add_dates (sRdates s) range max include limited;
  do i <- add_periods (sRperiods s) range max (fst i) (snd i);
  do u <- unique (fst i);
  do u <- sort_posix tzo u;
  Ok (u, snd i).
(** 213-223. *)
Definition finish_exclude (s : rset) (range : period) (exclude : list dt) : res (list dt) :=
  do i <- add_dates (sExdates s) range None exclude false;
  do i <- add_periods (sExperiods s) range None (fst i) false;
  do u <- unique (fst i);
  sort_posix tzo u.

(** 168-228: the set afterwards (the caches of its rules), the items appended to the caller's
    list and the result.  The first rule normalises start in place, and start is already in
    the list (177): the list then holds the normalised value. *)
Definition rset_expand (fuel : nat) (s : rset) (start : dt) (range : period) (off : Z) (max : option Z)
  : option (rset * (list dt * res bool)) :=
  match isDateWithinPeriod tzo range start with
  | Raise e => Some (s, ([], Raise e))
  | Ok w =>
    let start := match sRrules s with [] => start | _ => normalise start end in
    match expand_rules fuel (sRrules s) start range off max (if w then [start] else []) (negb w) with
    | None => None
    | Some (rr, (_, Raise e)) => Some (mkRset rr (sExrules s) (sRdates s) (sExdates s) (sRperiods s) (sExperiods s), ([], Raise e))
    | Some (rr, (include, Ok limited)) =>
      let s1 := mkRset rr (sExrules s) (sRdates s) (sExdates s) (sRperiods s) (sExperiods s) in
      match finish_include s range max include limited with
      | Raise e => Some (s1, ([], Raise e))
      | Ok (include, limited) =>
        match expand_rules fuel (sExrules s) start range off None [] false with
        | None => None
        | Some (xr, (exclude, x)) =>
          let s2 := mkRset rr xr (sRdates s) (sExdates s) (sRperiods s) (sExperiods s) in
          match x with
          | Raise e => Some (s2, ([], Raise e))
          | Ok _ =>
            match finish_exclude s range exclude with
            | Raise e => Some (s2, ([], Raise e))
            | Ok exclude =>
              match set_difference include exclude with
              | Raise e => Some (s2, ([], Raise e))
              | Ok items => Some (s2, (items, Ok limited))
              end
            end
          end
        end
      end
    end
  end.

(** 230-237. *)
Definition rset_changed (s : rset) : rset :=
  mkRset (map (fun rc => (fst rc, cache_clear (snd rc))) (sRrules s)) (map (fun rc => (fst rc, cache_clear (snd rc))) (sExrules s))
    (sRdates s) (sExdates s) (sRperiods s) (sExperiods s).
End WithTz.
