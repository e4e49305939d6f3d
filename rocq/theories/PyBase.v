(** Python 2 run-time notions used by all the models: exceptions as values,
    byte strings as lists of characters, integer printing and reading,
    slices.  This file contains definitions only. *)
From Coq Require Export ZArith List Bool Ascii String.
Export ListNotations.
Open Scope Z_scope.

(** Python exception classes raised by the modelled code: the built-in ones, and
    /repo/src/pycalendar/exceptions.py:18-52 (InvalidData, InvalidComponent, InvalidProperty,
    ValidationError, NoTimezoneInDatabase) and
    /repo/src/pycalendar/icalendar/exceptions.py:17-22 (TooManyInstancesError).
    Messages are dropped. *)
Inductive exn : Set :=
| ValueError | IndexError | KeyError | AttributeError | TypeError | NameError
| RuntimeError | InvalidProperty | InvalidData | ValidationError
| NoTimezoneInDatabase | TooManyInstancesError | IOError | InvalidComponent | AssertionError.

(** The result of a Python call: a value or a raised exception. *)
Inductive res (A : Type) : Type :=
| Ok (a : A)
| Raise (e : exn).
Arguments Ok {A} _.
Arguments Raise {A} _.

(** Sequencing of Python statements that may raise. *)
Definition rbind {A B} (r : res A) (k : A -> res B) : res B :=
  match r with Ok a => k a | Raise e => Raise e end.
Notation "'do' x <- r ; k" := (rbind r (fun x => k))
  (at level 200, x pattern, r at level 100, k at level 200).

(** `except IndexError: raise ValueError(...)`, the pattern used in
    /repo/src/pycalendar/datetime.py:997-998, duration.py:223-225, period.py:93-94. *)
Definition index_to_value {A} (r : res A) : res A :=
  match r with
  | Raise IndexError => Raise ValueError
  | _ => r
  end.

(** Python 2 `str` is a byte string. *)
Definition bytes := list ascii.

(** A Python string literal. *)
Definition lit (s : string) : bytes := list_ascii_of_string s.

(** Control and quote characters that are awkward to write in a Coq literal. *)
Definition CR : ascii := "013"%char.
Definition LF : ascii := "010"%char.
Definition TAB : ascii := "009"%char.
Definition DQUOTE : ascii := "034"%char.
Definition BSLASH : ascii := "092"%char.
Definition SPC : ascii := " "%char.

(** `s1 == s2` on byte strings. *)
Fixpoint beq (s1 s2 : bytes) : bool :=
  match s1, s2 with
  | [], [] => true
  | c1 :: r1, c2 :: r2 => Ascii.eqb c1 c2 && beq r1 r2
  | _, _ => false
  end.

(** `c in s` for a single character. *)
Fixpoint cin (c : ascii) (s : bytes) : bool :=
  match s with
  | [] => false
  | x :: r => Ascii.eqb c x || cin c r
  end.

(** `s[a:b]` for non-negative a and b. *)
Definition slice (s : bytes) (a b : nat) : bytes := firstn (b - a) (skipn a s).

(** `s[i]` for non-negative i; IndexError past the end. *)
Definition sget (s : bytes) (i : nat) : res ascii :=
  match nth_error s i with
  | Some c => Ok c
  | None => Raise IndexError
  end.

(** `t[i]` on a tuple of integers with Python's negative indexing. *)
Definition tuple_get (t : list Z) (i : Z) : res Z :=
  let n := Z.of_nat (List.length t) in
  if (0 <=? i) && (i <? n) then Ok (nth (Z.to_nat i) t 0)
  else if (- n <=? i) && (i <? 0) then Ok (nth (Z.to_nat (i + n)) t 0)
  else Raise IndexError.

(** Python's cmp() on integers. *)
Definition pycmp (a b : Z) : Z :=
  if a <? b then -1 else if a =? b then 0 else 1.

(** `c.isdigit()` for one byte. *)
Definition is_digit (c : ascii) : bool :=
  let n := nat_of_ascii c in (48 <=? n)%nat && (n <=? 57)%nat.

Definition digit_val (c : ascii) : Z := Z.of_nat (nat_of_ascii c) - 48.
Definition digit_char (d : Z) : ascii := ascii_of_nat (Z.to_nat (d + 48)).

(** C isspace() in the "C" locale. *)
Definition is_space (c : ascii) : bool :=
  let n := nat_of_ascii c in ((9 <=? n)%nat && (n <=? 13)%nat) || (n =? 32)%nat.

Fixpoint lstrip (s : bytes) : bytes :=
  match s with
  | c :: r => if is_space c then lstrip r else s
  | [] => []
  end.

(** Value of a string of digits, most significant first. *)
Fixpoint read_digits (acc : Z) (s : bytes) : Z :=
  match s with
  | [] => acc
  | c :: r => read_digits (acc * 10 + digit_val c) r
  end.

(** Longest prefix of digits and the rest. *)
Fixpoint span_digits (s : bytes) : bytes * bytes :=
  match s with
  | c :: r => if is_digit c then let (d, t) := span_digits r in (c :: d, t) else ([], s)
  | [] => ([], [])
  end.

(** Python 2 int(s) for a byte string s: leading blanks, an optional
    sign, blanks again (CPython 2 skips them, so int("- 1") is -1), at least one digit,
    trailing blanks; anything else is a ValueError. *)
Definition pyint (s : bytes) : res Z :=
  let s1 := lstrip s in
  let (neg, s2) :=
    match s1 with
    | c :: r => if Ascii.eqb c "-"%char then (true, r)
                else if Ascii.eqb c "+"%char then (false, r) else (false, s1)
    | [] => (false, [])
    end in
  let s3 := lstrip s2 in
  let (ds, rest) := span_digits s3 in
  match ds with
  | [] => Raise ValueError
  | _ => match lstrip rest with
         | [] => Ok (if neg : bool then - read_digits 0 ds else read_digits 0 ds)
         | _ => Raise ValueError
         end
  end.

(** Decimal digits of a non-negative integer (what str() and "%d" print). *)
Fixpoint udigits_f (fuel : nat) (n : Z) (acc : bytes) : bytes :=
  match fuel with
  | O => acc
  | S f => let acc' := digit_char (n mod 10) :: acc in
           if n / 10 =? 0 then acc' else udigits_f f (n / 10) acc'
  end.
Definition udigits (n : Z) : bytes := udigits_f (S (Z.to_nat (Z.log2 n))) n [].

(** str(n), "%d" % n. *)
Definition pystr (n : Z) : bytes :=
  if n <? 0 then "-"%char :: udigits (- n) else udigits n.

(** "%0wd" % n: the sign counts in the width. *)
Definition pad0 (w : nat) (s : bytes) : bytes :=
  repeat "0"%char (w - List.length s) ++ s.
Definition fmt0 (w : nat) (n : Z) : bytes :=
  if n <? 0 then "-"%char :: pad0 (w - 1) (udigits (- n)) else pad0 w (udigits n).

(** ASCII upper-casing of a byte: str.upper() in the "C" locale. *)
Definition upper_char (c : ascii) : ascii :=
  let n := nat_of_ascii c in
  if (97 <=? n)%nat && (n <=? 122)%nat then ascii_of_nat (n - 32) else c.
Definition upper (s : bytes) : bytes := map upper_char s.

(** s.startswith(p). *)
Fixpoint startswith (s p : bytes) : bool :=
  match p, s with
  | [], _ => true
  | c :: p', d :: s' => Ascii.eqb c d && startswith s' p'
  | _ :: _, [] => false
  end.

(** s.find(c) for a single character: position of the first occurrence. *)
Fixpoint find_char (c : ascii) (s : bytes) : option nat :=
  match s with
  | [] => None
  | x :: r => if Ascii.eqb c x then Some O else option_map S (find_char c r)
  end.

(** s.split(c) for a single character separator. *)
Fixpoint split_char (c : ascii) (s : bytes) : list bytes :=
  match s with
  | [] => [[]]
  | x :: r => if Ascii.eqb c x then [] :: split_char c r
              else match split_char c r with
                   | h :: t => (x :: h) :: t
                   | [] => [[x]]
                   end
  end.

(** c.join(l) for a single character separator. *)
Fixpoint join_char (c : ascii) (l : list bytes) : bytes :=
  match l with
  | [] => []
  | [x] => x
  | x :: r => x ++ c :: join_char c r
  end.

(** A Python method body that mutates an object of type S and may raise: the
    mutations made before the exception stay.  (General run-time notion; used by the
    parse methods of datetime.py:959-1001 and duration.py:123-225.) *)
Definition M (S A : Type) : Type := S -> S * res A.
Definition mret {S A} (a : A) : M S A := fun s => (s, Ok a).
Definition mraise {S A} (e : exn) : M S A := fun s => (s, Raise e).
Definition mbind {S A B} (m : M S A) (k : A -> M S B) : M S B :=
  fun s => match m s with
           | (s', Ok a) => k a s'
           | (s', Raise e) => (s', Raise e)
           end.
Definition mlift {S A} (r : res A) : M S A := fun s => (s, r).
Definition mupd {S} (f : S -> S) : M S unit := fun s => (f s, Ok tt).
Notation "'dom' x <- r ; k" := (mbind r (fun x => k))
  (at level 200, x pattern, r at level 100, k at level 200).

(** `rest[0]` of the unread part of a string: IndexError at the end. *)
Definition head_r (s : bytes) : res ascii :=
  match s with c :: _ => Ok c | [] => Raise IndexError end.

(** /repo/src/pycalendar/stringutils.py:49-65, strtoul(s, offset).  The while loop is
    replaced by the longest run of digits from offset; the ValueError at offset 0 and int("") are both
    ValueError.  Returns the number and the offset after it. *)
Definition strtoul (s : bytes) (offset : nat) : res (Z * nat) :=
  let (ds, _) := span_digits (skipn offset s) in
  let endo := (offset + List.length ds)%nat in
  if Nat.eqb endo 0 then Raise ValueError
  else do n <- pyint ds; Ok (n, endo).

(** The same seen from the unread part [rest] of a string of which something was
    already read (offset > 0): returns the number and the new unread part. *)
Definition strtoul_rest (rest : bytes) : res (Z * bytes) :=
  let (ds, rest') := span_digits rest in
  do n <- pyint ds; Ok (n, rest').
