(** Model of content lines: tokens and parameters (stringutils.py, parameter.py,
    property.py, vcard/property.py), folding (property.py) and unfolding (utils.py).
    Definitions only. *)
From Verif Require Export PyBase ParserCtx TextModel.

(** stringutils.py:32-41: the quoted part after the opening quote; [skip] as in the
    code.  None when the closing quote is missing. *)
Fixpoint quoted (skip : bool) (txt : bytes) : option (bytes * bytes) :=
  match txt with
  | [] => None
  | s :: r =>
    if skip then option_map (fun p => (s :: fst p, snd p)) (quoted false r)
    else if Ascii.eqb s DQUOTE then Some ([], r)
    else option_map (fun p => (s :: fst p, snd p)) (quoted (Ascii.eqb s BSLASH) r)
  end.

(** stringutils.py:43-46. *)
Fixpoint until_token (tokens txt : bytes) : bytes * bytes :=
  match txt with
  | [] => ([], [])
  | s :: r => if cin s tokens then ([], txt)
              else let (a, b) := until_token tokens r in (s :: a, b)
  end.

(** stringutils.py:20-46.  txt[0] raises IndexError on an empty text. *)
Definition strduptokenstr (txt tokens : bytes) : res (option bytes * bytes) :=
  match txt with
  | [] => Raise IndexError
  | c :: _ =>
    let txt' := if Ascii.eqb c SPC then lstrip txt else txt in
    match txt' with
    | [] => Ok (None, [])
    | d :: r =>
      if Ascii.eqb d DQUOTE then
        match quoted false r with
        | Some (a, b) => Ok (Some a, b)
        | None => Ok (None, txt')
        end
      else let (a, b) := until_token tokens txt' in Ok (Some a, b)
    end
  end.

(** parameter.py:30-37: a Parameter object is a name and a list of values. *)
Definition param : Set := (bytes * list bytes)%type.
(** property.py:88: mParameters, a dict from upper-cased names to lists of Parameter,
    as an association list in order of insertion. *)
Definition params : Set := list (bytes * list param).

(** property.py:138 and 301: mParameters.setdefault(key, []).append(p). *)
Fixpoint add_param (key : bytes) (p : param) (ps : params) : params :=
  match ps with
  | [] => [(key, [p])]
  | (k, l) :: r => if beq k key then (k, l ++ [p]) :: r else (k, l) :: add_param key p r
  end.

(** property.py:304-309 (and vcard/property.py:252-257): further values of the same
    parameter.  The unread text gets shorter in every round; fuel is its length. *)
Fixpoint more_values (fuel : nat) (txt : bytes) : option (res (list bytes * bytes)) :=
  match fuel with
  | O => None
  | S f =>
    match txt with
    | [] => Some (Raise IndexError)
    | c :: r =>
      if Ascii.eqb c "," then
        match strduptokenstr r (lit ":;,") with
        | Raise e => Some (Raise e)
        | Ok (None, _) => Some (Raise InvalidProperty)
        | Ok (Some v, r') =>
          match more_values f r' with
          | None => None
          | Some (Raise e) => Some (Raise e)
          | Some (Ok (vs, t)) => Some (Ok (decodeParameterValue v :: vs, t))
          end
        end
      else Some (Ok ([], txt))
    end
  end.

(** except IndexError: raise InvalidProperty, property.py:316-317. *)
Definition index_to_invalid {A} (r : res A) : res A :=
  match r with Raise IndexError => Raise InvalidProperty | _ => r end.

(** Outcome of one round of the while loop of parseTextParameters (property.py:283-314).  Stuck: the inner loop
    needed more than its fuel (never happens, see LineProofs.v). *)
Inductive round : Set := Stuck | Next (txt : bytes) (ps : params) | Return (txt : bytes) (ps : params) | Throw (e : exn).

(** property.py:284-314, one round of the loop on a non-empty txt. *)
Definition ical_round (txt : bytes) (ps : params) : round :=
  match txt with
  | [] => Throw IndexError
  | c :: t =>
    if Ascii.eqb c ";" then
      match strduptokenstr t (lit "=") with
      | Raise e => Throw e
      | Ok (None, _) => Throw InvalidProperty
      | Ok (Some pname, t1) =>
        match strduptokenstr (tl t1) (lit ":;,") with
        | Raise e => Throw e
        | Ok (None, _) => Throw InvalidProperty
        | Ok (Some v, t2) =>
          match more_values (S (List.length t2)) t2 with
          | None => Stuck
          | Some (Raise e) => Throw e
          | Some (Ok (vs, t3)) => Next t3 (add_param (upper pname) (pname, decodeParameterValue v :: vs) ps)
          end
        end
      end
    else if Ascii.eqb c ":" then Return t ps
    else Throw InvalidProperty
  end.

(** property.py:282-317: the loop; the value text is None when the text ends before a
    value separator (the Python function then returns None).  None: more than [fuel] rounds. *)
Fixpoint param_loop (rnd : bytes -> params -> round) (fuel : nat) (txt : bytes) (ps : params)
  : option (res (option bytes * params)) :=
  match txt with
  | [] => Some (Ok (None, ps))
  | _ =>
    match fuel with
    | O => None
    | S f =>
      match rnd txt ps with
      | Stuck => None
      | Throw e => Some (index_to_invalid (Raise e))
      | Return t ps' => Some (Ok (Some t, ps'))
      | Next t ps' => param_loop rnd f t ps'
      end
    end
  end.

(** vcard/property.py:214-262, one round.  [strip] is stripValueSpaces; it is returned with the
    round.  parameter_value is None for a parameter without values.
    With the policies IGNORE and FIX line 234 sets parameter_name to None and line 236
    raises AttributeError. *)
Inductive vround : Set :=
| VStuck | VNext (txt : bytes) (ps : params) (strip : bool) | VReturn (txt : bytes) (ps : params) | VThrow (e : exn).
Definition vcard_round (ctx : pctx) (txt : bytes) (ps : params) (strip : bool) : vround :=
  match txt with
  | [] => VThrow IndexError
  | c :: t =>
    if Ascii.eqb c ";" then
      match strduptokenstr t (lit "=:;") with
      | Raise e => VThrow e
      | Ok (None, _) => VThrow InvalidProperty
      | Ok (Some pname, t1) =>
        match t1 with
        | [] => VThrow IndexError
        | d :: t1' =>
          let finish (pname : bytes) (v : option bytes) (t2 : bytes) (strip : bool) :=
            match more_values (S (List.length t2)) t2 with
            | None => VStuck
            | Some (Raise e) => VThrow e
            | Some (Ok (vs, t3)) =>
              VNext t3 (add_param (upper pname) (pname, match v with Some v => decodeParameterValue v :: vs | None => vs end) ps) strip
            end in
          if negb (Ascii.eqb d "=") then
            if peqb (VCARD_2_NO_PARAMETER_VALUES ctx) PARSER_RAISE then VThrow InvalidProperty
            else if peqb (VCARD_2_NO_PARAMETER_VALUES ctx) PARSER_ALLOW then
              if beq (upper pname) (lit "BASE64") && peqb (VCARD_2_BASE64 ctx) PARSER_FIX
              then finish (lit "ENCODING") (Some (lit "B")) t1 true
              else finish pname None t1 strip
            else VThrow AttributeError
          else
            match strduptokenstr t1' (lit ":;,") with
            | Raise e => VThrow e
            | Ok (None, _) => VThrow InvalidProperty
            | Ok (Some v, t2) => finish pname (Some v) t2 strip
            end
        end
      end
    else if Ascii.eqb c ":" then VReturn (if strip then filter (fun x => negb (Ascii.eqb x SPC)) t else t) ps
    else VNext txt ps strip
  end.
(** vcard/property.py:211-265. *)
Fixpoint vparam_loop (ctx : pctx) (fuel : nat) (txt : bytes) (ps : params) (strip : bool)
  : option (res (option bytes * params)) :=
  match txt with
  | [] => Some (Ok (None, ps))
  | _ =>
    match fuel with
    | O => None
    | S f =>
      match vcard_round ctx txt ps strip with
      | VStuck => None
      | VThrow e => Some (index_to_invalid (Raise e))
      | VReturn t ps' => Some (Ok (Some t, ps'))
      | VNext t ps' s' => vparam_loop ctx f t ps' s'
      end
    end
  end.

(** A content line taken apart: optional group, name, parameters, text of the value (None: no value
    separator found). *)
Record line : Set := mkLine { lGroup : option bytes; lName : bytes; lParams : params; lValue : option bytes }.

(** property.py:229-252 without groups (iCalendar): the part of parseText before the value is
    parsed, with [fuel] rounds for the parameters.  Every exception becomes InvalidProperty
    (property.py:274-275).  None: still running. *)
Definition ical_parseLine (fuel : nat) (data : bytes) : option (res line) :=
  match strduptokenstr data (lit ";:") with
  | Raise _ => Some (Raise InvalidProperty)
  | Ok (None, _) => Some (Raise InvalidProperty)
  | Ok (Some [], _) => Some (Raise InvalidProperty)
  | Ok (Some name, txt) =>
    match param_loop ical_round fuel txt [] with
    | None => None
    | Some (Raise _) => Some (Raise InvalidProperty)
    | Some (Ok (v, ps)) => Some (Ok (mkLine None name ps v))
    end
  end.

(** str.split(".", 1), property.py:240-249. *)
Definition split_group (name : bytes) : option bytes * bytes :=
  match find_char "." name with
  | Some n => (Some (firstn n name), skipn (S n) name)
  | None => (None, name)
  end.

(** property.py:229-252 for vCard (sUsesGroup is true), with [fuel] rounds for the parameters.
    None: still running. *)
Definition vcard_parseLine (ctx : pctx) (fuel : nat) (data : bytes) : option (res line) :=
  match strduptokenstr data (lit ";:") with
  | Raise _ => Some (Raise InvalidProperty)
  | Ok (None, _) => Some (Raise InvalidProperty)
  | Ok (Some [], _) => Some (Raise InvalidProperty)
  | Ok (Some pname, txt) =>
    let (g, name) := split_group pname in
    match vparam_loop ctx fuel txt [] false with
    | None => None
    | Some (Raise _) => Some (Raise InvalidProperty)
    | Some (Ok (v, ps)) => Some (Ok (mkLine g name ps v))
    end
  end.

(** Python 2 ordering of byte strings. *)
Fixpoint ble (a b : bytes) : bool :=
  match a, b with
  | [], _ => true
  | _ :: _, [] => false
  | x :: r, y :: s =>
    let m := nat_of_ascii x in let n := nat_of_ascii y in
    if (m <? n)%nat then true else if (n <? m)%nat then false else ble r s
  end.
(** sorted(l, key): a stable sort (Python's timsort is stable, so any stable sort gives the
    same list). *)
Fixpoint insert_by {A} (key : A -> bytes) (x : A) (l : list A) : list A :=
  match l with
  | [] => [x]
  | y :: r => if ble (key x) (key y) then x :: l else y :: insert_by key x r
  end.
Fixpoint sort_by {A} (key : A -> bytes) (l : list A) : list A :=
  match l with
  | [] => []
  | x :: r => insert_by key x (sort_by key r)
  end.

(** parameter.py:99-108. *)
Definition gen_pvalue (v : bytes) : bytes :=
  let s := encodeParameterValue v in
  if cin ":" s || cin ";" s || cin "," s then DQUOTE :: s ++ [DQUOTE] else s.
(** parameter.py:77-97. *)
Definition gen_param (p : param) : bytes :=
  fst p ++ match snd p with
           | [] => []
           | vs => "="%char :: join_char "," (map gen_pvalue (sort_by (fun v => v) vs))
           end.
(** property.py:341-359: the unfolded line.  The value text is what mValue.generate writes
    (None: no value object, or novalue).  setupValueParameter (property.py:339) is applied before. *)
Definition gen_line (l : line) : bytes :=
  match lGroup l with Some g => match g with [] => [] | _ => g ++ lit "." end | None => [] end ++
  lName l ++
  flat_map (fun kl => flat_map (fun p => ";"%char :: gen_param p) (snd kl)) (sort_by fst (lParams l)) ++
  ":"%char :: match lValue l with Some v => v | None => [] end.

(** s[i] and s[a:b] with Python's negative indices. *)
Definition zget (s : bytes) (i : Z) : res ascii :=
  let n := Z.of_nat (List.length s) in
  let j := if i <? 0 then i + n else i in
  if (0 <=? j) && (j <? n) then sget s (Z.to_nat j) else Raise IndexError.
Definition znorm (s : bytes) (i : Z) : nat :=
  let n := Z.of_nat (List.length s) in
  if i <? 0 then Z.to_nat (i + n) else Z.to_nat (Z.min i n).
Definition zslice (s : bytes) (a b : Z) : bytes := slice s (znorm s a) (znorm s b).

(** property.py:379: (ord(c) & 0xC0) == 0x80.  (The other half of the test,
    temp[offset] > 0x7F, compares a str with an int and is always true in Python 2.) *)
Definition is_cont (c : ascii) : bool := Z.land (Z.of_nat (nat_of_ascii c)) 192 =? 128.

(** property.py:379-381: step back to an octet that is not a continuation octet. *)
Fixpoint step_back (fuel : nat) (temp : bytes) (offset : Z) : option (res Z) :=
  match fuel with
  | O => None
  | S f =>
    match zget temp offset with
    | Raise e => Some (Raise e)
    | Ok c => if is_cont c then step_back f temp (offset - 1) else Some (Ok offset)
    end
  end.

(** property.py:370-388: the folding loop.  None: still running after [fuel] rounds. *)
Fixpoint fold_loop (fuel : nat) (temp : bytes) (start written wrap : Z) : option (res bytes) :=
  match fuel with
  | O => None
  | S f =>
    let n := Z.of_nat (List.length temp) in
    if written <? n then
      let offset := start + wrap in
      if n <=? offset then Some (Ok (zslice temp start n))
      else match step_back (S (S (Z.to_nat (offset + n)))) temp offset with
           | None => None
           | Some (Raise e) => Some (Raise e)
           | Some (Ok offset') =>
             match fold_loop f temp offset' (written + (offset' - start)) 73 with
             | Some (Ok out) => Some (Ok (zslice temp start offset' ++ CR :: LF :: SPC :: out))
             | x => x
             end
           end
    else Some (Ok [])
  end.

(** property.py:362-390: what is written for the line [temp], allowing [fuel] rounds of the folding loop. *)
Definition fold_line (fuel : nat) (temp : bytes) : option (res bytes) :=
  match (if (List.length temp <? 75)%nat then Some (Ok temp) else fold_loop fuel temp 0 0 74) with
  | Some (Ok out) => Some (Ok (out ++ [CR; LF]))
  | x => x
  end.

(** A file object: readline() returns the text up to and including the next newline. *)
Fixpoint readline (ins : bytes) : bytes * bytes :=
  match ins with
  | [] => ([], [])
  | c :: r => if Ascii.eqb c LF then ([c], r) else let (a, b) := readline r in (c :: a, b)
  end.

(** utils.py:29-45 (and 51-67): the line without its end; None at the end of the file.
    For the line "\n" alone myline[-2] raises IndexError and the result is "". *)
Definition strip_eol (myline : bytes) : option bytes :=
  match rev myline with
  | [] => None
  | c :: r =>
    if Ascii.eqb c LF then
      match r with
      | [] => Some []
      | d :: r' => if Ascii.eqb d CR then Some (rev r') else Some (rev r)
      end
    else if Ascii.eqb c CR then Some (rev r)
    else Some myline
  end.

(** utils.py:48-81: look ahead for folded lines.  Each round reads a non-empty line, so the
    length of the input is enough fuel.  Result: lines[0], lines[1], rest of the input. *)
Fixpoint fold_read (fuel : nat) (l0 : bytes) (ins : bytes) : option (bytes * option bytes * bytes) :=
  match fuel with
  | O => None
  | S f =>
    let (myline, ins') := readline ins in
    match strip_eol myline with
    | None => Some (l0, None, ins')
    | Some [] => Some (l0, Some [], ins')
    | Some (c :: r) =>
      if is_space c then fold_read f (l0 ++ r) ins'
      else Some (l0, Some (c :: r), ins')
    end
  end.

(** utils.py:21-81 as a function of lines[1] and the input.  None: returns False with lines[0] None; otherwise
    lines[0], lines[1] and the rest of the input. *)
Definition readFoldedLine (l1 : option bytes) (ins : bytes) : option (bytes * option bytes * bytes) :=
  match l1 with
  | Some l => fold_read (S (List.length ins)) l ins
  | None =>
    let (myline, ins') := readline ins in
    match strip_eol myline with
    | None => None
    | Some l => fold_read (S (List.length ins')) l ins'
    end
  end.

(** The `while readFoldedLine(ins, lines)` loop of containerbase.py:127 seen as the list of lines it
    delivers (at most [fuel] of them). *)
Fixpoint read_lines (fuel : nat) (l1 : option bytes) (ins : bytes) : list bytes :=
  match fuel with
  | O => []
  | S f => match readFoldedLine l1 ins with
           | None => []
           | Some (l, l1', ins') => l :: read_lines f l1' ins'
           end
  end.
