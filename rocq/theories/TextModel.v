(** Model of the text codecs in /repo/src/pycalendar/utils.py.  Definitions only. *)
From Verif Require Export PyBase ParserCtx.

(** utils.py:84-88, find_first_of(text, tokens, offset), seen from the unread part
    text[offset:]: the segment before the first token, and the text from the token on
    ([] when the result is -1). *)
Fixpoint find_first_of (rest tokens : bytes) : bytes * bytes :=
  match rest with
  | [] => ([], [])
  | c :: r => if cin c tokens then ([], rest)
              else let (a, b) := find_first_of r tokens in (c :: a, b)
  end.

(** The token string of utils.py:100 and 126: CR LF ; \ , *)
Definition esc_tokens : bytes := [CR; LF; ";"%char; BSLASH; ","%char].

(** utils.py:109-119, the character written after the backslash. *)
Definition esc_char (c : ascii) : bytes :=
  if Ascii.eqb c CR then lit "r"
  else if Ascii.eqb c LF then lit "n"
  else if Ascii.eqb c ";" then lit ";"
  else if Ascii.eqb c BSLASH then [BSLASH]
  else if Ascii.eqb c "," then lit ","
  else [].

(** utils.py:102-129: the while loop; each round consumes at least one character, so the length of the text
    is enough fuel (escape_total in TextProofs.v). *)
Fixpoint write_loop (fuel : nat) (rest : bytes) : option bytes :=
  match fuel with
  | O => None
  | S f =>
    match find_first_of rest esc_tokens with
    | (seg, []) => Some seg
    | (seg, c :: r) =>
      option_map (fun out => seg ++ BSLASH :: esc_char c ++ out) (write_loop f r)
    end
  end.

(** utils.py:97-131 and 91-94: what writeTextValue writes, escapeTextValue returns. *)
Definition escapeTextValue (value : bytes) : bytes :=
  match write_loop (S (List.length value)) value with Some s => s | None => [] end.

(** utils.py:149-177: the characters written for the escaped character c. *)
Definition unesc_char (ctx : pctx) (c : ascii) : res bytes :=
  if Ascii.eqb c "r" then Ok [CR]
  else if Ascii.eqb c "n" then Ok [LF]
  else if Ascii.eqb c "N" then Ok [LF]
  else if Ascii.eqb c BSLASH then Ok [BSLASH]
  else if Ascii.eqb c "," then Ok (lit ",")
  else if Ascii.eqb c ";" then Ok (lit ";")
  else if Ascii.eqb c ":" then
    if peqb (INVALID_COLON_ESCAPE_SEQUENCE ctx) PARSER_RAISE then Raise ValueError
    else if peqb (INVALID_COLON_ESCAPE_SEQUENCE ctx) PARSER_FIX then Ok (lit ":")
    else Ok []
  else if peqb (INVALID_ESCAPE_SEQUENCES ctx) PARSER_RAISE then Raise ValueError
  else if peqb (INVALID_ESCAPE_SEQUENCES ctx) PARSER_FIX then Ok [c]
  else Ok [].

(** utils.py:141-187: the while loop, with fuel as above.  None: still running. *)
Fixpoint decode_loop (ctx : pctx) (fuel : nat) (rest : bytes) : option (res bytes) :=
  match fuel with
  | O => None
  | S f =>
    match find_first_of rest [BSLASH] with
    | (seg, []) => Some (Ok seg)
    | (seg, [_]) => Some (Ok seg)
    | (seg, _ :: c :: r) =>
      match unesc_char ctx c with
      | Raise e => Some (Raise e)
      | Ok w =>
        match r with
        | [] => Some (Ok (seg ++ w))
        | _ => match decode_loop ctx f r with
               | None => None
               | Some (Raise e) => Some (Raise e)
               | Some (Ok out) => Some (Ok (seg ++ w ++ out))
               end
        end
      end
    end
  end.

(** utils.py:134-192. *)
Definition decodeTextValue (ctx : pctx) (value : bytes) : res bytes :=
  match decode_loop ctx (S (List.length value)) value with
  | Some r => r
  | None => Raise RuntimeError
  end.

(** utils.py:210-222, the for loop; [last] is None at the start (Python ''). *)
Fixpoint enc_loop (last : option ascii) (value : bytes) : bytes :=
  match value with
  | [] => []
  | c :: r =>
    (if cin c [CR; LF; DQUOTE; "^"%char] then
       if Ascii.eqb c CR then lit "^n"
       else if Ascii.eqb c LF then
         match last with
         | Some l => if negb (Ascii.eqb l CR) then lit "^n" else []
         | None => lit "^n"
         end
       else if Ascii.eqb c DQUOTE then lit "^'"
       else if Ascii.eqb c "^" then lit "^^"
       else []
     else [c]) ++ enc_loop (Some c) r
  end.

(** utils.py:195-227. *)
Definition encodeParameterValue (value : bytes) : bytes :=
  if existsb (fun c => cin c value) [CR; LF; DQUOTE; "^"%char]
  then enc_loop None value else value.

(** utils.py:240-256, the for loop; last_caret says whether last == '^'. *)
Fixpoint dec_loop (last_caret : bool) (value : bytes) : bytes :=
  match value with
  | [] => if last_caret then lit "^" else []
  | c :: r =>
    if last_caret then
      if Ascii.eqb c "n" then LF :: dec_loop false r
      else if Ascii.eqb c "'" then DQUOTE :: dec_loop false r
      else if Ascii.eqb c "^" then "^"%char :: dec_loop false r
      else "^"%char :: c :: dec_loop false r
    else if negb (Ascii.eqb c "^") then c :: dec_loop false r
    else dec_loop true r
  end.

(** utils.py:230-259; value is not None. *)
Definition decodeParameterValue (value : bytes) : bytes :=
  if cin "^" value then dec_loop false value else value.

(** map with the first exception raised. *)
Fixpoint map_r {A B} (f : A -> res B) (l : list A) : res (list B) :=
  match l with
  | [] => Ok []
  | x :: r => do y <- f x; do t <- map_r f r; Ok (y :: t)
  end.

(** utils.py:267-278: the for loop of parseTextList, splitting at separators that do not follow a backslash.
    [item] is the current item reversed, [pre] is pre_s ('' is None).  The Python loop decodes each item as soon as it is
    complete; decoding has no other effect, so it is done here at the same points. *)
Fixpoint ptl_loop (ctx : pctx) (sep : ascii) (pre : option ascii) (item : bytes) (data : bytes) : res (list bytes) :=
  match data with
  | [] => do x <- decodeTextValue ctx (rev item); Ok [x]
  | s :: r =>
    if Ascii.eqb s sep && negb (match pre with Some p => Ascii.eqb p BSLASH | None => false end)
    then do x <- decodeTextValue ctx (rev item);
         do t <- ptl_loop ctx sep (Some s) [] r; Ok (x :: t)
    else ptl_loop ctx sep (Some s) (s :: item) r
  end.
(** utils.py:263-280 with always_list=True (otherwise a one element result is returned as a bare string). *)
Definition parseTextList (ctx : pctx) (sep : ascii) (data : bytes) : res (list bytes) :=
  ptl_loop ctx sep None [] data.

(** utils.py:283-293 for a list of strings. *)
Definition generateTextList (sep : ascii) (data : list bytes) : bytes :=
  join_char sep (map escapeTextValue data).

(** An element of a two level value: Python str or tuple of str. *)
Inductive nested : Set := NStr (s : bytes) | NTup (l : list bytes).

(** utils.py:304-309 and 318-323: the element made from the pieces. *)
Definition mk_nested (ctx : pctx) (items : list bytes) : res nested :=
  match items with
  | [] => Ok (NStr [])
  | [x] => do y <- decodeTextValue ctx x; Ok (NStr y)
  | _ => do l <- map_r (decodeTextValue ctx) items; Ok (NTup l)
  end.

(** utils.py:297-323: the for loop.  [items] are the finished pieces, reversed; [item] the
    last piece, reversed. *)
Fixpoint pdn_loop (ctx : pctx) (pre : option ascii) (items : list bytes) (item : bytes) (data : bytes) : res (list nested) :=
  match data with
  | [] => do x <- mk_nested ctx (rev (rev item :: items)); Ok [x]
  | s :: r =>
    let esc := match pre with Some p => Ascii.eqb p BSLASH | None => false end in
    if Ascii.eqb s ";" && negb esc then
      do x <- mk_nested ctx (rev (rev item :: items));
      do t <- pdn_loop ctx (Some s) [] [] r; Ok (x :: t)
    else if Ascii.eqb s "," && negb esc then pdn_loop ctx (Some s) (rev item :: items) [] r
    else pdn_loop ctx (Some s) items (s :: item) r
  end.

(** utils.py:297-334. *)
Definition parseDoubleNestedList (ctx : pctx) (data : bytes) (maxsize : nat) : res (list nested) :=
  do results <- pdn_loop ctx None [] [] data;
  let results := results ++ repeat (NStr []) (maxsize - List.length results) in
  if (maxsize <? List.length results)%nat then
    if peqb (INVALID_ADR_N_VALUES ctx) PARSER_FIX then Ok (firstn maxsize results)
    else if peqb (INVALID_ADR_N_VALUES ctx) PARSER_RAISE then Raise ValueError
    else Ok results
  else Ok results.

(** utils.py:339-347. *)
Definition write_element (item : nested) : bytes :=
  match item with
  | NStr s => escapeTextValue s
  | NTup [] => []
  | NTup (x :: r) => escapeTextValue x ++ flat_map (fun b => ","%char :: escapeTextValue b) r
  end.
(** utils.py:337-355.  For an empty list data[-1] raises and the exception is swallowed. *)
Definition generateDoubleNestedList (data : list nested) : bytes :=
  join_char ";" (map write_element data).
