(** What the text codec theorems are stated with.  Nothing here refers to the model of
    the code except the parser policies (ParserCtx.v) and the data types. *)
From Verif Require Import PyBase ParserCtx TextModel.

(** RFC 5545 3.3.11 as this library writes it: a text value is a sequence of plain
    characters (no CR, LF, semicolon, comma, backslash) and two character escapes. *)
Inductive escaped_form : bytes -> Prop :=
| ef_nil : escaped_form []
| ef_plain : forall c r, ~ In c [CR; LF; ";"%char; ","%char; BSLASH] -> escaped_form r -> escaped_form (c :: r)
| ef_esc : forall c r, In c [";"%char; ","%char; BSLASH; "r"%char; "n"%char] ->
                       escaped_form r -> escaped_form (BSLASH :: c :: r).

(** Reading of an arbitrary text: plain characters, escapes, and a backslash that is
    the last character. *)
Inductive piece : Set := Plain (c : ascii) | Esc (c : ascii) | Lone.
Inductive pieces : bytes -> list piece -> Prop :=
| ps_nil : pieces [] []
| ps_lone : pieces [BSLASH] [Lone]
| ps_esc : forall c r ps, pieces r ps -> pieces (BSLASH :: c :: r) (Esc c :: ps)
| ps_plain : forall c r ps, c <> BSLASH -> pieces r ps -> pieces (c :: r) (Plain c :: ps).

(** The escapes of the RFC, and what they stand for. *)
Definition escapes : list (ascii * ascii) :=
  [("r"%char, CR); ("n"%char, LF); ("N"%char, LF); (BSLASH, BSLASH); (","%char, ","%char); (";"%char, ";"%char)].
Definition is_escape (c : ascii) : Prop := In c (map fst escapes).

(** Escapes the strict policies reject. *)
Definition rejected (ctx : pctx) (p : piece) : Prop :=
  match p with
  | Esc c => ~ is_escape c /\
      (if Ascii.eqb c ":" then INVALID_COLON_ESCAPE_SEQUENCE ctx else INVALID_ESCAPE_SEQUENCES ctx) = PARSER_RAISE
  | _ => False
  end.

(** What a piece stands for. *)
Definition stands_for (ctx : pctx) (p : piece) : bytes :=
  match p with
  | Plain c => [c]
  | Lone => []
  | Esc c =>
    match find (fun e => Ascii.eqb (fst e) c) escapes with
    | Some (_, v) => [v]
    | None =>
      match (if Ascii.eqb c ":" then INVALID_COLON_ESCAPE_SEQUENCE ctx else INVALID_ESCAPE_SEQUENCES ctx) with
      | PARSER_FIX => [c]
      | _ => []
      end
    end
  end.

(** Newline conventions: CR LF and a lone CR become LF. *)
Fixpoint unix_newlines (s : bytes) : bytes :=
  match s with
  | [] => []
  | c :: r =>
    if Ascii.eqb c CR then
      LF :: match r with
            | d :: r' => if Ascii.eqb d LF then unix_newlines r' else unix_newlines r
            | [] => []
            end
    else c :: unix_newlines r
  end.

Definition ends_with_backslash (s : bytes) : Prop := exists t, s = t ++ [BSLASH].

(** What is really read back from a list: an item that ends with a backslash swallows
    the separator and the next item. *)
Definition ends_bs (s : bytes) : bool := match rev s with c :: _ => Ascii.eqb c BSLASH | [] => false end.
Fixpoint merged (sep : ascii) (items : list bytes) : list bytes :=
  match items with
  | [] => []
  | x :: r =>
    match merged sep r with
    | [] => [x]
    | y :: t => if ends_bs x then (x ++ sep :: y) :: t else x :: y :: t
    end
  end.

(** The strings of a two level value in the order they are written. *)
Definition leaves (l : list nested) : list bytes :=
  flat_map (fun n => match n with NStr s => [s] | NTup [] => [[]] | NTup t => t end) l.
(** A one element tuple is written like a string, an empty tuple like the empty string. *)
Definition normal (n : nested) : nested :=
  match n with NStr s => NStr s | NTup [] => NStr [] | NTup [x] => NStr x | NTup l => NTup l end.
(** All but the last. *)
Definition but_last {A} (l : list A) : list A := removelast l.

(** RFC 6868: how text with carets reads.  A caret that starts no known pair stands for itself. *)
Inductive caret_reads : bytes -> bytes -> Prop :=
| caret_end : caret_reads [] []
| caret_last : caret_reads (lit "^") (lit "^")
| caret_newline r t : caret_reads r t -> caret_reads (lit "^n" ++ r) (LF :: t)
| caret_quote r t : caret_reads r t -> caret_reads (lit "^'" ++ r) (DQUOTE :: t)
| caret_caret r t : caret_reads r t -> caret_reads (lit "^^" ++ r) ("^"%char :: t)
| caret_other c r t : ~ In c (lit "n'^") -> caret_reads r t -> caret_reads ("^"%char :: c :: r) ("^"%char :: c :: t)
| caret_plain c r t : c <> "^"%char -> caret_reads r t -> caret_reads (c :: r) (c :: t).
