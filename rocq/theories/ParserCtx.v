(** Model of /repo/src/pycalendar/parser.py: the error policies.  Definitions only. *)
From Verif Require Export PyBase.

(** parser.py:25-30. *)
Inductive policy : Set := PARSER_ALLOW | PARSER_IGNORE | PARSER_FIX | PARSER_RAISE.

(** `a == b` on policies. *)
Definition peqb (a b : policy) : bool :=
  match a, b with
  | PARSER_ALLOW, PARSER_ALLOW | PARSER_IGNORE, PARSER_IGNORE
  | PARSER_FIX, PARSER_FIX | PARSER_RAISE, PARSER_RAISE => true
  | _, _ => false
  end.

(** parser.py:32-66.  The Python class attributes are global variables; here they are one
    record passed to each parser. *)
Record pctx : Set := mkCtx {
  INVALID_COLON_ESCAPE_SEQUENCE : policy;
  INVALID_ESCAPE_SEQUENCES : policy;
  BLANK_LINES_IN_DATA : policy;
  VCARD_2_NO_PARAMETER_VALUES : policy;
  VCARD_2_BASE64 : policy;
  INVALID_DATETIME_VALUE : policy;
  INVALID_DATETIME_LEADINGSPACE : policy;
  INVALID_DURATION_VALUE : policy;
  INVALID_ADR_N_VALUES : policy;
  INVALID_REQUEST_STATUS_VALUE : policy;
  BACKSLASH_IN_URI_VALUE : policy;
  BACKSLASH_IN_GEO_VALUE : policy
}.

(** The values assigned at parser.py:33-66. *)
Definition default_ctx : pctx :=
  mkCtx PARSER_FIX PARSER_RAISE PARSER_FIX PARSER_ALLOW PARSER_FIX PARSER_FIX PARSER_ALLOW
        PARSER_FIX PARSER_FIX PARSER_FIX PARSER_FIX PARSER_FIX.

(** parser.py:68-83.  allRaise does not change INVALID_DATETIME_VALUE and
    INVALID_DATETIME_LEADINGSPACE; the unused INVALID_REQUEST_STATUS is left out. *)
Definition allRaise (c : pctx) : pctx :=
  mkCtx PARSER_RAISE PARSER_RAISE PARSER_RAISE PARSER_RAISE PARSER_RAISE
        (INVALID_DATETIME_VALUE c) (INVALID_DATETIME_LEADINGSPACE c)
        PARSER_RAISE PARSER_RAISE PARSER_RAISE PARSER_RAISE PARSER_RAISE.
