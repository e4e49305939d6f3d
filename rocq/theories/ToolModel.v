(** Model of /repo/src/pycalendar/validator.py, the tool that checks files.  Line numbers refer to that file.  Definitions only.
    Simplifications: what is read from the file is given; each printed line is a [message] that leaves out the fixed words and, for an error, its texts;
    sys.exit and exceptions that are not caught are the [ending]. *)
From Verif Require Export ComponentModel ValidateModel VCardModel VCardCheckModel.

Inductive message : Set :=
| NotICalendar (e : exn)                     (* 40: Failed to parse iCalendar *)
| NotVCard (e : exn)                         (* 46: Failed to parse vCard *)
| NothingFound                               (* 49 *)
| Problems (l : list bytes)                  (* 54 *)
| NoProblems                                 (* 56 *)
| Control (code : Z) (position : Z).         (* 63 *)
Inductive ending : Set := Returns | Exits (code : Z) | Escapes (e : exn).

(** data.find(pat) != -1: 36, 42. *)
Fixpoint contains (data pat : bytes) : bool := startswith data pat || match data with [] => false | _ :: r => contains r pat end.
(** The characters of 60 and 62. *)
Definition control_characters : list Z := [0; 1; 2; 3; 4; 5; 6; 7; 8; 11; 12; 14; 15; 16; 17; 18; 19; 20; 21; 22; 23; 24; 25; 26; 27; 28; 29; 30; 31].
Definition is_control (c : ascii) : bool := existsb (fun n => n =? Z.of_nat (nat_of_ascii c)) control_characters.
(** 61-63: enumerate(data). *)
Fixpoint report_controls (ctr : Z) (data : bytes) : list message :=
  match data with
  | [] => []
  | c :: r => (if is_control c then [Control (Z.of_nat (nat_of_ascii c)) ctr] else []) ++ report_controls (ctr + 1) r
  end.
(** 59-63: s.translate(None, ...) leaves these characters out. *)
Definition controls (data : bytes) : list message :=
  if Nat.eqb (List.length (filter (fun c => negb (is_control c)) data)) (List.length data) then [] else report_controls 0 data.
(** 53-56. *)
Definition verdict (unfixed : list bytes) : message := match unfixed with [] => NoProblems | _ => Problems unfixed end.
(** exceptions.py:18-41: what `except ErrorBase` catches. *)
Definition is_error (e : exn) : bool := match e with InvalidData | InvalidComponent | InvalidProperty | ValidationError => true | _ => false end.

Section WithTz.
Variable tzo : tzid -> Z -> Z -> Z -> Z -> Z -> Z -> bool -> bool -> Z.
Variable ctx : pctx.
Variable fl : floats.
Variable uuids : nat -> bytes.
(** The orders of mProperties.values() (componentbase.py:216). *)
Variable order : list (list prop) -> list (list prop).
Variable card_order : list (list cprop) -> list (list cprop).

(** 26-63.  None: it does not end.  Calendar.parseText is C40 with the policies of allRaise (34); the merging of its time zones into the database
    (calendar.py:193-201) is left out. *)
Definition validator (data : bytes) : option (list message * ending) :=
  let strict := allRaise ctx in
  if contains data (lit "BEGIN:VCALENDAR") then
    Some match parseTextData tzo strict fl uuids data with
         | Raise e => if is_error e then ([NotICalendar e], Exits 1) else ([], Escapes e)
         | Ok None => ([], Escapes AttributeError)
         | Ok (Some c) =>
           match container_validate tzo order false false c with
           | (_, Raise e) => ([], Escapes e)
           | (_, Ok (_, unfixed)) => (verdict unfixed :: controls data, Returns)
           end
         end
  else if contains data (lit "BEGIN:VCARD") then
    match card_parse strict fl data with
    | None => None
    | Some (Raise e) => Some (if is_error e then ([NotVCard e], Exits 1) else ([], Escapes e))
    | Some (Ok None) => Some ([], Escapes AttributeError)
    | Some (Ok (Some c)) =>
      Some match card_validate card_order false false c with
           | Raise e => ([], Escapes e)
           | Ok (_, unfixed) => (verdict unfixed :: controls data, Returns)
           end
    end
  else Some ([NothingFound], Exits 1).
End WithTz.
