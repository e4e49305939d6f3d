(** Specification vocabulary for Calendar.parseComponent: definitions only, nothing from its model. *)
From Verif Require Import PyBase ComponentModel TzDbSpec.

(** The line that ends a calendar. *)
Definition closing : bytes := lit "END:VCALENDAR".
(** The unfolded lines of a stream (readFoldedLine until it answers False). *)
Definition unfolded (data : bytes) : list bytes := read_lines (S (List.length data)) None data.
(** The same calendar with these components. *)
Definition with_subs (cal : comp) (subs : list comp) : comp := Comp (cKind cal) (cState cal) (cProps cal) subs.
Definition empty_calendar : comp := Comp VCALENDAR (newState []) [] [].
(** The directory has, for each of these pairs, a file name.ics with the text, and no other file. *)
Definition directory (dir : list bytes) (files : list (bytes * bytes)) (path : bytes) : option bytes :=
  option_map snd (find (fun p => beq path (abs_path dir ++ "/"%char :: fst p ++ lit ".ics")) files).
(** A TZID that is a path below the directory. *)
Definition path_name (id : bytes) : Prop := ~ In "000"%char id /\ exists names, names <> [] /\ Forall name names /\ rel_path names id.
(** The VTIMEZONEs of a list. *)
Definition is_zone (c : comp) : bool := beq (getType (cKind c)) (lit "VTIMEZONE").
(** The text of some lines. *)
Definition crlf_lines (l : list string) : bytes := flat_map (fun s => lit s ++ [CR; LF]) l.
(** A line that is a property or nothing: it begins or ends no component and is not blank. *)
Definition plain_text (l : bytes) : Prop := l <> [] /\ startswith l (lit "BEGIN:") = false /\ startswith l (lit "END:") = false.
