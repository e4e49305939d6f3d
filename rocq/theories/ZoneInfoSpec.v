(** What C75 says: the directory of iCalendar files that the tz compiler writes. *)
From Verif Require Export ZoneInfoModel ZoneFileSpec.

(** A name that is written as it is, without folding. *)
Definition short_name (n : bytes) : Prop :=
  n <> [] /\ utf8 n /\ Forall (fun c => c <> CR /\ c <> LF /\ c <> "\"%char /\ c <> ","%char /\ c <> ";"%char) n /\ (List.length n <= 50)%nat.
(** There are at most two places in the text where the word begins. *)
Definition at_most_twice (w t : bytes) : Prop :=
  forall a b c d e f, t = a ++ w ++ d -> t = b ++ w ++ e -> t = c ++ w ++ f -> a = b \/ a = c \/ b = c.
(** The links with the aliases: for a name that is no link, the first alias for the territory 001. *)
Definition first_alias (l : list alias) (to from : bytes) : Prop :=
  exists a b, l = a ++ mkAlias (lit "001") to from :: b /\ Forall (fun x => alTerritory x = lit "001" -> alOther x <> to) a.
Definition all_links (links : list (bytes * bytes)) (aliases : option (list alias)) (l : list (bytes * bytes)) : Prop :=
  NoDup (map fst l) /\
  forall to from, In (to, from) l <->
    In (to, from) links \/ (~ In to (map fst links) /\ match aliases with Some al => first_alias al to from | None => False end).
(** No link has the name of one of the zones, and none leads to another link. *)
Definition flat (names : list bytes) (links : list (bytes * bytes)) : Prop :=
  forall to from, In (to, from) links -> ~ In to names /\ forall to' from', In (to', from') links -> from' <> to.
