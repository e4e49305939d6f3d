(** Vocabulary for statements about the cache of a recurrence rule. *)
From Verif Require Import PyBase DateTimeModel PeriodModel PeriodSpec RecurModel RecurExpand RecurExpandSpec.

(** What a rule object can look like after any series of calls: it starts with an empty cache
    (as after construction or parsing), then expand is called, with any starts (all floating
    or none of them) and windows but one float offset and no limit on the instances, and
    setters are called. *)
Inductive reachable (tzo : tzid -> Z -> Z -> Z -> Z -> Z -> Z -> bool -> bool -> Z) (sc : scale) (fl : bool) (off : Z) :
  rule -> rcache -> Prop :=
| reach_new r : reachable tzo sc fl off r cache_init
| reach_expand r c start range lim w b fuel c' o :
    reachable tzo sc fl off r c -> call_ok sc off r start range lim w b -> floating start = fl ->
    expand tzo fuel r c start range off None = Some (c', o) -> reachable tzo sc fl off r c'
| reach_set r c s r' c' :
    reachable tzo sc fl off r c -> setAndClear tzo s (r, c) = Ok (r', c') -> reachable tzo sc fl off r' c'.
