(** What C86 says: lists matched by equality. *)
From Verif Require Export PropertySpec MatchModel.

(** The dict of a component. *)
Definition dict_props (ps : props) : Prop := NoDup (map fst ps) /\ Forall (fun kl => snd kl <> []) ps.
(** UNTIL is absent or a date-time in UTC. *)
Definition until_utc (r : rule) : Prop := match rUntil r with None => True | Some d => mDateOnly d = false /\ mTZUTC d = true end.
Definition fields (d : dt) := (mYear d, mMonth d, mDay d, (mHours d, mMinutes d, mSeconds d)).
(** Rules that say the same: the lists in any order, the same UNTIL. *)
Definition rules_same (a b : rule) : Prop := same_rule a b /\ option_map fields (rUntil a) = option_map fields (rUntil b).
