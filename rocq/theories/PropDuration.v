(** Properties C14-C16: durations. *)
From Coq Require Import Lia.
From Verif Require Import PyBase ParserCtx DurationModel.
From Verif Require DurationProofs.

(** C14. Seconds to fields and back. *)
Theorem C14_total_seconds : forall n, getTotalSeconds (setDuration n) = n.
Proof. exact DurationProofs.total_setDuration. Qed.
Print Assumptions C14_total_seconds.
Example C14_total_seconds_ex : getTotalSeconds (setDuration (-694861)) = -694861 /\
  setDuration (-694861) = mkDur false 0 8 1 1 1.
Proof. split; reflexivity. Qed.

Theorem C14_fields : forall n,
  let d := setDuration n in
  (mForward d = true <-> 0 <= n) /\
  (if Z.abs n mod 604800 =? 0
   then dWeeks d = Z.abs n / 604800 /\ dDays d = 0 /\ dHours d = 0 /\ dMinutes d = 0 /\ dSeconds d = 0
   else dWeeks d = 0 /\ dDays d = Z.abs n / 86400 /\ dHours d = Z.abs n / 3600 mod 24 /\
        dMinutes d = Z.abs n / 60 mod 60 /\ dSeconds d = Z.abs n mod 60).
Proof. exact DurationProofs.setDuration_fields. Qed.
Print Assumptions C14_fields.
Example C14_fields_ex : setDuration (604800 * 3) = mkDur true 3 0 0 0 0.
Proof. reflexivity. Qed.

(** C15. Text round trip, in every parser configuration. *)
Theorem C15_round_trip : forall ctx n,
  exists d', dur_parseText ctx (dur_generate (setDuration n)) = Ok d' /\
    getTotalSeconds d' = n /\ (n <> 0 -> d' = setDuration n).
Proof. exact DurationProofs.dur_text_total. Qed.
Print Assumptions C15_round_trip.
Example C15_round_trip_ex : dur_generate (setDuration (-90061)) = lit "-P1DT1H1M1S" /\
  dur_generate (setDuration 3601) = lit "PT1H0M1S" /\ dur_generate (setDuration 0) = lit "PT0S".
Proof. repeat split; reflexivity. Qed.

(** Every text that parses is rewritten to a text that parses to the same length of time. *)
Theorem C15_reparse : forall ctx s d, dur_parseText ctx s = Ok d ->
  exists d', dur_parseText ctx (dur_generate d) = Ok d' /\ getTotalSeconds d' = getTotalSeconds d.
Proof. exact DurationProofs.dur_text_stable. Qed.
Print Assumptions C15_reparse.
Example C15_reparse_ex : exists d, dur_parseText default_ctx (lit "-P007DT090M") = Ok d /\
  getTotalSeconds d = -610200.
Proof. eexists; split; reflexivity. Qed.

Theorem C15_only_value_error : forall ctx s d e, snd (dur_parse ctx s d) = Raise e -> e = ValueError.
Proof. exact DurationProofs.dur_parse_only_value. Qed.
Print Assumptions C15_only_value_error.
Example C15_only_value_error_ex :
  snd (dur_parse default_ctx (lit "P1DT") (setDuration 0)) = Ok tt /\
  snd (dur_parse (allRaise default_ctx) (lit "P1DT") (setDuration 0)) = Raise ValueError /\
  snd (dur_parse default_ctx (lit "P") (setDuration 0)) = Raise ValueError.
Proof. repeat split; reflexivity. Qed.

(** C16. Reuse of an object: parse(text written for d) on an object holding [old]. *)
Theorem C16_reused_object_refuted : forall ctx, exists s old,
  snd (dur_parse ctx s old) = Ok tt /\
  dur_parseText ctx s = Ok (setDuration 3600) /\
  getTotalSeconds (fst (dur_parse ctx s old)) = 90000.
Proof. exact DurationProofs.reuse_refuted. Qed.
Print Assumptions C16_reused_object_refuted.

(** On an object of zero length the result is that of a new object, for every text. *)
Theorem C16_zero_object : forall ctx s old,
  (dWeeks old = 0 /\ dDays old = 0 /\ dHours old = 0 /\ dMinutes old = 0 /\ dSeconds old = 0) ->
  match dur_parse ctx s old with
  | (d, Ok _) => dur_parseText ctx s = Ok d
  | (_, Raise e) => dur_parseText ctx s = Raise e
  end.
Proof. exact DurationProofs.dur_parse_fresh_like. Qed.
Print Assumptions C16_zero_object.
Example C16_zero_object_ex : dur_parse default_ctx (lit "PT1H") (mkDur false 0 0 0 0 0) = (setDuration 3600, Ok tt).
Proof. reflexivity. Qed.
