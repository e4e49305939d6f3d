(** Properties of the UID, the sequence number and the time stamps of components: C83. *)
From Coq Require Import Lia.
From Verif Require Import PyBase PyProofs CalSpec ParserCtx LineSpec DateTimeModel DateTimeSpec DateTimeSpec2 PropertyModel PropertySpec ComponentModel ComponentSpec ValidateModel ValidateSpec
  StatusSpec StatusProofs2 StampModel StampSpec StampProofs PropDateProofs PropComponent PropRecur2 PropTiming PropEdit.

(** Each call puts in one property, which replaces those of its name, and keeps the others and what else is in memory. *)
Theorem C83_given : forall md5 k x ps i ctr, tidy_props ps ->
  exists ps' i' ctr', edit_ident md5 k (ps, i, ctr) x = (ps', i', ctr') /\ ident_given k x ps' i i' /\ kept_but [set_by x] ps ps'.
Proof.
  intros md5 k x ps i ctr T. destruct (ident_done md5 k x ps i ctr T) as (ps' & i' & ctr' & E & _ & K & G & _). exists ps', i', ctr'. split; [exact E|]. split; assumption.
Qed.
Print Assumptions C83_given.
(** If a new component with the properties of this one has the same UID, sequence number and stamp, that is so after any number of
    calls of setUID, setSeq, initDTSTAMP and updateLastModified; the sequence number that was read is still known. *)
Theorem C83_edits : forall md5 k l ps i ctr, tidy_props ps -> ident_step k ps i ->
  exists ps' i' ctr', edit_idents md5 k l (ps, i, ctr) = (ps', i', ctr') /\ ident_step k ps' i' /\ iOriginal i' = iOriginal i /\ tidy_props ps' /\ kept_but (map set_by l) ps ps'.
Proof.
  intros md5 k l ps i ctr T S. destruct (idents_done md5 k l ps i ctr T) as (ps' & i' & ctr' & E & T' & K & O & S'). exists ps', i', ctr'.
  split; [exact E|]. split; [exact (S' S)|]. split; [exact O|]. split; assumption.
Qed.
Print Assumptions C83_edits.
(** A component of a calendar is so changed; then the calendar is written and read: it has a component with the properties of that
    one, and with its UID, sequence number and stamp. *)
Theorem C83_written : forall tzo ctx fl uuids md5 k s cs cps before after ps subs i ctr l, is_recur k = true -> digests md5 ->
  calendar_ok ctx fl (Comp VCALENDAR cs cps (before ++ Comp k s ps subs :: after)) -> ident_step k ps i -> Forall call_writable l ->
  exists ps' i' ctr' text cal c, edit_idents md5 k l (ps, i, ctr) = (ps', i', ctr') /\
    generate fl (Comp VCALENDAR cs cps (before ++ Comp k s ps' subs :: after)) = Some (Ok text) /\
    parseTextData tzo ctx fl uuids text = Ok (Some cal) /\
    In c (cSubs cal) /\ same_tree (Comp k s ps' subs) c /\ ident_rel same_when k i' (ident_finalise k (cProps c) newIdent).
Proof. intros tzo ctx fl uuids md5. exact (idents_written tzo ctx fl md5 uuids). Qed.
Print Assumptions C83_written.
(** initDTSTAMP when the clock, in the years 1901 to 2100, says second n: getStamp gives that time. *)
Theorem C83_clock : forall tzo md5 k ps i ctr now days n, tidy_props ps -> is_recur k = true -> 1901 <= tmYear now <= 2100 ->
  valid_date greg_leap (tmYear now, tmMon now, tmDay now) -> days_between greg_leap (1970, 1, 1) (tmYear now, tmMon now, tmDay now) days ->
  n = 86400 * days + (3600 * tmHour now + 60 * tmMin now + tmSec now) ->
  exists ps' i' ctr', edit_ident md5 k (ps, i, ctr) (CallStamp now) = (ps', i', ctr') /\ iHasStamp i' = true /\ snd (getPosixTime tzo (iStamp i')) = Ok n.
Proof.
  intros tzo md5 k ps i ctr now days n T R Y V B ->. destruct (ident_done md5 k (CallStamp now) ps i ctr T) as (ps' & i' & ctr' & E & _).
  pose proof (replaced_self md5 (CallStamp now) ctr ps T) as G. exists ps', i', ctr'. split; [exact E|].
  cbn [edit_ident set_by] in *. unfold initDTSTAMP in E. rewrite R in E. change (date_prop (lit "DTSTAMP") (getNowUTC now)) with (new_prop md5 ctr (CallStamp now)) in E. cbv zeta in E.
  unfold loadDateTime, load, findFirstProperty in E. rewrite G in E. cbn in E. injection E as _ <- _. split; [reflexivity|]. apply posix_exact; assumption.
Qed.
Print Assumptions C83_clock.
(** The UIDs that setUID makes itself in one process are all different, if no two of the texts that they are made from have the same
    digest; also at the same time of the clock. *)
Theorem C83_made : forall md5 l ctr, digests md5 -> (forall s t, In s (hashed l ctr) -> In t (hashed l ctr) -> md5 s = md5 t -> s = t) -> NoDup (made_uids md5 l ctr).
Proof. intros md5 l ctr D J. exact (made_nodup md5 l D ctr J). Qed.
Print Assumptions C83_made.

(** ** Examples *)
(** Something that is like a digest: the bits of the text. *)
Definition bit (b : bool) : ascii := if b then "1"%char else "0"%char.
Fixpoint bits (s : bytes) : bytes := match s with [] => [] | Ascii a b c d e f g h :: r => bit a :: bit b :: bit c :: bit d :: bit e :: bit f :: bit g :: bit h :: bits r end.
Lemma bits_digests : digests bits.
Proof.
  assert (B : forall b, In (bit b) (lit "0123456789abcdef")) by (intros []; cbn; tauto).
  intro s. induction s as [|[a b c d e f g h] s IH]; cbn [bits]; [constructor|]. repeat (constructor; [apply B|]). exact IH.
Qed.
Lemma bits_apart : forall s t, bits s = bits t -> s = t.
Proof.
  assert (B : forall a b, bit a = bit b -> a = b) by (intros [] [] H; try reflexivity; discriminate H).
  induction s as [|[a b c d e f g h] s IH]; intros [|[a' b' c' d' e' f' g' h'] t] E; cbn [bits] in E; try discriminate E; [reflexivity|].
  injection E as E1 E2 E3 E4 E5 E6 E7 E8 E. apply B in E1, E2, E3, E4, E5, E6, E7, E8. apply IH in E. subst. reflexivity.
Qed.
Definition noon : tm := mkTm 1970 1 3 12 0 0.
Definition calls : list ident_call := [CallSeq 4; CallUID (mkMoment (lit "5.5") 7 (lit "x")) (lit "b,c"); CallStamp noon; CallSeq 5; CallModified noon].
(** The component of this text is changed; then its lines, what it has in memory, and what a new component has. *)
Definition ident_text (es : list ident_call) (l : list bytes) :=
  let c := object_of (read l) 0 in
  let '(ps, i, ctr) := edit_idents bits (cKind c) es (cProps c, ident_finalise (cKind c) (cProps c) newIdent, 1) in
  match generate fl0 (Comp (cKind c) (cState c) ps (cSubs c)) with
  | Some (Ok s) => Some (s, i, ctr, ident_finalise (cKind c) ps newIdent)
  | _ => None
  end.
Definition party : list bytes := vevent [lit "SEQUENCE:3"; lit "SUMMARY:s"; lit "DTSTAMP:19700101T000000Z"].
Definition party_props : props := Eval vm_compute in cProps (object_of (read party) 0).
Definition party_ident : ident := Eval vm_compute in ident_finalise VEVENT party_props newIdent.
Lemma party_tidy : tidy_props party_props.
Proof. split; [repeat constructor; no_in|]. repeat constructor; discriminate. Qed.
Example C83_given_ex : tidy_props party_props /\ iSeq party_ident = 3 /\
  match edit_ident bits VEVENT (party_props, party_ident, 1) (CallSeq 4) with
  | (ps, i, ctr) => iSeq i = 4 /\ iOriginal i = 3 /\ map (prop_line fl0) (getProperties (lit "SEQUENCE") ps) = [Ok (lit "SEQUENCE:4")]
  end.
Proof. split; [exact party_tidy|]. split; [reflexivity|]. vm_compute. repeat split. Qed.
Example C83_edits_ex : tidy_props party_props /\ ident_step VEVENT party_props party_ident /\
  ident_text calls party =
    Some (lines [lit "BEGIN:VEVENT"; lit "UID:b\,c"; lit "DTSTAMP:19700103T120000Z"; lit "LAST-MODIFIED:19700103T120000Z"; lit "SEQUENCE:5"; lit "SUMMARY:s"; lit "END:VEVENT"],
          mkIdent (lit "b,c") 5 3 true (utc 1970 1 3 12), 1, mkIdent (lit "b,c") 5 5 true (utc 1970 1 3 12)).
Proof. split; [exact party_tidy|]. split; [repeat split|]. vm_compute. reflexivity. Qed.
Example C83_written_ex : is_recur VEVENT = true /\ digests bits /\
  calendar_ok default_ctx fl0 (Comp VCALENDAR (cState cal1) (cProps cal1)
    ([unknown (lit "X-OUTER") [unknown (lit "X-INNER") []]] ++ Comp VEVENT (cState (event (lit "b") [alarm])) (cProps (event (lit "b") [alarm])) [alarm] :: [event (lit "a") []])) /\
  ident_step VEVENT (cProps (event (lit "b") [alarm])) (ident_finalise VEVENT (cProps (event (lit "b") [alarm])) newIdent) /\ iUID (ident_finalise VEVENT (cProps (event (lit "b") [alarm])) newIdent) = lit "b" /\
  Forall call_writable calls.
Proof.
  split; [reflexivity|]. split; [exact bits_digests|]. split; [exact cal1_ok|]. split; [repeat split; reflexivity|]. split; [reflexivity|].
  repeat (apply Forall_cons; [first [exact I|unfold call_writable, clock_ok; cbn; lia|apply utf8_ascii; repeat constructor; cbn; lia]|]). apply Forall_nil.
Qed.
Example C83_clock_ex : valid_date greg_leap (1970, 1, 3) /\ days_between greg_leap (1970, 1, 1) (1970, 1, 3) 2 /\ 86400 * 2 + (3600 * tmHour noon + 60 * tmMin noon + tmSec noon) = 216000 /\
  snd (getPosixTime no_zones (getNowUTC noon)) = Ok 216000.
Proof. split; [repeat split; vm_compute; congruence|]. split; [left; split; [lia|reflexivity]|]. split; reflexivity. Qed.
(** Three components at one time of the clock. *)
Example C83_made_ex : let m := mkMoment (lit "1500000000.25") 77 (lit "calendarserver.org") in let c := (party_props, party_ident, 1) in
  digests bits /\ (forall s t, In s (hashed [(m, c); (m, c); (m, c)] 1) -> In t (hashed [(m, c); (m, c); (m, c)] 1) -> bits s = bits t -> s = t) /\
  hashed [(m, c); (m, c); (m, c)] 1 = [lit "1500000000.25.77.1"; lit "1500000000.25.77.2"; lit "1500000000.25.77.3"] /\
  made_uids (fun s => s) [(m, c); (m, c)] 1 = [lit "1500000000.25.77.1@calendarserver.org2"; lit "1500000000.25.77.2@calendarserver.org3"].
Proof. cbv zeta. split; [exact bits_digests|]. split; [intros s t _ _; apply bits_apart|]. split; vm_compute; reflexivity. Qed.

(** ** What does not hold *)
(** finalise does not forget: if SEQUENCE, DTSTAMP and UID are taken out, the component has their values still, but for hasStamp. *)
Theorem C83_removed_refuted : exists ps i, ident_step VEVENT ps i /\
  let ps' := removeProperties (lit "UID") (removeProperties (lit "SEQUENCE") ps) in
  iUID (ident_finalise VEVENT ps' i) <> iUID (ident_finalise VEVENT ps' newIdent) /\ iSeq (ident_finalise VEVENT ps' i) <> iSeq (ident_finalise VEVENT ps' newIdent).
Proof. exists party_props, party_ident. split; [repeat split|]. split; vm_compute; discriminate. Qed.
Print Assumptions C83_removed_refuted.
(** A text that is only blank or a number below zero is taken as it is. *)
Theorem C83_checked_refuted : exists es s i, ident_text es party = Some (s, i, 1, mkIdent (lit " ") (-1) (-1) true (utc 1970 1 1 0)) /\
  s = lines [lit "BEGIN:VEVENT"; lit "UID: "; lit "DTSTAMP:19700101T000000Z"; lit "SEQUENCE:-1"; lit "SUMMARY:s"; lit "END:VEVENT"].
Proof. exists [CallUID (mkMoment (lit "5.5") 7 (lit "x")) (lit " "); CallSeq (-1)]. do 2 eexists. split; vm_compute; reflexivity. Qed.
Print Assumptions C83_checked_refuted.
