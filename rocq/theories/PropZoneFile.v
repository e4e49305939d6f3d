(** C74: the iCalendar data that the tz compiler writes, read again. *)
From Coq Require Import Lia ZifyBool Sorting.Permutation Sorting.Sorted.
From Verif Require Import PyBase PyProofs CalSpec CalModel DateTimeSpec DateTimeModel PeriodSpec RecurModel RecurSpec RecurByPartsSpec RecurSetModel RecurUnionSpec VTimezoneModel VTimezoneSpec PropertySpec StatusProofs2 ComponentModel ComponentProofs6
  ZonalModel ZonalSpec ZonalProofs3 ZoneProofs2 TzFileModel ZoneFileModel ZoneFileProofs4 ZoneFileProofs5 ZoneTzProofs3 ZoneTzProofs9 PropTimezone PropZone PropZoneTz PropTzFile.
From Verif Require Import ZoneFileSpec ZoneSpec ZoneTzSpec PropComponent PropZoneTz.

(** vtimezones(): the text is read as a calendar with the zones that were asked for, each with its name and its sub-components, sorted by the names; and getTimezone finds them. *)
Theorem C74_read : forall tzo ctx fl uuids prodid d minYear maxYear want zones, utf8 prodid -> asks want d (map fst zones) ->
  Forall (fun p => zone_vtimezone tzo (fst p) (tzRules d) minYear maxYear = Ok (snd p) /\ zone_name (znName (fst p)) /\ Forall sub_fine (snd p)) zones ->
  exists text cal, vtimezones tzo fl prodid d minYear maxYear want = Some (Ok text) /\ parseTextData tzo ctx fl uuids text = Ok (Some cal) /\
    cKind cal = VCALENDAR /\ loadString (lit "PRODID") (cProps cal) = Some prodid /\
    loadString (lit "VERSION") (cProps cal) = Some (lit "2.0") /\ loadString (lit "CALSCALE") (cProps cal) = Some (lit "GREGORIAN") /\
    Forall2 (fun p c => shows_zone (znName (fst p)) (snd p) c) zones (cSubs cal) /\
    (forall p, In p zones -> exists c, calendar_zone cal (znName (fst p)) = Some c /\ shows_zone (znName (fst p)) (snd p) c) /\
    (forall n, ~ In n (map (fun p => znName (fst p)) zones) -> calendar_zone cal n = None).
Proof.
  intros tzo ctx fl uuids prodid d minYear maxYear want zones U A F. destruct (file_spec tzo ctx fl uuids prodid d minYear maxYear want zones U A F) as (text & cal & E & R & K & P1 & P2 & P3 & Z).
  exists text, cal. do 7 (split; [assumption|]). split; [|intros n N; exact (no_zone _ _ _ Z N)].
  intros p I. apply (find_zone zones cal p); try assumption. destruct A as (_ & _ & S). clear - S. induction zones as [|q l IH]; [constructor|]. cbn [map] in S. inversion S as [|? ? S1 F1]; subst. constructor; [apply IH, S1|].
  rewrite Forall_forall in *. intros r J. apply F1, in_map, J.
Qed.
Print Assumptions C74_read.

(** The text does not depend on the order of the dictionary of zones, nor on links and zones that were not asked for. *)
Theorem C74_order : forall tzo fl prodid d e minYear maxYear want want' zones, tzRules d = tzRules e -> asks want d (map fst zones) -> asks want' e (map fst zones) ->
  Forall (fun p => zone_vtimezone tzo (fst p) (tzRules d) minYear maxYear = Ok (snd p) /\ zone_name (znName (fst p)) /\ Forall sub_fine (snd p)) zones ->
  vtimezones tzo fl prodid d minYear maxYear want = vtimezones tzo fl prodid e minYear maxYear want'.
Proof.
  intros tzo fl prodid d e minYear maxYear want want' zones E A B F. rewrite (file_text tzo fl prodid d minYear maxYear want zones A F). symmetry. apply file_text; [exact B|]. rewrite E in F. exact F.
Qed.
Print Assumptions C74_order.

(** An exception for one zone that was asked for: there is no text. *)
Theorem C74_raises : forall tzo fl prodid d minYear maxYear want zn e, In zn (map snd (tzZones d)) -> want = [] \/ In (znName zn) want ->
  zone_vtimezone tzo zn (tzRules d) minYear maxYear = Raise e -> exists e', vtimezones tzo fl prodid d minYear maxYear want = Some (Raise e').
Proof. intros. eapply file_raises; eassumption. Qed.
Print Assumptions C74_raises.

(** The sub-components can be written if the changes have years, offsets and names that fit. *)
Theorem C74_fine : forall tzo zn rules minYear maxYear maxN lmt cs subs, 1901 <= maxYear -> new_year maxYear maxN ->
  zone_expand tzo zn rules minYear maxYear = Ok (lmt ++ cs) -> writable maxYear lmt cs -> Forall fits cs ->
  zone_vtimezone tzo zn rules minYear maxYear = Ok subs -> Forall sub_fine subs.
Proof. exact zone_fits. Qed.
Print Assumptions C74_fine.

(** From the source to the offset: the time zone with the name of the zone in the calendar that is read tells the offset that the lines of the zone define. *)
Theorem C74_zone : forall tzo ctx fl uuids prodid d minYear maxYear want zones order torder top zn subs maxN lmt cs m s z ln e line lines first l,
  utf8 prodid -> asks want d (map fst zones) ->
  Forall (fun p => zone_vtimezone tzo (fst p) (tzRules d) minYear maxYear = Ok (snd p) /\ zone_name (znName (fst p)) /\ Forall sub_fine (snd p)) zones ->
  In (zn, subs) zones -> permutes order -> shuffles torder -> clock_ordered tzo local_time ->
  1901 <= maxYear -> new_year maxYear maxN -> top < maxYear -> top < 2099 ->
  znRules zn = map text_of ((z, ln, e) :: line :: lines) -> new_year minYear m -> new_year 1800 s ->
  zone_steps (tzRules d) maxYear s (lnStd ln) (lnStd ln) ((z, ln, e) :: line :: lines) (first :: l) -> spaced s (lnStd ln) (List.concat l) ->
  zone_expand tzo zn (tzRules d) minYear maxYear = Ok (lmt ++ cs) -> writable maxYear lmt cs -> utc_order cs -> Forall tellable cs ->
  exists text cal c, vtimezones tzo fl prodid d minYear maxYear want = Some (Ok text) /\ parseTextData tzo ctx fl uuids text = Ok (Some cal) /\
    calendar_zone cal (znName zn) = Some c /\
  forall obj day t o, asked tzo order torder top (map element_of (cSubs c)) obj -> asking cs top day t -> zone_offset e (line :: lines) t o -> m <= t ->
  exists N, forall fuel, (N <= fuel)%nat -> exists obj', getTimezoneOffsetSeconds tzo order torder fuel obj day true = Some (obj', Ok o).
Proof.
  intros tzo ctx fl uuids prodid d minYear maxYear want zones order torder top zn subs maxN lmt cs m s z ln e line lines first l U A F I P1 P2 CO HM NY T1 T2 Z M S St Sp Ex Wr Uo Tl.
  destruct (C74_read tzo ctx fl uuids prodid d minYear maxYear want zones U A F) as (text & cal & E & R & _ & _ & _ & _ & _ & Fi & _). destruct (Fi _ I) as (c & Ec & _ & _ & _ & _ & Sh). cbn [fst snd] in *.
  exists text, cal, c. do 3 (split; [assumption|]).
  destruct (C69_zone tzo order torder top zn (tzRules d) minYear maxYear maxN lmt cs m s z ln e line lines first l P1 P2 CO HM NY T1 T2 Z M S St Sp Ex Wr Uo Tl) as (subs' & Ev & H).
  rewrite Forall_forall in F. destruct (F _ I) as (Ev' & _). cbn [fst snd] in Ev'. rewrite Ev' in Ev. injection Ev as <-.
  assert (Em : map element_of (cSubs c) = map (fun s => elem_of (read_back s)) subs).
  { clear - Sh. induction Sh as [|x y l l' (_ & H & _) _ IH]; [reflexivity|]. cbn [map]. rewrite H, IH. reflexivity. }
  rewrite Em. exact H.
Qed.
Print Assumptions C74_zone.

(** ** Examples: New York and a zone with one line *)
Definition ast : zone := mkZone (lit "AST") [z3].
Definition two_data : tzdata := mkTzdata [(lit "US", [us_on; us_off])] [(lit "New_York", ny); (lit "AST", ast)] [(lit "US/Eastern", lit "New_York")].
Definition ny_subs : list sub := match zone_vtimezone tz_none ny us_rules 1902 2030 with Ok l => l | Raise _ => [] end.
Definition prodid : bytes := lit "-//Example//EN".
Definition both : list (zone * list sub) := [(ast, []); (ny, ny_subs)].
Lemma ascii_text s : forallb (fun c => (nat_of_ascii c <? 128)%nat) s = true -> utf8 s.
Proof. intro H. apply utf8_ascii, Forall_forall. intros c I. rewrite forallb_forall in H. apply PeanoNat.Nat.ltb_lt, (H c I). Qed.
Lemma plain_name s : forallb (fun c => (nat_of_ascii c <? 128)%nat) s = true -> cin CR s = false -> cin LF s = false -> zone_name s.
Proof. intros A B C. split; [apply ascii_text, A|]. split; apply cin_not_in; assumption. Qed.
Definition ascii_in (s : bytes) : Prop := Forall (fun c => (nat_of_ascii c < 128)%nat) s.
Lemma called_ascii c day name : ascii_in (zFormat (chZone c)) -> match chRule c with Some r => ascii_in (rlLetter r) | None => True end -> called c day name -> utf8 name.
Proof.
  intros F L. unfold called. intro H. apply utf8_ascii. fold (ascii_in name). unfold ascii_in in *. destruct (chRule c) as [r|].
  - destruct H as (s & arg & _ & La & T & _). assert (A : Forall (fun c => (nat_of_ascii c < 128)%nat) arg) by (destruct La as [[_ ->]|[_ ->]]; [constructor|exact L]).
    inversion T as [a b E _ _|a b E _ _ _|]; subst; rewrite ?E in F; rewrite ?Forall_app in F.
    + rewrite !Forall_app. tauto.
    + destruct (s =? 0); tauto.
    + exact F.
  - destruct H as (s & _ & _ & [(a & b & E & _ & _ & ->)|(_ & ->)]); [|exact F]. rewrite E, !Forall_app in F. rewrite !Forall_app. split; [tauto|]. split; [|tauto]. repeat constructor.
Qed.
Lemma ny_fits : Forall fits ny_changes.
Proof.
  destruct ny_is as (c1 & c2 & c3 & c4 & c5 & E & Zr & _). rewrite E in *. cbn [map] in Zr. injection Zr as Z1 R1 Z2 R2 Z3 R3 Z4 R4 Z5 R5.
  assert (H : forallb (fun c => (1902 <=? mYear (chAt c)) && (mYear (chAt c) <=? 9998) && (Z.abs (chFrom c) <? 86400) && (Z.abs (chTo c) <? 360000)) ny_changes = true) by (vm_compute; reflexivity).
  rewrite E, forallb_forall in H. apply Forall_forall. intros c Hc. specialize (H c Hc). split; [lia|]. split; [lia|]. split; [lia|].
  intros day name Q. eapply called_ascii; [| |exact Q]; destruct Hc as [<-|[<-|[<-|[<-|[<-|[]]]]]]; rewrite ?Z1, ?Z2, ?Z3, ?Z4, ?Z5, ?R1, ?R2, ?R3, ?R4, ?R5; first [exact Logic.I|repeat (constructor; [cbn; lia|]); constructor].
Qed.
Lemma ny_made : zone_vtimezone tz_none ny us_rules 1902 2030 = Ok ny_subs. Proof. vm_compute. reflexivity. Qed.
Example C74_fine_ex : new_year 2030 1893456000 /\ zone_expand tz_none ny us_rules 1902 2030 = Ok ([] ++ ny_changes) /\ writable 2030 [] ny_changes /\ Forall fits ny_changes /\
  zone_vtimezone tz_none ny us_rules 1902 2030 = Ok ny_subs /\ List.length ny_subs = 3%nat /\ Forall sub_fine ny_subs.
Proof.
  split; [exact year_2030|]. split; [exact ny_expanded|]. split; [exact ny_writable|]. split; [exact ny_fits|]. split; [exact ny_made|]. split; [vm_compute; reflexivity|].
  exact (C74_fine tz_none ny us_rules 1902 2030 1893456000 [] ny_changes ny_subs ltac:(lia) year_2030 ny_expanded ny_writable ny_fits ny_made).
Qed.
Lemma both_fine : Forall (fun p => zone_vtimezone tz_none (fst p) us_rules 1902 2030 = Ok (snd p) /\ zone_name (znName (fst p)) /\ Forall sub_fine (snd p)) both.
Proof.
  constructor; [|constructor; [|constructor]]; cbn [fst snd].
  - split; [vm_compute; reflexivity|]. split; [apply plain_name; reflexivity|constructor].
  - split; [exact ny_made|]. split; [apply plain_name; reflexivity|apply C74_fine_ex].
Qed.
Lemma both_asked : asks [] two_data (map fst both).
Proof.
  split; [|split].
  - constructor; [intros [E|[]]; discriminate E|]. constructor; [intros []|constructor].
  - intro zn. cbn [map fst both two_data tzZones snd In]. tauto.
  - constructor; [constructor; [constructor|constructor]|]. constructor; [|constructor]. apply tl_head. cbn. lia.
Qed.
(** What is read: the names, and whether the sub-components are for daylight saving time. *)
Example C74_read_ex : utf8 prodid /\ asks [] two_data (map fst both) /\ Forall (fun p => zone_vtimezone tz_none (fst p) us_rules 1902 2030 = Ok (snd p) /\ zone_name (znName (fst p)) /\ Forall sub_fine (snd p)) both /\
  exists text cal, vtimezones tz_none fl0 prodid two_data 1902 2030 [] = Some (Ok text) /\ parseTextData tz_none default_ctx fl0 uuids0 text = Ok (Some cal) /\
    map (fun c => (sID (cState c), map (fun s => (cKind s, eName (element_of s), eTo (element_of s))) (cSubs c))) (cSubs cal) =
      [(lit "AST", []); (lit "New_York", [(DAYLIGHT, lit "EDT", -14400); (STANDARD, lit "EST", -18000); (STANDARD, lit "AST", -14400)])].
Proof.
  split; [apply ascii_text; reflexivity|]. split; [exact both_asked|]. split; [exact both_fine|]. eexists. eexists. split; [vm_compute; reflexivity|]. split; [vm_compute; reflexivity|reflexivity].
Qed.
Definition ny_text : string := "BEGIN:VCALENDAR
VERSION:2.0
CALSCALE:GREGORIAN
PRODID:-//Example//EN
BEGIN:VTIMEZONE
TZID:New_York
X-LIC-LOCATION:New_York
BEGIN:DAYLIGHT
DTSTART:19180331T020000
RRULE:FREQ=YEARLY;UNTIL=19190330T070000Z;BYDAY=-1SU;BYMONTH=3
TZNAME:EDT
TZOFFSETFROM:-0500
TZOFFSETTO:-0400
END:DAYLIGHT
BEGIN:STANDARD
DTSTART:19181027T020000
RRULE:FREQ=YEARLY;UNTIL=19191026T060000Z;BYDAY=-1SU;BYMONTH=10
TZNAME:EST
TZOFFSETFROM:-0400
TZOFFSETTO:-0500
END:STANDARD
BEGIN:STANDARD
DTSTART:19200101T000000
RDATE:19200101T000000
TZNAME:AST
TZOFFSETFROM:-0500
TZOFFSETTO:-0400
END:STANDARD
END:VTIMEZONE
END:VCALENDAR
".
Definition no_cr (s : bytes) : bytes := filter (fun c => negb (Ascii.eqb c CR)) s.
Example C74_order_ex : asks [lit "New_York"] two_data [ny] /\ asks [] ny_data [ny] /\ tzRules two_data = tzRules ny_data /\
  vtimezones tz_none fl0 prodid two_data 1902 2030 [lit "New_York"] = vtimezones tz_none fl0 prodid ny_data 1902 2030 [] /\
  exists text, vtimezones tz_none fl0 prodid ny_data 1902 2030 [] = Some (Ok text) /\ no_cr text = no_cr (lit ny_text).
Proof.
  assert (A1 : asks [lit "New_York"] two_data [ny]).
  { split; [apply both_asked|]. split; [|repeat constructor]. intro zn. cbn [map fst both two_data tzZones snd In]. split.
    - intros [<-|[]]. split; [auto|right; left; reflexivity].
    - intros [[<-|[<-|[]]] [E|[E|[]]]]; try discriminate E; auto. }
  assert (A2 : asks [] ny_data [ny]).
  { split; [repeat constructor; intros []|]. split; [|repeat constructor]. intro zn. cbn [map ny_data tzZones snd In]. tauto. }
  split; [exact A1|]. split; [exact A2|]. split; [reflexivity|]. split.
  - apply (C74_order tz_none fl0 prodid two_data ny_data 1902 2030 _ _ [(ny, ny_subs)] eq_refl A1 A2). constructor; [|constructor]. pose proof both_fine as F. rewrite Forall_forall in F. apply F. right. left. reflexivity.
  - eexists. split; [vm_compute; reflexivity|]. vm_compute. reflexivity.
Qed.
(** The rules of C69_first_back_refuted. *)
Definition back : list zrule := [rule "1940" "max" "Apr" "Sun>=1" "0:00u" "1:00" "D"; rule "1940" "max" "Oct" "Sun>=1" "0:00u" "0" "S"].
Definition back_data : tzdata := mkTzdata [(lit "N", back)] [(lit "AST", ast); (lit "X", mkZone (lit "X") west)] [].
Example C74_raises_ex : zone_vtimezone tz_none (mkZone (lit "X") west) [(lit "N", back)] 1902 1950 = Raise AssertionError /\
  vtimezones tz_none fl0 prodid back_data 1902 1950 [] = Some (Raise AssertionError) /\ exists text, vtimezones tz_none fl0 prodid back_data 1902 1950 [lit "AST"] = Some (Ok text).
Proof. split; [vm_compute; reflexivity|]. split; [vm_compute; reflexivity|]. eexists. vm_compute. reflexivity. Qed.
Example C74_zone_ex : exists text cal c, vtimezones tz_none fl0 prodid two_data 1902 2030 [] = Some (Ok text) /\ parseTextData tz_none default_ctx fl0 uuids0 text = Ok (Some cal) /\
    calendar_zone cal (lit "New_York") = Some c /\
  exists N, forall fuel, (N <= fuel)%nat -> exists obj', getTimezoneOffsetSeconds tz_none same same fuel (vtimezone_of c) (local_at 1919 7 1 0) true = Some (obj', Ok (-14400)).
Proof.
  assert (M : new_year 1902 (-2145916800)) by reads_tac (-24837).
  assert (Zo : zone_offset e1 [(z2, l2, e2); (z3, l3, e3)] (-1593820800) (-14400)) by (apply (zo_here e1 z2 l2); unfold e1, e2; lia).
  destruct (C74_zone tz_none default_ctx fl0 uuids0 prodid two_data 1902 2030 [] both same same 2020 ny ny_subs 1893456000 [] ny_changes (-2145916800) (-5364662400) z1 l1 e1 (z2, l2, e2) [(z3, l3, e3)] _ _
    ltac:(apply ascii_text; reflexivity) both_asked both_fine ltac:(right; left; reflexivity) same_keeps same_shuffles no_offsets
    ltac:(lia) year_2030 ltac:(lia) ltac:(lia) eq_refl M start ny_steps ltac:(repeat constructor; cbn; lia) ny_expanded ny_writable (proj1 ny_told) (proj2 ny_told)) as (text & cal & c & E & R & C & H).
  exists text, cal, c. do 3 (split; [assumption|]). apply (H (vtimezone_of c) (local_at 1919 7 1 0) (-1593820800) (-14400)); [apply asked_new| |exact Zo|lia].
  apply asking_check; try (vm_compute; reflexivity); cbn; lia.
Qed.

(** ** What the file does not say *)
(** The lines of the zone define the offset o at the moment t, from minYear on; the time zone that is read tells v. *)
Definition mistold (d : tzdata) (zn : zone) (z : zonerule) (ln : zline) (e : Z) (rest : list (zonerule * zline * Z)) (minYear maxYear : Z) (day : dt) (t o v : Z) : Prop :=
  exists s m l text cal c obj, In zn (map snd (tzZones d)) /\ znRules zn = map text_of ((z, ln, e) :: rest) /\ new_year 1800 s /\ new_year minYear m /\ m <= t /\
  zone_steps (tzRules d) maxYear s (lnStd ln) (lnStd ln) ((z, ln, e) :: rest) l /\
  zone_offset s ((z, ln, e) :: rest) t o /\ instant local_time (setTimezoneID day TzNone) t /\
  vtimezones tz_none fl0 prodid d minYear maxYear [] = Some (Ok text) /\ parseTextData tz_none default_ctx fl0 uuids0 text = Ok (Some cal) /\ calendar_zone cal (znName zn) = Some c /\
  getTimezoneOffsetSeconds tz_none same same 50 (vtimezone_of c) day true = Some (obj, Ok v) /\ v <> o.
Ltac told_tac := split; [vm_compute; reflexivity|]; split; [vm_compute; reflexivity|]; split; [vm_compute; reflexivity|]; split; [vm_compute; reflexivity|discriminate].
(** A zone with one line: it has no change, and so the component is empty; its offset is 0. *)
Theorem C74_one_line_refuted : exists day t, mistold two_data ast z3 l3 e3 [] 1902 2030 day t (-14400) 0.
Proof.
  exists (local_at 1919 7 1 0), (-1593820800), (-5364662400), (-2145916800), [line_steps z3 l3 (-5364662400) e3]. eexists. eexists. eexists. eexists.
  split; [right; left; reflexivity|]. split; [reflexivity|]. split; [exact start|]. split; [reads_tac (-24837)|]. split; [lia|].
  split; [apply zs_line; [exact line3|constructor|exact Logic.I|reflexivity|constructor|reflexivity|apply zs_end]|].
  split; [apply (zo_here _ z3 l3); unfold e3; lia|]. split; [apply at_is; vm_compute; reflexivity|]. told_tac.
Qed.
Print Assumptions C74_one_line_refuted.
(** Times between minYear and the first change after it: the offset that was in force in minYear is not written, and 0 is told. *)
Theorem C74_early_refuted : exists day t, mistold two_data ny z1 l1 e1 [(z2, l2, e2); (z3, l3, e3)] 1902 2030 day t (-18000) 0.
Proof.
  exists (local_at 1910 7 1 0), (-1877817600), (-5364662400), (-2145916800). eexists. eexists. eexists. eexists. eexists.
  split; [left; reflexivity|]. split; [reflexivity|]. split; [exact start|]. split; [reads_tac (-24837)|]. split; [lia|].
  split; [exact ny_steps|].
  split; [apply zo_later; [unfold e1; lia|]; apply (zo_here e1 z2 l2); unfold e1, e2; lia|]. split; [apply at_is; vm_compute; reflexivity|]. told_tac.
Qed.
Print Assumptions C74_early_refuted.
