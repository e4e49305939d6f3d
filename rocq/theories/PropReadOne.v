(** C94: Calendar.parseComponent, beside parse(). *)
From Coq Require Import Lia.
From Verif Require Import PyBase PyProofs ParserCtx PropertySpec ComponentModel ComponentSpec ReadOneModel ReadOneSpec ReadOneProofs ReadOneProofs2 ComponentProofs5.
From Verif Require Import PropComponent.

(** Whatever happens, the calendar keeps its own properties and its components, and others are added after them; the result is the first that was added. *)
Theorem C94_kept : forall tzo ctx fl uuids cal data, exists new, fst (parseComponent tzo ctx fl uuids cal data) = with_subs cal (cSubs cal ++ new) /\
  forall r zs, snd (parseComponent tzo ctx fl uuids cal data) = Ok (r, zs) -> new <> [] -> r = hd_error new.
Proof. exact kept. Qed.
Print Assumptions C94_kept.

(** Everything that parse() accepts is accepted. *)
Theorem C94_accepts : forall tzo ctx fl uuids cal data x, cKind cal = VCALENDAR -> parse tzo ctx fl uuids cal data = Ok x ->
  exists r, snd (parseComponent tzo ctx fl uuids cal data) = Ok r.
Proof. exact accepts. Qed.
Print Assumptions C94_accepts.

(** If there is one calendar in the stream, then the components are those that parse() adds. *)
Theorem C94_same : forall tzo ctx fl uuids cal data cal', cKind cal = VCALENDAR -> parse tzo ctx fl uuids cal data = Ok (true, cal') ->
  (count_occ (list_eq_dec Ascii.ascii_dec) (unfolded data) closing <= 1)%nat -> fst (parseComponent tzo ctx fl uuids cal data) = with_subs cal (cSubs cal').
Proof. exact same. Qed.
Print Assumptions C94_same.

(** What follows the end of the calendar is not looked at. *)
Theorem C94_rest : forall tzo ctx fl uuids cal data data' a b b', cKind cal = VCALENDAR -> unfolded data = a ++ closing :: b -> unfolded data' = a ++ closing :: b' ->
  parseComponent tzo ctx fl uuids cal data = parseComponent tzo ctx fl uuids cal data'.
Proof. exact rest. Qed.
Print Assumptions C94_rest.

(** If a VTIMEZONE was added, all VTIMEZONEs of the calendar are merged into the database; otherwise all or none. *)
Theorem C94_merged : forall tzo ctx fl uuids cal data r zs, snd (parseComponent tzo ctx fl uuids cal data) = Ok (r, zs) ->
  let after := fst (parseComponent tzo ctx fl uuids cal data) in
  (zs = [] \/ zs = filter is_zone (cSubs after)) /\
  (forall new, cSubs after = cSubs cal ++ new -> existsb is_zone new = true -> zs = filter is_zone (cSubs after)).
Proof. exact merged_zones. Qed.
Print Assumptions C94_merged.

(** A calendar that was written: its components are read into an empty calendar as they are by parseText(). *)
Theorem C94_written : forall tzo ctx fl uuids c, calendar_ok ctx fl c -> exists data cal r zs, generate fl c = Some (Ok data) /\ parseTextData tzo ctx fl uuids data = Ok (Some cal) /\
  parseComponent tzo ctx fl uuids empty_calendar data = (with_subs empty_calendar (cSubs cal), Ok (r, zs)) /\ (cSubs cal <> [] -> r = hd_error (cSubs cal)).
Proof.
  intros tzo ctx fl uuids c O. destruct (calendar_round tzo ctx fl uuids c O) as (data & cal & G & R & _). destruct (written_read tzo ctx fl uuids c data cal O G R) as (r & zs & E & H).
  exists data, cal, r, zs. auto.
Qed.
Print Assumptions C94_written.

(** A stream that begins with something else than a calendar is refused. *)
Theorem C94_refused : forall tzo ctx fl uuids cal data n l rest, cKind cal = VCALENDAR -> unfolded data = repeat [] n ++ l :: rest -> l <> [] -> l <> lit "BEGIN:VCALENDAR" ->
  parseComponent tzo ctx fl uuids cal data = (cal, Raise InvalidData).
Proof. exact refused. Qed.
Print Assumptions C94_refused.

(** A property of a component that cannot be read: its exception is raised. *)
Theorem C94_unreadable : forall tzo ctx fl uuids cal data top n ps l rest e, cKind cal = VCALENDAR ->
  unfolded data = lit "BEGIN:VCALENDAR" :: top ++ (lit "BEGIN:" ++ n) :: ps ++ l :: rest -> Forall plain_text top ->
  Forall (fun p => plain_text p /\ exists q, prop_parse ctx fl p = Ok q) ps -> plain_text l -> prop_parse ctx fl l = Raise e ->
  parseComponent tzo ctx fl uuids cal data = (cal, Raise e).
Proof. exact unreadable. Qed.
Print Assumptions C94_unreadable.

(** ** Examples *)
Definition read_one (cal : comp) (l : list string) := parseComponent tz_none default_ctx fl0 uuids0 cal (crlf_lines l).
Definition kinds (c : comp) : list bytes := map (fun d => getType (cKind d)) (cSubs c).
Definition two_events := ["BEGIN:VCALENDAR"; "VERSION:2.0"; "BEGIN:VEVENT"; "UID:1"; "BEGIN:VALARM"; "ACTION:AUDIO"; "TRIGGER:PT0S"; "END:VALARM"; "END:VEVENT"; "BEGIN:VTODO"; "UID:2"; "END:VTODO"; "END:VCALENDAR"]%string.
Definition paris := ["BEGIN:VCALENDAR"; "VERSION:2.0"; "BEGIN:VTIMEZONE"; "TZID:Paris"; "END:VTIMEZONE"; "END:VCALENDAR"]%string.
Definition with_paris : comp := fst (read_one empty_calendar paris).
Definition uid_of (c : comp) : bytes := sUID (cState c).
Example C94_kept_ex : kinds with_paris = [lit "VTIMEZONE"] /\ kinds (fst (read_one with_paris two_events)) = [lit "VTIMEZONE"; lit "VEVENT"; lit "VTODO"] /\
  match snd (read_one with_paris two_events) with Ok (Some c, zs) => uid_of c = lit "1" /\ zs = [] | _ => False end.
Proof. split; [vm_compute; reflexivity|]. split; [vm_compute; reflexivity|]. vm_compute. auto. Qed.
Example C94_accepts_ex : exists cal, parse tz_none default_ctx fl0 uuids0 with_paris (crlf_lines two_events) = Ok (true, cal) /\ kinds cal = [lit "VTIMEZONE"; lit "VEVENT"; lit "VTODO"] /\
  count_occ (list_eq_dec Ascii.ascii_dec) (unfolded (crlf_lines two_events)) closing = 1%nat.
Proof. eexists. split; [vm_compute; reflexivity|]. split; vm_compute; reflexivity. Qed.
(** With two calendars in the stream, parse() adds the components of both. *)
Example C94_same_ex : kinds (fst (read_one empty_calendar (two_events ++ paris))) = [lit "VEVENT"; lit "VTODO"] /\
  match parse tz_none default_ctx fl0 uuids0 empty_calendar (crlf_lines (two_events ++ paris)) with Ok (_, cal) => kinds cal = [lit "VEVENT"; lit "VTODO"; lit "VTIMEZONE"] | _ => False end.
Proof. split; vm_compute; reflexivity. Qed.
Example C94_rest_ex : exists a, unfolded (crlf_lines (two_events ++ ["Regards,"%string])) = a ++ closing :: [lit "Regards,"] /\ unfolded (crlf_lines two_events) = a ++ [closing] /\
  parse tz_none default_ctx fl0 uuids0 empty_calendar (crlf_lines (two_events ++ ["Regards,"%string])) = Raise InvalidData /\
  kinds (fst (read_one empty_calendar (two_events ++ ["Regards,"%string]))) = [lit "VEVENT"; lit "VTODO"].
Proof.
  exists (removelast (unfolded (crlf_lines two_events))). split; [vm_compute; reflexivity|]. split; [vm_compute; reflexivity|]. split; vm_compute; reflexivity.
Qed.
Example C94_merged_ex : match snd (read_one with_paris paris) with Ok (Some c, zs) => map (fun z => sID (cState z)) zs = [lit "Paris"; lit "Paris"] | _ => False end.
Proof. vm_compute. reflexivity. Qed.
Example C94_written_ex : calendar_ok default_ctx fl0 cal1 /\ generate fl0 cal1 = Some (Ok text1) /\
  kinds (fst (parseComponent tz_none default_ctx fl0 uuids0 empty_calendar text1)) = map (fun d => getType (cKind d)) (sortedComponents (fun c => c) VCALENDAR (cSubs cal1)) /\ (1 < List.length (cSubs cal1))%nat.
Proof. split; [exact cal1_ok|]. split; [vm_compute; reflexivity|]. split; [vm_compute; reflexivity|]. cbn; lia. Qed.
Example C94_refused_ex : unfolded (crlf_lines [""; "BEGIN:VCARD"; "END:VCARD"]%string) = repeat [] 1 ++ [lit "BEGIN:VCARD"; lit "END:VCARD"] /\
  read_one with_paris [""; "BEGIN:VCARD"; "END:VCARD"]%string = (with_paris, Raise InvalidData).
Proof. split; vm_compute; reflexivity. Qed.
Example C94_unreadable_ex : exists e, prop_parse default_ctx fl0 (lit "DTSTART:x") = Raise e /\ plain_text (lit "DTSTART:x") /\ Forall plain_text [lit "VERSION:2.0"; lit "DTSTART:y"] /\
  (exists q, prop_parse default_ctx fl0 (lit "UID:1") = Ok q) /\
  read_one with_paris ["BEGIN:VCALENDAR"; "VERSION:2.0"; "DTSTART:y"; "BEGIN:VEVENT"; "UID:1"; "DTSTART:x"; "END:VEVENT"; "END:VCALENDAR"]%string = (with_paris, Raise e).
Proof.
  eexists. split; [vm_compute; reflexivity|]. split; [split; [discriminate|split; reflexivity]|]. split; [constructor; [|constructor; [|constructor]]; (split; [discriminate|split; reflexivity])|].
  split; [eexists; vm_compute; reflexivity|]. vm_compute. reflexivity.
Qed.

(** ** What parseComponent does not do *)
(** It does not check what parse() checks: a calendar that is cut off, one without VERSION, one with a bad VERSION, one with a property that cannot be read. *)
Definition cut := ["BEGIN:VCALENDAR"; "VERSION:2.0"; "BEGIN:VEVENT"; "UID:1"]%string.
Definition bare := ["BEGIN:VCALENDAR"; "BEGIN:VEVENT"; "UID:1"; "END:VEVENT"; "END:VCALENDAR"]%string.
Definition version1 := ["BEGIN:VCALENDAR"; "VERSION:1.0"; "BEGIN:VEVENT"; "UID:1"; "END:VEVENT"; "END:VCALENDAR"]%string.
Definition noise := ["BEGIN:VCALENDAR"; "VERSION:2.0"; "DTSTART:x"; "BEGIN:VEVENT"; "UID:1"; "END:VEVENT"; "END:VCALENDAR"]%string.
Theorem C94_lenient_refuted : exists cal, cKind cal = VCALENDAR /\ forall l, In l [cut; bare; version1; noise] ->
  (exists e, parse tz_none default_ctx fl0 uuids0 cal (crlf_lines l) = Raise e) /\ exists c zs, snd (read_one cal l) = Ok (Some c, zs).
Proof.
  exists empty_calendar. split; [reflexivity|].
  intros l [<- |[<- |[<- |[<- |[]]]]]; (split; [eexists; vm_compute; reflexivity|eexists; eexists; vm_compute; reflexivity]).
Qed.
Print Assumptions C94_lenient_refuted.
(** The component that is returned for the calendar that is cut off is in no calendar. *)
Example C94_cut_ex : fst (read_one empty_calendar cut) = empty_calendar /\ match snd (read_one empty_calendar cut) with Ok (Some c, _) => cKind c = VEVENT /\ uid_of c = [] | _ => False end.
Proof. split; vm_compute; auto. Qed.
(** It is not all or nothing: after an exception, what came before it stays in the calendar. *)
Definition broken := ["BEGIN:VCALENDAR"; "VERSION:2.0"; "BEGIN:VEVENT"; "UID:1"; "END:VEVENT"; "BEGIN:VTODO"; "DTSTART:x"; "END:VTODO"; "END:VCALENDAR"]%string.
Theorem C94_atomic_refuted : exists cal l e, snd (read_one cal l) = Raise e /\ fst (read_one cal l) <> cal /\ kinds (fst (read_one cal l)) = [lit "VEVENT"].
Proof. exists empty_calendar, broken. eexists. split; [vm_compute; reflexivity|]. split; [vm_compute; discriminate|]. vm_compute. reflexivity. Qed.
Print Assumptions C94_atomic_refuted.
