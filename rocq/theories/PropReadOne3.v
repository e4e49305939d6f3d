(** C94, continued: from the tz source, through the directory and the database, to the offset. *)
From Verif Require Import TzDbModel TzDbSpec ReadOneModel ReadOneSpec PropReadOne2.
From Verif Require Import ZoneInfoModel ZoneInfoSpec.
From Coq Require Import Lia ZifyBool Sorting.Permutation Sorting.Sorted.
From Verif Require Import PyBase PyProofs CalSpec CalModel DateTimeSpec DateTimeModel PeriodSpec RecurModel RecurSpec RecurByPartsSpec RecurSetModel RecurUnionSpec VTimezoneModel VTimezoneSpec PropertySpec StatusProofs2 ComponentModel ComponentProofs6
  ZonalModel ZonalSpec ZonalProofs3 ZoneProofs2 TzFileModel ZoneFileModel ZoneFileProofs4 ZoneFileProofs5 ZoneTzProofs3 ZoneTzProofs9 PropTimezone PropZone PropZoneTz PropTzFile.
From Verif Require Import ZoneFileSpec ZoneSpec ZoneTzSpec PropComponent PropZoneTz.
From Verif Require Import PropZoneFile.

(** The zone that the database answers with tells the offset that the lines of the tz source define (the premises are those of C74 and of C94_database). *)
Theorem C94_offsets : forall tzo ctx fl uuids prodid d minYear maxYear aliases want zones dir (final : bool) order torder top zn subs maxN lmt cs m s z ln e line lines first l,
  utf8 prodid -> asks want d (map fst zones) ->
  Forall (fun p => zone_vtimezone tzo (fst p) (tzRules d) minYear maxYear = Ok (snd p) /\ zone_name (znName (fst p)) /\ Forall sub_fine (snd p)) zones ->
  Forall (fun p => path_name (znName (fst p))) zones -> Forall TzDbSpec.name dir -> ~ In "000"%char (abs_path dir) -> final = true \/ dir <> [] ->
  In (zn, subs) zones -> permutes order -> shuffles torder -> clock_ordered tzo local_time ->
  1901 <= maxYear -> new_year maxYear maxN -> top < maxYear -> top < 2099 ->
  znRules zn = map text_of ((z, ln, e) :: line :: lines) -> new_year minYear m -> new_year 1800 s ->
  zone_steps (tzRules d) maxYear s (lnStd ln) (lnStd ln) ((z, ln, e) :: line :: lines) (first :: l) -> spaced s (lnStd ln) (List.concat l) ->
  zone_expand tzo zn (tzRules d) minYear maxYear = Ok (lmt ++ cs) -> writable maxYear lmt cs -> utc_order cs -> Forall tellable cs ->
  exists files, generateZoneinfoFiles tzo fl prodid d minYear maxYear false aliases want = Some (Ok (files, None)) /\
  forall ops, forallb plain_op ops = true ->
  let reads := db_files tzo ctx fl uuids (directory dir files) in let id := fun c => sID (cState c) in
  let db := fst (db_run comp id reads (setPath comp (db_init comp) (if final then abs_path dir ++ lit "/" else abs_path dir)) ops) in
  exists c, snd (getTimezone comp id reads db (Some (znName zn))) = Ok (Some c) /\
  forall obj day t o, asked tzo order torder top (map element_of (cSubs c)) obj -> asking cs top day t -> zone_offset e (line :: lines) t o -> m <= t ->
  exists N, forall fuel, (N <= fuel)%nat -> exists obj', getTimezoneOffsetSeconds tzo order torder fuel obj day true = Some (obj', Ok o).
Proof.
  intros tzo ctx fl uuids prodid d minYear maxYear aliases want zones dir final order torder top zn subs maxN lmt cs m s z ln e line lines first l U A F Pn Nd Nul Fin I P1 P2 CO HM NY T1 T2 Z M S St Sp Ex Wr Uo Tl.
  destruct (C94_database tzo ctx fl uuids prodid d minYear maxYear aliases want zones dir final U A F Pn Nd Nul Fin) as (files & G & H). exists files. split; [exact G|]. intros ops Pl reads id db.
  destruct (H ops Pl) as [H1 _]. destruct (H1 _ I) as (c & Ec & (_ & _ & _ & _ & Sh) & _). cbn [fst snd] in *. exists c. split; [exact Ec|].
  destruct (C69_zone tzo order torder top zn (tzRules d) minYear maxYear maxN lmt cs m s z ln e line lines first l P1 P2 CO HM NY T1 T2 Z M S St Sp Ex Wr Uo Tl) as (subs' & Ev & H2).
  rewrite Forall_forall in F. destruct (F _ I) as (Ev' & _). cbn [fst snd] in Ev'. rewrite Ev' in Ev. injection Ev as <-.
  assert (Em : map element_of (cSubs c) = map (fun s => elem_of (read_back s)) subs).
  { clear - Sh. induction Sh as [|x y l l' (_ & H & _) _ IH]; [reflexivity|]. cbn [map]. rewrite H, IH. reflexivity. }
  rewrite Em. exact H2.
Qed.
Print Assumptions C94_offsets.

(** New York in July 1919, after the calls of the example for C94_database. *)
Example C94_offsets_ex : exists c, snd (getTimezone comp (fun c => sID (cState c)) two_reads two_db (Some (lit "New_York"))) = Ok (Some c) /\
  exists N, forall fuel, (N <= fuel)%nat -> exists obj', getTimezoneOffsetSeconds tz_none same same fuel (vtimezone_of c) (local_at 1919 7 1 0) true = Some (obj', Ok (-14400)).
Proof.
  assert (M : new_year 1902 (-2145916800)) by reads_tac (-24837).
  assert (Zo : zone_offset e1 [(z2, l2, e2); (z3, l3, e3)] (-1593820800) (-14400)) by (apply (zo_here e1 z2 l2); unfold e1, e2; lia).
  destruct C94_database_ex as (Pn & Nd & Nul & Pl & _).
  destruct (C94_offsets tz_none default_ctx fl0 uuids0 prodid two_data 1902 2030 None [] both tzdir true same same 2020 ny ny_subs 1893456000 [] ny_changes (-2145916800) (-5364662400) z1 l1 e1 (z2, l2, e2) [(z3, l3, e3)] _ _
    ltac:(apply ascii_text; reflexivity) both_asked both_fine Pn Nd Nul ltac:(left; reflexivity) ltac:(right; left; reflexivity) same_keeps same_shuffles no_offsets
    ltac:(lia) year_2030 ltac:(lia) ltac:(lia) eq_refl M start ny_steps ltac:(repeat constructor; cbn; lia) ny_expanded ny_writable (proj1 ny_told) (proj2 ny_told)) as (files & G & H).
  assert (E : files = two_files) by (unfold two_files; rewrite G; reflexivity). subst files. destruct (H two_ops Pl) as (c & Ec & Hc). exists c. split; [exact Ec|].
  apply (Hc (vtimezone_of c) (local_at 1919 7 1 0) (-1593820800) (-14400)); [apply asked_new| |exact Zo|lia].
  apply asking_check; try (vm_compute; reflexivity); cbn; lia.
Qed.
