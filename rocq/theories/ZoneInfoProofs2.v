(** Proofs for C75: where the name of a zone is in its file. *)
From Coq Require Import Lia Sorting.Permutation.
From Verif Require Import PyBase PyProofs LineModel TextModel TextProofs PropertyModel ComponentModel ComponentProofs2 ComponentProofs3 MakeModel StatusProofs2 ZoneTzModel TzFileModel ZoneInfoModel ZoneFileProofs ZoneFileProofs3 ZoneFileProofs4 ZoneInfoProofs ZoneInfoSpec.

Lemma write_app l m t : write_all (l ++ m) = Some (Ok t) -> exists a b, write_all l = Some (Ok a) /\ write_all m = Some (Ok b) /\ t = a ++ b.
Proof.
  revert t. induction l as [|x l IH]; intros t H; [exists [], t; auto|]. cbn [app write_all] in *. destruct x as [[s|e]|]; try discriminate H. destruct (write_all (l ++ m)) as [[u|e]|] eqn:E; try discriminate H.
  injection H as <-. destruct (IH u eq_refl) as (a & b & -> & -> & ->). exists (s ++ a), b. rewrite app_assoc. auto.
Qed.
Lemma write_two l m a b : write_all l = Some (Ok a) -> write_all m = Some (Ok b) -> write_all (l ++ m) = Some (Ok (a ++ b)).
Proof.
  revert a. induction l as [|x l IH]; intros a H G; [injection H as <-; exact G|]. cbn [app write_all] in *. destruct x as [[s|e]|]; try discriminate H. destruct (write_all l) as [[u|e]|]; try discriminate H.
  injection H as <-. rewrite (IH u eq_refl G), app_assoc. reflexivity.
Qed.
Section WithFl.
Variable fl : floats.
Lemma short_line name v : (List.length (name ++ ":"%char :: v) < 75)%nat -> fold_line (S (List.length (name ++ ":"%char :: v))) (name ++ ":"%char :: v) = Some (Ok (name ++ ":"%char :: v ++ [CR; LF])).
Proof. intro L. unfold fold_line. apply Nat.ltb_lt in L. rewrite L. rewrite <- app_assoc. reflexivity. Qed.
Lemma tzid_line n : prop_line fl (text_prop 0 (lit "TZID") None n) = Ok (lit "TZID" ++ ":"%char :: escapeTextValue n).
Proof. reflexivity. Qed.
Lemma place_line n : prop_line fl (text_prop 0 (lit "X-LIC-LOCATION") None n) = Ok (lit "X-LIC-LOCATION" ++ ":"%char :: n).
Proof. reflexivity. Qed.
Lemma names_written n : short_name n -> write_all (map (prop_generate fl) (written_props VTIMEZONE (zone_list n))) =
  Some (Ok (lit "TZID:" ++ n ++ [CR; LF] ++ lit "X-LIC-LOCATION:" ++ n ++ [CR; LF])).
Proof.
  intros (_ & _ & F & L). change (written_props VTIMEZONE (zone_list n)) with [text_prop 0 (lit "TZID") None n; text_prop 0 (lit "X-LIC-LOCATION") None n].
  cbn [map]. unfold prop_generate. rewrite tzid_line, place_line. rewrite escape_same.
  - rewrite !short_line by (rewrite app_length; cbn [List.length]; cbn; lia). cbn [write_all]. rewrite app_nil_r. do 2 f_equal. change (lit "TZID:") with (lit "TZID" ++ [":"%char]). change (lit "X-LIC-LOCATION:") with (lit "X-LIC-LOCATION" ++ [":"%char]).
    rewrite <- !app_assoc. cbn [app]. rewrite <- !app_assoc. reflexivity.
  - intros (c & Hc & Hs). rewrite Forall_forall in F. destruct (F c Hc) as (A1 & A2 & A3 & A4 & A5). destruct Hs as [E|[E|[E|[E|[E|[]]]]]]; subst c; first [congruence | exact (A3 eq_refl)].
Qed.
(** The text around the names depends on the sub-components only. *)
Lemma text_shape prodid zn subs t : short_name (znName zn) -> generate fl (Comp VCALENDAR (newState []) (cal_list prodid) (map (comp_of rdate) [(zn, subs)])) = Some (Ok t) ->
  exists p m q, forall zn', short_name (znName zn') ->
  generate fl (Comp VCALENDAR (newState []) (cal_list prodid) (map (comp_of rdate) [(zn', subs)])) =
    Some (Ok (p ++ znName zn' ++ m ++ znName zn' ++ q)).
Proof.
  intros S H. cbn [map] in *.
  assert (Sh : forall z, sortedComponents (fun c => c) VCALENDAR [comp_of rdate (z, subs)] = [comp_of rdate (z, subs)]) by reflexivity.
  rewrite generate_eq, Sh in H. cbn [map] in H. rewrite app_comm_cons in H. apply write_app in H as (a & b & Ha & Hb & ->). cbn [app write_all] in Hb.
  destruct (generate fl (comp_of rdate (zn, subs))) as [[g|e]|] eqn:G; try discriminate Hb. unfold comp_of, zone_with in G. cbn [fst snd] in G. rewrite generate_eq in G.
  rewrite app_comm_cons in G. apply write_app in G as (a2 & b2 & Ha2 & Hb2 & ->).
  exists (a ++ (beginDelimiter VTIMEZONE ++ [CR; LF]) ++ lit "TZID:"), ([CR; LF] ++ lit "X-LIC-LOCATION:"), ([CR; LF] ++ b2 ++ endDelimiter VCALENDAR ++ [CR; LF]). intros z Sz.
  rewrite generate_eq, Sh. cbn [map]. rewrite app_comm_cons. erewrite write_two; [|exact Ha|].
  2:{ cbn [app write_all]. unfold comp_of, zone_with. cbn [fst snd]. rewrite generate_eq, app_comm_cons. erewrite write_two; [|cbn [write_all crlf]; rewrite (names_written _ Sz); reflexivity|exact Hb2]. cbn [write_all crlf]. reflexivity. }
  do 2 f_equal. rewrite app_nil_r. rewrite <- !app_assoc. reflexivity.
Qed.
End WithFl.
