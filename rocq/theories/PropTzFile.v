(** Reading of tz source files (C73). *)
From Coq Require Import Lia.
From Verif Require Import PyBase PyProofs CalSpec ZonalModel ZonalSpec ZonalProofs3 ZoneSpec ZoneProofs2 TzFileModel TzFileSpec TzFileProofs TzFileProofs2 PropComponent PropZonal PropZone.
From Verif Require Import TzFileSpec.

(** C73: after parse() of a file, the rules, zones and links are those of before and those that its lines say: rules are added to those of
    their name, later zones and links replace those of the same name. *)
Theorem C73_read : forall d lines fs, says lines fs -> Forall one_line lines -> exists d', tz_parse d (text lines) = Ok d' /\ learnt d fs d'.
Proof. intros d lines fs S O. eexists. split; [rewrite (parse_run _ _ O); apply (says_run _ _ S O)|apply facts_learnt]. Qed.
Print Assumptions C73_read.

(** In particular a file of the texts made by generate(), in any order. *)
Theorem C73_written : forall d fs, Forall fact_ok fs ->
  exists d', tz_parse d (List.concat (map (fun f => written f ++ [LF]) fs)) = Ok d' /\ learnt d fs d'.
Proof. intros d fs F. destruct (facts_said fs F) as (l & E & O & S & _). rewrite <- E. apply C73_read; assumption. Qed.
Print Assumptions C73_written.

(** Two files read one after the other are like one file, exceptions included, if the second does not begin in the middle of a zone. *)
Theorem C73_files : forall d a b, Forall one_line a -> Forall one_line b -> no_more b ->
  tz_parse d (text a ++ text b) = rbind (tz_parse d (text a)) (fun d' => tz_parse d' (text b)).
Proof.
  intros d a b A B N. rewrite <- text_app, parse_run by (apply Forall_app; split; assumption). rewrite (parse_run _ _ A), (run_app _ _ _ N).
  destruct (run d a) as [d'|]; [|reflexivity]. cbn. symmetry. apply parse_run, B.
Qed.
Print Assumptions C73_files.

(** A line that is none of those in the manual page is an error, wherever it is. *)
Theorem C73_stray : forall d lines fs s more, says lines fs -> stray s -> ~ indented s -> Forall one_line (lines ++ s :: more) ->
  tz_parse d (text (lines ++ s :: more)) = Raise AssertionError.
Proof.
  intros d lines fs s more S T I O. rewrite (parse_run _ _ O), run_app by (apply more_line; [exact I|apply T]).
  apply Forall_app in O as (O & _). rewrite (says_run _ _ S O). apply stray_run, T.
Qed.
Print Assumptions C73_stray.

(** So is a link without two names. *)
Theorem C73_short_link : forall d lines fs s l more, says lines fs -> begins (lit "Link") s -> Forall (fun c => is_space c = true -> blank c) s -> laid_out l s -> (List.length l <= 2)%nat ->
  Forall one_line (lines ++ s :: more) -> tz_parse d (text (lines ++ s :: more)) = Raise IndexError.
Proof.
  intros d lines fs s l more S (r & ->) B L N O. rewrite (parse_run _ _ O), run_app by (apply more_line; [intros (c & q & E & [Q|Q]); rewrite Q in E; discriminate E|intros [E|(q & E)]; discriminate E]).
  apply Forall_app in O as (O & _). rewrite (says_run _ _ S O). cbn [rbind]. rewrite run_cons.
  change (skipped (lit "Link" ++ r)) with false. change (startswith (lit "Link" ++ r) (lit "Rule")) with false. change (startswith (lit "Link" ++ r) (lit "Zone")) with false. replace (startswith (lit "Link" ++ r) (lit "Link")) with true by (symmetry; apply starts_begins; exists r; reflexivity).
  cbv iota. unfold parseLink. rewrite (words_split _ B), (laid_out_fields _ _ L).
  destruct l as [|? [|? [|? ?]]]; [reflexivity|reflexivity|reflexivity|cbn in N; lia].
Qed.
Print Assumptions C73_short_link.

(** expandZone() of a zone of the file, by its name: the steps of the zone by the rules in the file, as in C68. *)
Theorem C73_expand : forall tzo lines fs n zn rules minYear maxYear m s z ln e line rest first l,
  says lines fs -> Forall one_line lines -> last_of None (zones_said n fs) = Some zn ->
  Forall (fun z => known (zRule z) rules = more_rules None (rules_said (zRule z) fs)) (znRules zn) ->
  znRules zn = map text_of ((z, ln, e) :: line :: rest) -> new_year minYear m -> new_year 1800 s ->
  zone_steps rules maxYear s (lnStd ln) (lnStd ln) ((z, ln, e) :: line :: rest) (first :: l) -> spaced s (lnStd ln) (List.concat l) ->
  exists d cs, tz_parse no_data (text lines) = Ok d /\ expandZone tzo d n minYear maxYear = Ok (map (fun c => (chAt c, chFrom c, chTo c)) cs) /\
    Forall2 shows (filter (fun p => m <=? stAt (snd p)) (with_from (lnStd ln) (List.concat l))) cs.
Proof.
  intros tzo lines fs n zn rules minYear maxYear m s z ln e line rest first l S O Z R ZR M N ZS SP.
  destruct (C73_read no_data lines fs S O) as (d & E & L).
  destruct (C68_expand tzo zn rules minYear maxYear m s z ln e line rest first l ZR M N ZS SP) as (cs & Ec & H).
  exists d, cs. split; [exact E|]. split; [|exact H].
  rewrite expandZone_known. destruct (L n) as (_ & Q & _). cbn in Q. rewrite Q, Z, (expand_same tzo zn (tzRules d) rules), Ec; [reflexivity|].
  revert R. apply Forall_impl. intros w R. rewrite R. destruct (L (zRule w)) as (K & _). exact K.
Qed.
Print Assumptions C73_expand.

(** A zone that no file has is a KeyError. *)
Theorem C73_unknown : forall tzo lines fs d n a b, says lines fs -> Forall one_line lines -> zones_said n fs = [] ->
  tz_parse no_data (text lines) = Ok d -> expandZone tzo d n a b = Raise KeyError.
Proof.
  intros tzo lines fs d n a b S O Z E. destruct (C73_read no_data lines fs S O) as (d' & E' & L). rewrite E in E'. injection E' as <-.
  rewrite expandZone_known. destruct (L n) as (_ & Q & _). rewrite Q, Z. reflexivity.
Qed.
Print Assumptions C73_unknown.

(** The order of the lines does not matter to it, except among the rules of one name and the zones of one name. *)
Theorem C73_order : forall tzo a b fs gs d e n zn minYear maxYear, says a fs -> says b gs -> Forall one_line a -> Forall one_line b ->
  tz_parse no_data (text a) = Ok d -> tz_parse no_data (text b) = Ok e ->
  last_of None (zones_said n fs) = Some zn -> last_of None (zones_said n gs) = Some zn ->
  Forall (fun z => rules_said (zRule z) fs = rules_said (zRule z) gs) (znRules zn) ->
  expandZone tzo d n minYear maxYear = expandZone tzo e n minYear maxYear.
Proof.
  intros tzo a b fs gs d e n zn minYear maxYear Sa Sb Oa Ob Ea Eb Za Zb R.
  destruct (C73_read no_data a fs Sa Oa) as (d' & Ea' & La). rewrite Ea in Ea'. injection Ea' as <-.
  destruct (C73_read no_data b gs Sb Ob) as (e' & Eb' & Lb). rewrite Eb in Eb'. injection Eb' as <-.
  apply (expandZone_same tzo fs gs d e n zn); assumption.
Qed.
Print Assumptions C73_order.

(** ** Examples: a file with New York *)
Definition tab (l : list string) : bytes := join_char TAB (map lit l).
Definition ny_file : list bytes :=
  [lit "# From the tz database"; []; tab ["Rule"; "US"; "1918"; "1919"; "-"; "Mar"; "lastSun"; "2:00"; "1:00"; "D"; "# summer"]%string;
   tab ["Zone"; "New_York"; "-4:56:02"; "-"; "LMT"; "1883"; "Nov"; "18"; "12:03:58"]%string;
   tab [""; ""; ""; "-5:00"; "US"; "E%sT"; "1920"]%string; lit "# then"; tab [""; "#"; "as"; "before"]%string; tab [""; ""; ""; "-4:00"; "-"; "AST"]%string;
   []; tab ["Rule"; "US"; "1918"; "1919"; "-"; "Oct"; "lastSun"; "2:00"; "0"; "S"]%string; [SPC; TAB]; lit "Link  New_York US/Eastern"].
Definition ny_facts : list fact := [FRule us_on; FZone ny; FRule us_off; FLink (lit "US/Eastern") (lit "New_York")].
Ltac f_tac := apply field_ok; [discriminate|reflexivity|reflexivity|reflexivity].
Ltac laid_tac := match goal with |- laid_out ?a ?b => let a' := eval vm_compute in a in let b' := eval vm_compute in b in change (laid_out a' b') end; repeat first
  [ apply lo_end; constructor
  | apply lo_blank; [first [left; reflexivity | right; reflexivity]|]
  | match goal with |- laid_out (?f :: ?l) ?s => first
      [ apply (lo_last f); f_tac
      | (let r := eval vm_compute in (skipn (S (List.length f)) s) in let c := eval vm_compute in (nth (List.length f) s SPC) in
        change (laid_out (f :: l) (f ++ c :: r)); apply lo_field; [f_tac|first [left; reflexivity | right; reflexivity]|]) ] end ].
Ltac begins_tac := match goal with |- begins ?k ?s => let r := eval vm_compute in (skipn (List.length k) s) in exists r; reflexivity end.
Lemma ny_lines_ok : Forall one_line ny_file.
Proof. repeat (constructor; [apply cin_not_in; reflexivity|]). constructor. Qed.
Lemma ny_says : says ny_file ny_facts.
Proof.
  unfold ny_file, ny_facts. apply says_remark; [left; right; eexists; reflexivity|]. apply says_remark; [left; left; reflexivity|].
  apply says_rule; [split; [begins_tac|exists [lit "#"; lit "summer"]; laid_tac]|].
  apply (says_zone (lit "New_York") z1 _ [z2; z3] [_; _; _; _; _] _ [_; _]).
  - split; [begins_tac|]. exists [lit "1883"; lit "Nov"; lit "18"; lit "12:03:58"]. split; [laid_tac|reflexivity].
  - apply rest_next; [split; [eexists; eexists; split; [reflexivity|right; reflexivity]|]; split; [discriminate|]; exists [lit "1920"]; split; [laid_tac|reflexivity]|].
    apply rest_remark; [left; right; eexists; reflexivity|].
    apply rest_remark; [right; split; [eexists; eexists; split; [reflexivity|right; reflexivity]|]; exists (lit "as"), (lit "before"), []; laid_tac|].
    apply rest_next; [split; [eexists; eexists; split; [reflexivity|right; reflexivity]|]; split; [discriminate|]; exists []; split; [laid_tac|reflexivity]|].
    apply rest_remark; [left; left; reflexivity|]. apply rest_end.
  - apply more_line; [intros (c & r & E & [B|B]); rewrite B in E; discriminate E|intros [E|(r & E)]; discriminate E].
  - apply says_rule; [split; [begins_tac|exists []; laid_tac]|].
    apply says_remark; [right; repeat constructor|]. apply says_link; [|apply says_end].
    split; [begins_tac|]. split; [|exists []; laid_tac].
    repeat (constructor; [intro Q; first [discriminate Q | left; reflexivity]|]). constructor.
Qed.
Definition ny_data : tzdata := mkTzdata [(lit "US", [us_on; us_off])] [(lit "New_York", ny)] [(lit "US/Eastern", lit "New_York")].
Example C73_read_ex : says ny_file ny_facts /\ Forall one_line ny_file /\ tz_parse no_data (text ny_file) = Ok ny_data.
Proof. split; [exact ny_says|]. split; [exact ny_lines_ok|]. vm_compute. reflexivity. Qed.
Lemma us_on_ok : fact_ok (FRule us_on). Proof. repeat (constructor; [f_tac|]). constructor. Qed.
Lemma ny_ok : fact_ok (FZone ny).
Proof.
  split; [f_tac|]. split; [discriminate|]. split; [|repeat (constructor; [discriminate|]); constructor].
  constructor; [split; [repeat (constructor; [f_tac|]); constructor|exists [lit "1883"; lit "Nov"; lit "18"; lit "12:03:58"]; split; [discriminate|]; split; [repeat (constructor; [f_tac|]); constructor|reflexivity]]|].
  constructor; [split; [repeat (constructor; [f_tac|]); constructor|exists [lit "1920"]; split; [discriminate|]; split; [repeat (constructor; [f_tac|]); constructor|reflexivity]]|].
  constructor; [split; [repeat (constructor; [f_tac|]); constructor|exact I]|constructor].
Qed.
Definition two_links : list fact := [FLink (lit "EST") (lit "Bogota"); FZone ny; FRule us_on; FLink (lit "EST") (lit "New_York")].
Lemma two_links_ok : Forall fact_ok two_links.
Proof.
  constructor; [split; (split; [discriminate|repeat constructor])|]. constructor; [exact ny_ok|]. constructor; [exact us_on_ok|].
  constructor; [split; (split; [discriminate|repeat constructor])|constructor].
Qed.
Example C73_written_ex : Forall fact_ok two_links /\
  tz_parse no_data (List.concat (map (fun f => written f ++ [LF]) two_links)) =
  Ok (mkTzdata [(lit "US", [us_on])] [(lit "New_York", ny)] [(lit "EST", lit "New_York")]).
Proof. split; [exact two_links_ok|]. vm_compute. reflexivity. Qed.
Example C73_files_ex : no_more [tab ["Rule"; "US"; "1918"; "1919"; "-"; "Oct"; "lastSun"; "2:00"; "0"; "S"]%string] /\
  tz_parse no_data (text (firstn 9 ny_file) ++ text (skipn 9 ny_file)) =
  rbind (tz_parse no_data (text (firstn 9 ny_file))) (fun d => tz_parse d (text (skipn 9 ny_file))).
Proof. split; [apply more_line; [intros (c & r & E & [B|B]); rewrite B in E; discriminate E|intros [E|(r & E)]; discriminate E]|]. vm_compute. reflexivity. Qed.
(** Leap second lines are not known to it. *)
Example C73_stray_ex : says ny_file ny_facts /\ stray (lit "Leap 2016 Dec 31 23:59:60 + S") /\ ~ indented (lit "Leap 2016 Dec 31 23:59:60 + S") /\
  tz_parse no_data (text (ny_file ++ [lit "Leap 2016 Dec 31 23:59:60 + S"])) = Raise AssertionError.
Proof.
  split; [exact ny_says|]. split; [|split].
  - split; [intros [E|(r & E)]; discriminate E|]. split; [intro E; inversion E as [|? ? Q]; discriminate Q|].
    split; [|split]; intros (r & E); discriminate E.
  - intros (c & r & E & [B|B]); rewrite B in E; discriminate E.
  - vm_compute. reflexivity.
Qed.
Example C73_short_link_ex : begins (lit "Link") (lit "Link  New_York") /\ laid_out [lit "Link"; lit "New_York"] (lit "Link  New_York") /\
  Forall (fun c => is_space c = true -> blank c) (lit "Link  New_York") /\ tz_parse no_data (text (ny_file ++ [lit "Link  New_York"])) = Raise IndexError.
Proof.
  split; [begins_tac|]. split; [laid_tac|]. split; [|vm_compute; reflexivity]. repeat (constructor; [intro Q; first [discriminate Q | left; reflexivity]|]). constructor.
Qed.
Example C73_expand_ex : last_of None (zones_said (lit "New_York") ny_facts) = Some ny /\
  Forall (fun z => known (zRule z) us_rules = more_rules None (rules_said (zRule z) ny_facts)) (znRules ny) /\
  exists d cs, tz_parse no_data (text ny_file) = Ok d /\ expandZone tz_none d (lit "New_York") 1800 2030 = Ok (map (fun c => (chAt c, chFrom c, chTo c)) cs) /\
    List.length cs = 6%nat.
Proof.
  split; [reflexivity|]. split; [repeat constructor|]. exists ny_data.
  assert (X : exists cs, zone_expand tz_none ny us_rules 1800 2030 = Ok cs /\ List.length cs = 6%nat) by (eexists; split; [vm_compute; reflexivity|reflexivity]).
  destruct X as (cs & E & N). exists cs. split; [vm_compute; reflexivity|]. split; [|exact N].
  rewrite expandZone_known. change (known (lit "New_York") (tzZones ny_data)) with (Some ny). cbv iota. change (tzRules ny_data) with us_rules. rewrite E. reflexivity.
Qed.
Example C73_unknown_ex : zones_said (lit "US/Eastern") ny_facts = [] /\ expandZone tz_none ny_data (lit "US/Eastern") 1800 2030 = Raise KeyError.
Proof. split; reflexivity. Qed.
(** The zone after all the rules. *)
Example C73_order_ex : exists b d, b = [FLink (lit "US/Eastern") (lit "New_York"); FRule us_on; FRule us_off; FZone ny] /\ Forall fact_ok b /\
  tz_parse no_data (List.concat (map (fun f => written f ++ [LF]) b)) = Ok d /\ tzRules d = us_rules /\
  expandZone tz_none d (lit "New_York") 1800 2030 = expandZone tz_none ny_data (lit "New_York") 1800 2030.
Proof.
  eexists; eexists. split; [reflexivity|]. split.
  - constructor; [split; (split; [discriminate|repeat constructor])|]. constructor; [exact us_on_ok|]. constructor; [repeat (constructor; [f_tac|]); constructor|].
    constructor; [exact ny_ok|constructor].
  - split; [vm_compute; reflexivity|]. split; reflexivity.
Qed.

(** ** What it does not read as the manual page says *)
(** The last line loses its last character if no line feed ends it. *)
Theorem C73_last_line_refuted : exists d, tz_parse no_data (text [lit "Link A B"] ++ lit "Link C Denver") = Ok d /\
  known (lit "Denver") (tzLinks d) = None /\ known (lit "Denve") (tzLinks d) = Some (lit "C").
Proof. eexists. split; [vm_compute; reflexivity|]. split; reflexivity. Qed.
Print Assumptions C73_last_line_refuted.
(** A line of blanks only after a line of a zone, and a short indented remark there, are errors; before the zone the first is not. *)
Theorem C73_blank_in_zone_refuted : exists zl blankline rem, zone_line (lit "X") (mkZonerule (lit "1:00") (lit "-") (lit "CET") None) zl /\ empty_line blankline /\
  laid_out [lit "#"; lit "note"] rem /\ indented rem /\
  (exists d, tz_parse no_data (text [blankline; zl]) = Ok d) /\
  tz_parse no_data (text [zl; blankline]) = Raise AssertionError /\ tz_parse no_data (text [zl; rem]) = Raise AssertionError.
Proof.
  exists (lit "Zone X 1:00 - CET"), [SPC], (lit " # note"). split; [split; [begins_tac|]; exists []; split; [laid_tac|reflexivity]|].
  split; [repeat constructor|]. split; [laid_tac|]. split; [eexists; eexists; split; [reflexivity|left; reflexivity]|].
  split; [eexists; vm_compute; reflexivity|]. split; vm_compute; reflexivity.
Qed.
Print Assumptions C73_blank_in_zone_refuted.
(** An indented remark that is not separated from its mark becomes a line of the zone, and a remark at the end of a line becomes its UNTIL. *)
Theorem C73_remark_refuted :
  (exists d z, tz_parse no_data (text [lit "Zone X 1:00 - CET"; lit " #was 2:00 before"]) = Ok d /\ known (lit "X") (tzZones d) = Some z /\
    map zGmtoff (znRules z) = [lit "1:00"; lit "#was"]) /\
  (exists d z, tz_parse no_data (text [lit "Zone X 1:00 - CET # note"]) = Ok d /\ known (lit "X") (tzZones d) = Some z /\
    map zUntil (znRules z) = [Some (lit "# note")]).
Proof. split; eexists; eexists; (split; [vm_compute; reflexivity|]; split; reflexivity). Qed.
Print Assumptions C73_remark_refuted.
(** A file with CR LF: the CR stays in the last column of a rule, so in the names of the zone. *)
Theorem C73_crlf_refuted : exists d r, tz_parse no_data (text [zrule_generate us_rule ++ [CR]]) = Ok d /\ known (lit "US") (tzRules d) = Some [r] /\
  rlLetter r = rlLetter us_rule ++ [CR].
Proof. eexists; eexists. split; [vm_compute; reflexivity|]. split; reflexivity. Qed.
Print Assumptions C73_crlf_refuted.
