(** Expansion of tz zones (C68). *)
From Coq Require Import Lia ZifyBool ZifyNat Sorting.Permutation Sorting.Sorted.
From Verif Require Import PyBase PyProofs CalModel CalSpec CalProofs DateTimeModel DateTimeSpec DateTimeProofs2 ZonalModel ZonalSpec ZonalProofs3 ZoneSpec ZoneProofs2 PropComponent.

(** C68: the results of expand() are the steps of the zone from minYear on: the start of every line but the first, and the changes by the rules
    of these lines while they are in force, each with the local time before it, the offsets before and after it, and the line and rule. *)
Theorem C68_expand : forall tzo zn rules minYear maxYear m s z ln e line lines first l,
  znRules zn = map text_of ((z, ln, e) :: line :: lines) -> new_year minYear m -> new_year 1800 s ->
  zone_steps rules maxYear s (lnStd ln) (lnStd ln) ((z, ln, e) :: line :: lines) (first :: l) -> spaced s (lnStd ln) (List.concat l) ->
  exists cs, zone_expand tzo zn rules minYear maxYear = Ok cs /\
    Forall2 shows (filter (fun p => m <=? stAt (snd p)) (with_from (lnStd ln) (List.concat l))) cs.
Proof. exact expand_lines. Qed.
Print Assumptions C68_expand.

(** So they tell the offset at every moment from minYear on that is after the end of the first line. *)
Theorem C68_offset : forall tzo zn rules minYear maxYear m s z ln e line lines first l cs t o,
  znRules zn = map text_of ((z, ln, e) :: line :: lines) -> new_year minYear m -> new_year 1800 s ->
  zone_steps rules maxYear s (lnStd ln) (lnStd ln) ((z, ln, e) :: line :: lines) (first :: l) -> spaced s (lnStd ln) (List.concat l) ->
  zone_offset e (line :: lines) t o -> m <= t -> zone_expand tzo zn rules minYear maxYear = Ok cs -> cs <> [] -> told cs t o.
Proof. exact expand_told. Qed.
Print Assumptions C68_offset.

(** A zone of one line: the changes by its rules; if 1800 is among the years, a result that changes nothing comes before them. *)
Theorem C68_single : forall tzo zn rules minYear maxYear m s z ln e steps,
  znRules zn = [z] -> new_year minYear m -> new_year 1800 s ->
  zone_steps rules maxYear s (lnStd ln) (lnStd ln) [(z, ln, e)] [steps] -> offset_at ln s = lnStd ln -> spaced (s + lnStd ln) (lnStd ln) (tl steps) ->
  exists pre cs, zone_expand tzo zn rules minYear maxYear = Ok (pre ++ cs) /\
    Forall2 shows (filter (fun p => m <=? stAt (snd p)) (with_from (lnStd ln) (tl steps))) cs /\
    if minYear <=? 1800 then exists c, pre = [c] /\ chFrom c = lnStd ln /\ chTo c = lnStd ln else pre = [].
Proof. exact expand_single. Qed.
Print Assumptions C68_single.

(** ** An example: a simplified New York *)
Definition us (frm to mon at_ save letter : string) : zrule := mkZrule (lit "US") (lit frm) (lit to) (lit "-") (lit mon) (lit "lastSun") (lit at_) (lit save) (lit letter).
Definition us_on := us "1918" "1919" "Mar" "2:00" "1:00" "D".
Definition us_off := us "1918" "1919" "Oct" "2:00" "0" "S".
Definition us_rules := [(lit "US", [us_on; us_off])].
Definition z1 := mkZonerule (lit "-4:56:02") (lit "-") (lit "LMT") (Some (lit "1883 Nov 18 12:03:58")).
Definition z2 := mkZonerule (lit "-5:00") (lit "US") (lit "E%sT") (Some (lit "1920")).
Definition z3 := mkZonerule (lit "-4:00") (lit "-") (lit "AST") None.
Definition sw1 := mkSwitch (-1633298400) Wall 3600 us_on.
Definition sw2 := mkSwitch (-1615154400) Wall 0 us_off.
Definition sw3 := mkSwitch (-1601848800) Wall 3600 us_on.
Definition sw4 := mkSwitch (-1583704800) Wall 0 us_off.
Definition l1 := mkLine (-17762) (Fixed 0) (-2717668562) Wall.
Definition l2 := mkLine (-18000) (Rules [sw1; sw2; sw3; sw4]) (-1577923200) Wall.
Definition l3 := mkLine (-14400) (Fixed 0) 253399622400 Wall.
Definition e1 := -2717650800.
Definition e2 := -1577905200.
Definition e3 := 253399636800.

Ltac valid := unfold valid_date; cbn; repeat split; lia.
Ltac reads_tac q := exists q; split; [apply hb; [valid|valid|vm_compute; reflexivity]|reflexivity].
Ltac last_tac n q := apply nth_last with (k := n); [cbn; lia|lia|left; split; [lia|reflexivity]|];
  exists q; split; [|reflexivity]; apply gb; [valid|valid|vm_compute; reflexivity].
Ltac switch_tac m n q dd :=
  split; [reflexivity|]; split; [lia|]; split;
  [exists m, (Last 0), 2, 0, [], dd; split; [lia|]; split; [reflexivity|]; split; [reflexivity|]; split; [cbn; lia|]; split; [discriminate|];
   split; [apply (at_hm 1 2 0 []); [lia|lia|intros []]|]; split; [lia|]; split; [lia|]; split; [last_tac n q|]; split; [reads_tac q|right; left; reflexivity]|].
Lemma sw1_in : switches_in us_on 1918 sw1.
Proof. switch_tac 3 0 (-18904) (1918, 3, 31). exists NoSign, 1, [0]. split; [apply (off_hm NoSign 1 1 2 0); lia|]. split; [cbn; lia|]. split; [intros (E & _); discriminate E|reflexivity]. Qed.
Lemma sw2_in : switches_in us_off 1918 sw2.
Proof. switch_tac 10 4 (-18694) (1918, 10, 27). exists NoSign, 0, []. split; [apply (off_h NoSign 0 1); lia|]. split; [cbn; lia|]. split; [intros (E & _); discriminate E|reflexivity]. Qed.
Lemma sw3_in : switches_in us_on 1919 sw3.
Proof. switch_tac 3 1 (-18540) (1919, 3, 30). exists NoSign, 1, [0]. split; [apply (off_hm NoSign 1 1 2 0); lia|]. split; [cbn; lia|]. split; [intros (E & _); discriminate E|reflexivity]. Qed.
Lemma sw4_in : switches_in us_off 1919 sw4.
Proof. switch_tac 10 5 (-18330) (1919, 10, 26). exists NoSign, 0, []. split; [apply (off_h NoSign 0 1); lia|]. split; [cbn; lia|]. split; [intros (E & _); discriminate E|reflexivity]. Qed.
Lemma years r : rlFrom r = lit "1918" -> rlTo r = lit "1919" ->
  (exists sg h l, offset_text sg h l (rlSave r) /\ (List.length l <= 1)%nat /\ ~ (sg = Minus /\ h = 0 /\ nth 0 l 0 <> 0)) -> rule_years r 2030 [1918; 1919].
Proof.
  intros Ef Et H. exists 1918, 1919, 4%nat. split; [lia|]. split; [exact Ef|]. split; [right; right; split; [lia|]; exists 4%nat; exact Et|].
  split; [repeat constructor; lia|]. split; [|intros _; exact H].
  intro y. split; [intros [<-|[<-|[]]]; lia|]. intros (_ & Y & _). cbn. lia.
Qed.
Lemma us_switches : set_switches 2030 [us_on; us_off] [sw1; sw2; sw3; sw4].
Proof.
  exists [[sw1; sw3]; [sw2; sw4]]. split; [|split].
  - constructor; [|constructor; [|constructor]]; exists [1918; 1919].
    + split; [apply years; try reflexivity; exists NoSign, 1, [0]; split; [apply (off_hm NoSign 1 1 2 0); lia|]; split; [cbn; lia|intros (E & _); discriminate E]|].
      constructor; [exact sw1_in|constructor; [exact sw3_in|constructor]].
    + split; [apply years; try reflexivity; exists NoSign, 0, []; split; [apply (off_h NoSign 0 1); lia|]; split; [cbn; lia|intros (E & _); discriminate E]|].
      constructor; [exact sw2_in|constructor; [exact sw4_in|constructor]].
  - cbn. apply perm_skip. apply perm_swap.
  - repeat constructor; cbn; lia.
Qed.
Lemma line1 : line_of us_rules 2030 z1 l1.
Proof.
  split; [exists Minus, 4, [56; 2]; split; [apply (off_hms Minus 4 1 2 2 56 2); lia|reflexivity]|]. split; [left; split; reflexivity|].
  right. exists 1883, 11, (Day 18), 12, 3, 58, None, [lit "1883"; lit "Nov"; lit "18"; lit "12:03:58"], (1883, 11, 18).
  split; [apply (ut_t 4 1883 11 (Day 18)); [exists 2%nat; reflexivity|]; apply (tt_hms 2 12 3 2 58); lia|]. split; [reflexivity|].
  split; [repeat (constructor; [apply cin_not_in; reflexivity|]); constructor|]. split; [lia|]. split; [lia|]. split; [cbn; lia|]. split; [cbn; lia|].
  split; [lia|]. split; [lia|]. split; [lia|]. split; [reflexivity|]. split; [reads_tac (-31455)|left; reflexivity].
Qed.
Lemma line2 : line_of us_rules 2030 z2 l2.
Proof.
  split; [exists Minus, 5, [0]; split; [apply (off_hm Minus 5 1 2 0); lia|reflexivity]|].
  split; [exists "U"%char, (lit "S"), [us_on; us_off]; split; [reflexivity|]; split; [reflexivity|]; split; [discriminate|]; split; [left; reflexivity|];
    split; [repeat constructor; intros []|exact us_switches]|].
  right. exists 1920, 1, (Day 1), 0, 0, 0, None, [lit "1920"], (1920, 1, 1).
  split; [apply (ut_y 4 1920); exact I|]. split; [reflexivity|].
  split; [repeat (constructor; [apply cin_not_in; reflexivity|]); constructor|]. split; [lia|]. split; [lia|]. split; [cbn; lia|]. split; [cbn; lia|].
  split; [lia|]. split; [lia|]. split; [lia|]. split; [reflexivity|]. split; [reads_tac (-18263)|left; reflexivity].
Qed.
Lemma line3 : line_of us_rules 2030 z3 l3.
Proof.
  split; [exists Minus, 4, [0]; split; [apply (off_hm Minus 4 1 2 0); lia|reflexivity]|]. split; [left; split; reflexivity|].
  left. split; [left; reflexivity|]. split; [reads_tac 2932866|reflexivity].
Qed.
Lemma start : new_year 1800 (-5364662400). Proof. reads_tac (-62091). Qed.
Definition ny := mkZone (lit "New_York") [z1; z2; z3].
Definition ny_lines := [(z1, l1, e1); (z2, l2, e2); (z3, l3, e3)].
Lemma ny_steps : zone_steps us_rules 2030 (-5364662400) (-17762) (-17762) ny_lines
  [line_steps z1 l1 (-5364662400) e1; line_steps z2 l2 e1 e2; line_steps z3 l3 e2 e3].
Proof.
  apply zs_line; [exact line1|constructor|exact I|reflexivity|constructor|reflexivity|].
  apply zs_line; [exact line2|repeat constructor; cbn; lia|right; left; split; reflexivity|reflexivity|repeat constructor; cbn; lia|reflexivity|].
  apply zs_line; [exact line3|constructor|exact I|reflexivity|constructor|reflexivity|]. apply zs_end.
Qed.
(** The changes: local time, offset before and after. *)
Definition brief (c : change) : Z * Z * Z * Z * Z * Z := (mYear (chAt c), mMonth (chAt c), mDay (chAt c), secs_of_day (chAt c), chFrom c, chTo c).
Example C68_expand_ex : znRules ny = map text_of ny_lines /\ new_year 1800 (-5364662400) /\
  zone_steps us_rules 2030 (-5364662400) (lnStd l1) (lnStd l1) ny_lines
    [line_steps z1 l1 (-5364662400) e1; line_steps z2 l2 e1 e2; line_steps z3 l3 e2 e3] /\
  spaced (-5364662400) (lnStd l1) (line_steps z2 l2 e1 e2 ++ line_steps z3 l3 e2 e3) /\
  exists cs, zone_expand tz_none ny us_rules 1800 2030 = Ok cs /\ map brief cs =
    [(1883, 11, 18, 43438, -17762, -18000); (1918, 3, 31, 7200, -18000, -14400); (1918, 10, 27, 7200, -14400, -18000);
     (1919, 3, 30, 7200, -18000, -14400); (1919, 10, 26, 7200, -14400, -18000); (1920, 1, 1, 0, -18000, -14400)].
Proof.
  split; [reflexivity|]. split; [exact start|]. split; [exact ny_steps|]. split; [repeat constructor; cbn; lia|].
  eexists. split; [vm_compute; reflexivity|]. reflexivity.
Qed.
(** In the summer of 1919 the offset is -4:00. *)
Example C68_offset_ex : zone_offset e1 [(z2, l2, e2); (z3, l3, e3)] (-1590000000) (-14400) /\
  exists cs, zone_expand tz_none ny us_rules 1800 2030 = Ok cs /\ told cs (-1590000000) (-14400).
Proof.
  assert (Q : zone_offset e1 [(z2, l2, e2); (z3, l3, e3)] (-1590000000) (-14400)) by (apply (zo_here e1 z2 l2); unfold e1, e2; lia). split; [exact Q|].
  assert (X : exists cs, zone_expand tz_none ny us_rules 1800 2030 = Ok cs /\ cs <> []) by (eexists; split; [vm_compute; reflexivity|discriminate]).
  destruct X as (cs & E & N). exists cs. split; [exact E|].
  refine (C68_offset tz_none ny us_rules 1800 2030 _ _ z1 l1 e1 (z2, l2, e2) [(z3, l3, e3)] _ _ cs _ _ eq_refl start start ny_steps _ Q _ E N); [repeat constructor; cbn; lia|lia].
Qed.
Definition z4 := mkZonerule (lit "-5:00") (lit "US") (lit "E%sT") None.
Definition l4 := mkLine (-18000) (Rules [sw1; sw2; sw3; sw4]) 253399622400 Wall.
Definition e4 := 253399640400.
Lemma line4 : line_of us_rules 2030 z4 l4.
Proof.
  split; [exists Minus, 5, [0]; split; [apply (off_hm Minus 5 1 2 0); lia|reflexivity]|].
  split; [exists "U"%char, (lit "S"), [us_on; us_off]; split; [reflexivity|]; split; [reflexivity|]; split; [discriminate|]; split; [left; reflexivity|];
    split; [repeat constructor; intros []|exact us_switches]|].
  left. split; [left; reflexivity|]. split; [reads_tac 2932866|reflexivity].
Qed.
Example C68_single_ex : zone_steps us_rules 2030 (-5364662400) (lnStd l4) (lnStd l4) [(z4, l4, e4)] [line_steps z4 l4 (-5364662400) e4] /\
  offset_at l4 (-5364662400) = lnStd l4 /\ spaced (-5364662400 + lnStd l4) (lnStd l4) (tl (line_steps z4 l4 (-5364662400) e4)) /\
  (exists cs, zone_expand tz_none (mkZone (lit "X") [z4]) us_rules 1800 2030 = Ok cs /\ map brief cs =
    [(1800, 1, 1, 0, -18000, -18000); (1918, 3, 31, 7200, -18000, -14400); (1918, 10, 27, 7200, -14400, -18000);
     (1919, 3, 30, 7200, -18000, -14400); (1919, 10, 26, 7200, -14400, -18000)]) /\
  (exists cs, zone_expand tz_none (mkZone (lit "X") [z4]) us_rules 1919 2030 = Ok cs /\ map brief cs =
    [(1919, 3, 30, 7200, -18000, -14400); (1919, 10, 26, 7200, -14400, -18000)]).
Proof.
  split; [apply zs_line; [exact line4|repeat constructor; cbn; lia|right; right; split; reflexivity|reflexivity|repeat constructor; cbn; lia|reflexivity|apply zs_end]|].
  split; [reflexivity|]. split; [repeat constructor; cbn; lia|].
  split; (eexists; split; [vm_compute; reflexivity|]; reflexivity).
Qed.

(** ** What expand() gets wrong *)
Definition zl (off rule : string) (until : option string) : zonerule := mkZonerule (lit off) (lit rule) (lit "X") (option_map lit until).
(** A line whose rules start only after maxYear keeps the offset of the line before it: the result for its start goes from 1:00 to 1:00. *)
Theorem C68_no_rule_yet_refuted : exists zn rules b ln c,
  znRules zn = [zl "1:00" "-" (Some "1950"%string); b] /\ line_of rules 2030 b ln /\ lnBody ln = Rules [] /\
  zone_expand tz_none zn rules 1800 2030 = Ok [c] /\ chZone c = b /\ forall t, chTo c <> offset_at ln t.
Proof.
  set (r := mkZrule (lit "N") (lit "2040") (lit "max") (lit "-") (lit "Mar") (lit "lastSun") (lit "2:00") (lit "1:00") (lit "S")).
  set (b := zl "2:00" "N" None). exists (mkZone (lit "X") [zl "1:00" "-" (Some "1950"%string); b]), [(lit "N", [r])], b, (mkLine 7200 (Rules []) 253399622400 Wall).
  eexists. split; [reflexivity|]. split.
  - split; [exists NoSign, 2, [0]; split; [apply (off_hm NoSign 2 1 2 0); lia|reflexivity]|]. split.
    + exists "N"%char, [], [r]. split; [reflexivity|]. split; [reflexivity|]. split; [discriminate|]. split; [left; reflexivity|]. split; [repeat constructor; intros []|].
      exists [[]]. split; [constructor; [|constructor]; exists []; split; [|constructor]|split; [apply Permutation_refl|constructor]].
      exists 2040, 9999, 4%nat. split; [lia|]. split; [reflexivity|]. split; [right; left; split; reflexivity|]. split; [constructor|].
      split; [intro y; split; [intros []|intros (H & _); lia]|intro H; lia].
    + left. split; [left; reflexivity|]. split; [reads_tac 2932866|reflexivity].
  - split; [reflexivity|]. split; [vm_compute; reflexivity|]. split; [reflexivity|]. cbn. discriminate.
Qed.
Print Assumptions C68_no_rule_yet_refuted.
(** A constant saving of the only line, or of the first line, is lost. *)
Theorem C68_saving_refuted : exists z ln c d, line_of [] 2030 z ln /\ (forall t, offset_at ln t = -7200) /\
  zone_expand tz_none (mkZone (lit "X") [z]) [] 1800 2030 = Ok [c] /\ chFrom c = -10800 /\ chTo c = -10800 /\
  (let w := mkZonerule (zGmtoff z) (zRule z) (zFormat z) (Some (lit "1950")) in
   zone_expand tz_none (mkZone (lit "X") [w; zl "2:00" "-" None]) [] 1800 2030 = Ok [d] /\ chFrom d = -10800).
Proof.
  exists (zl "-3:00" "1:00" None), (mkLine (-10800) (Fixed 3600) 253399622400 Wall). eexists. eexists. split.
  - split; [exists Minus, 3, [0]; split; [apply (off_hm Minus 3 1 2 0); lia|reflexivity]|]. split.
    + right. exists NoSign, 1, [0]. split; [apply (off_hm NoSign 1 1 2 0); lia|]. split; [discriminate|]. split; [intros (H & _); discriminate H|]. split; reflexivity.
    + left. split; [left; reflexivity|]. split; [reads_tac 2932866|reflexivity].
  - split; [reflexivity|]. split; [vm_compute; reflexivity|]. split; [reflexivity|]. split; [reflexivity|]. cbv zeta. split; [vm_compute; reflexivity|reflexivity].
Qed.
Print Assumptions C68_saving_refuted.
(** The changes by the rules of the first of two lines are not listed (here summer time in 1918 and 1919; in 1920 the next line starts). *)
Theorem C68_first_rules_refuted : exists z, znRules z = [z2; z3] /\ line_of us_rules 2030 z2 l2 /\ (exists cs, zone_expand tz_none z us_rules 1800 2030 = Ok cs /\
  map brief cs = [(1920, 1, 1, 0, -18000, -14400)]) /\ offset_at l2 (-1590000000) = -14400 /\ offset_at l2 (-1610000000) = -18000.
Proof.
  exists (mkZone (lit "X") [z2; z3]). split; [reflexivity|]. split; [exact line2|]. split; [eexists; split; [vm_compute; reflexivity|reflexivity]|]. split; reflexivity.
Qed.
Print Assumptions C68_first_rules_refuted.
(** If the clock, set back, has not passed the reading of the last change when it is changed again, then the two are listed as one:
    from 3:00 to 1:00, and two hours later to 2:00. *)
Theorem C68_merged_refuted : exists zn, znRules zn = [zl "3:00" "-" (Some "1950"%string); zl "1:00" "-" (Some "1950"%string); zl "2:00" "-" None] /\
  exists cs, zone_expand tz_none zn [] 1800 2030 = Ok cs /\ map brief cs = [(1950, 1, 1, 0, 10800, 7200)].
Proof. eexists (mkZone (lit "X") _). split; [reflexivity|]. eexists. split; [vm_compute; reflexivity|reflexivity]. Qed.
Print Assumptions C68_merged_refuted.
(** maxYear is the year after the last one for rules that go on beyond it, and the last one for rules that end with it. *)
Theorem C68_max_year_refuted : exists r, (exists cs, zone_expand tz_none (mkZone (lit "X") [zl "1:00" "-" (Some "1950"%string); zl "2:00" "N" None])
    [(lit "N", [r (lit "2030")])] 1951 2030 = Ok cs /\ map (fun c => mYear (chAt c)) cs = [2028; 2029; 2030]) /\
  (exists cs, zone_expand tz_none (mkZone (lit "X") [zl "1:00" "-" (Some "1950"%string); zl "2:00" "N" None])
    [(lit "N", [r (lit "2031")])] 1951 2030 = Ok cs /\ map (fun c => mYear (chAt c)) cs = [2028; 2029]).
Proof.
  exists (fun to => mkZrule (lit "N") (lit "2028") to (lit "-") (lit "Mar") (lit "lastSun") (lit "2:00") (lit "1:00") (lit "S")).
  split; (eexists; split; [vm_compute; reflexivity|reflexivity]).
Qed.
Print Assumptions C68_max_year_refuted.
