(** Proofs about the BY parts of a tz rule. *)
From Coq Require Import Lia ZifyBool ZifyNat.
From Verif Require Import ZonalModel ZonalSpec CalModel CalProofs PyProofs DateTimeProofs DateTimeProofs2 ZonalProofs.
Ltac Zify.zify_post_hook ::= Z.div_mod_to_equations.

Lemma gdn_day y m d k : gdn (y, m, d + k) = gdn (y, m, d) + k.
Proof. unfold gdn, dnd, dn. lia. Qed.
Lemma gdn_first y m d : gdn (y, m, d) = gdn (y, m, 1) + (d - 1).
Proof. rewrite <- gdn_day. f_equal. f_equal. lia. Qed.

(** The parts made for days o to o + 6 of the month. *)
Definition parts_of (dim o w : Z) : Z * Z * option (list Z) :=
  if o =? 1 then (1, w, None)
  else if o =? 8 then (2, w, None)
  else if o =? 15 then (3, w, None)
  else if o =? 22 then (4, w, None)
  else if dim - o =? 6 then (-1, w, None)
  else if dim - o =? 13 then (-2, w, None)
  else if dim - o =? 20 then (-3, w, None)
  else (0, w, Some (filter (fun n => n <=? dim) (map (fun i => o + i) [0; 1; 2; 3; 4; 5; 6]))).
Lemma by_iff y m p w ds dd : 1 <= m <= 12 ->
  (by_selects y m (p, w, ds) dd <->
   exists d, dd = (y, m, d) /\ 1 <= d <= month_len greg_leap y m /\ w = (4 + (gdn dd - gdn (1970, 1, 1))) mod 7 /\
     (0 < p -> 7 * (p - 1) <= d - 1 < 7 * p) /\
     (p < 0 -> 7 * (- p - 1) <= month_len greg_leap y m - d < 7 * (- p)) /\
     match ds with Some l => In d l | None => True end).
Proof.
  intro Hm. unfold by_selects. split.
  - intros (d & -> & V & W & F & B & L). exists d. split; [reflexivity|]. split; [apply V|]. split; [apply is_weekday_gdn; auto|].
    split; [|split; [|exact L]].
    + intro H. specialize (F H). apply nth_from_gdn in F; [|apply valid_first; exact Hm]. rewrite (gdn_first y m d) in F. lia.
    + intro H. specialize (B H). apply nth_back_gdn in B; [|apply valid_last; exact Hm].
      rewrite (gdn_first y m d), (gdn_first y m (month_len greg_leap y m)) in B. lia.
  - intros (d & -> & V & W & F & B & L). exists d. assert (Vd : valid_date greg_leap (y, m, d)) by (unfold valid_date; lia).
    split; [reflexivity|]. split; [exact Vd|]. split; [apply is_weekday_gdn; auto|].
    split; [|split; [|exact L]].
    + intro H. specialize (F H). apply nth_from_iff; [apply valid_first; exact Hm|exact Vd|]. split; [lia|]. split; [rewrite (gdn_first y m d); lia|exact W].
    + intro H. specialize (B H). apply nth_back_iff; [apply valid_last; exact Hm|exact Vd|]. split; [lia|].
      split; [rewrite (gdn_first y m d), (gdn_first y m (month_len greg_leap y m)); lia|exact W].
Qed.
Lemma parts_select y m o w dd : 1 <= m <= 12 -> 1 <= o -> o + 6 <= month_len greg_leap y m ->
  (by_selects y m (parts_of (month_len greg_leap y m) o w) dd <->
   exists d, dd = (y, m, d) /\ o <= d <= o + 6 /\ w = (4 + (gdn dd - gdn (1970, 1, 1))) mod 7).
Proof.
  intros Hm Ho Hd. unfold parts_of. set (L := month_len greg_leap y m) in *.
  repeat match goal with |- context [Z.eqb ?a ?b] => destruct (Z.eqb_spec a b) end; rewrite by_iff by exact Hm; fold L;
  (split; [intros (d & E & V & W & F & B & I); exists d; split; [exact E|]; split; [|exact W]
          |intros (d & E & R & W); exists d; split; [exact E|]; split; [lia|]; split; [exact W|]; split; [intro; try lia|split; [intro; try lia|auto]]]);
  try lia.
  - apply filter_In in I as [I _]. apply in_map_iff in I as (i & E' & I). cbn [In] in I. lia.
  - apply filter_In. split; [|lia]. apply in_map_iff. exists (d - o). split; [lia|]. cbn [In]. lia.
Qed.

Lemma details start n w shift parts e : let y0 := mYear start in let m := mMonth start in
  valid_dt start -> 1901 <= y0 <= 2100 -> 0 <= w <= 6 -> shift = 0 \/ shift = 1 \/ shift = -1 ->
  1 <= n -> 1 <= n + shift -> n + shift + 6 <= month_len greg_leap y0 m ->
  nth_wd_from (y0, m, n) w 1 e -> days_between greg_leap e (ymd start) shift ->
  (getOnDayDetails start w n = Ok parts <-> parts = parts_of (month_len greg_leap y0 m) (n + shift) ((w + shift) mod 7)).
Proof.
  cbv zeta. intros V Hy Hw Hs Hn Hn1 Hn6 N B. pose proof (valid_month start V) as Hm.
  pose proof (valid_gh start V ltac:(lia)) as Vs.
  assert (Vn : valid_date greg_leap (mYear start, mMonth start, n)) by (unfold valid_date; lia).
  apply nth_from_gdn in N as (Ve & _ & Rn & Wn); [|exact Vn]. apply gb in B; [|exact Ve|exact Vs].
  unfold ymd in B. rewrite (gdn_first (mYear start) (mMonth start) n) in Rn. rewrite (gdn_first (mYear start) (mMonth start) (mDay start)) in B.
  assert (D : mDay start = n + shift + (gdn e - (gdn (mYear start, mMonth start, 1) + (n - 1)))) by lia.
  unfold getOnDayDetails. rewrite wd_ok by (auto; lia).
  assert (W : (4 + (hdn (mYear start) (mMonth start) (mDay start) - hdn 1970 1 1)) mod 7 = (w + shift) mod 7).
  { rewrite <- !gdn_hdn by lia. rewrite (gdn_first _ _ (mDay start)). lia. }
  rewrite W. cbn [rbind]. set (w' := (w + shift) mod 7).
  assert (P : (if w' - w =? 0 then Ok (n, mMonth start)
      else if (w' - w =? 1) || (w' - w =? -6) then
       Ok (n + 1, if mDay start =? 1 then if mMonth start - 1 <? 1 then 12 else mMonth start - 1 else mMonth start)
      else if (w' - w =? -1) || (w' - w =? 6) then if n =? 1 then Raise AssertionError else Ok (n - 1, mMonth start)
      else if w' - w =? -5 then Ok (n, mMonth start) else Raise AssertionError) = Ok (n + shift, mMonth start)).
  { subst w'. destruct Hs as [->|[->| ->]].
    - replace ((w + 0) mod 7 - w) with 0 by lia. cbn [Z.eqb]. rewrite Z.add_0_r. reflexivity.
    - destruct (Z.eqb_spec ((w + 1) mod 7 - w) 0); [lia|]. replace (((w + 1) mod 7 - w =? 1) || ((w + 1) mod 7 - w =? -6)) with true by lia.
      destruct (Z.eqb_spec (mDay start) 1); [lia|]. reflexivity.
    - destruct (Z.eqb_spec ((w + -1) mod 7 - w) 0); [lia|]. replace (((w + -1) mod 7 - w =? 1) || ((w + -1) mod 7 - w =? -6)) with false by lia.
      replace (((w + -1) mod 7 - w =? -1) || ((w + -1) mod 7 - w =? 6)) with true by lia.
      destruct (Z.eqb_spec n 1); [lia|]. reflexivity. }
  cbv zeta. rewrite P. clear P. cbn [rbind].
  rewrite daysInMonth_r_ok by exact Hm. rewrite month_len_greg by lia. cbn [rbind]. unfold parts_of.
  repeat match goal with |- context [Z.eqb ?a ?b] => destruct (Z.eqb_spec a b) end; (split; [intro X; apply Ok_inj in X; auto|intros ->; reflexivity]).
Qed.

(** In every year in which the month is as long, the parts select the day of the rule, moved by the same shift. *)
Lemma details_select start n w shift parts e y dd : let y0 := mYear start in let m := mMonth start in
  valid_dt start -> 1901 <= y0 <= 2100 -> 0 <= w <= 6 -> shift = 0 \/ shift = 1 \/ shift = -1 ->
  1 <= n -> 1 <= n + shift -> n + shift + 6 <= month_len greg_leap y0 m ->
  nth_wd_from (y0, m, n) w 1 e -> days_between greg_leap e (ymd start) shift ->
  month_len greg_leap y m = month_len greg_leap y0 m ->
  getOnDayDetails start w n = Ok parts ->
  (by_selects y m parts dd <-> exists e', nth_wd_from (y, m, n) w 1 e' /\ valid_date greg_leap dd /\ days_between greg_leap e' dd shift).
Proof.
  cbv zeta. intros V Hy Hw Hs Hn Hn1 Hn6 N B L G. pose proof (valid_month start V) as Hm.
  apply (proj1 (details start n w shift parts e V Hy Hw Hs Hn Hn1 Hn6 N B)) in G. subst parts.
  rewrite <- L. rewrite parts_select by (auto; lia).
  assert (Hn30 : n <= month_len greg_leap y (mMonth start)) by lia.
  assert (Vn : valid_date greg_leap (y, mMonth start, n)) by (unfold valid_date; lia).
  split.
  - intros (d & -> & R & W). assert (Vd : valid_date greg_leap (y, mMonth start, d)) by (unfold valid_date; lia).
    assert (E : exists b, valid_date greg_leap b /\ gdn b = gdn (y, mMonth start, d) - shift).
    { destruct Hs as [->|[->| ->]].
      - exists (y, mMonth start, d). split; [exact Vd|lia].
      - destruct (days_back (y, mMonth start, d) 1 Vd) as (b & Vb & Eb). exists b. split; [exact Vb|lia].
      - destruct (days_fwd (y, mMonth start, d) 1 Vd) as (b & Vb & Eb). exists b. split; [exact Vb|lia]. }
    destruct E as (b & Vb & Eb). exists b. split; [|split; [exact Vd|apply gb; auto; lia]].
    apply nth_from_iff; [exact Vn|exact Vb|]. rewrite Eb. split; [lia|].
    rewrite (gdn_first y _ d) in *. rewrite (gdn_first y _ n). split; [lia|]. lia.
  - intros (e' & Ne & Vd & Be). apply nth_from_gdn in Ne as (Ve' & _ & Rn & Wn); [|exact Vn]. apply gb in Be; [|exact Ve'|exact Vd].
    rewrite (gdn_first y _ n) in Rn.
    set (d := gdn dd - gdn (y, mMonth start, 1) + 1).
    assert (Vx : valid_date greg_leap (y, mMonth start, d)) by (unfold valid_date; subst d; lia).
    exists d. split; [|split; [subst d; lia|lia]].
    apply (dn_inj greg_leap Lg Lg_step); [exact Vd|exact Vx|]. change (gdn dd = gdn (y, mMonth start, d)).
    rewrite (gdn_first y _ d). subst d. lia.
Qed.
