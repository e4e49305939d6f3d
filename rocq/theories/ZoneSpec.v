(** What the theorems about the expansion of tz zones are stated with: zic(8), on a time line in seconds. *)
From Coq Require Import Sorting.Permutation Sorting.Sorted.
From Verif Require Import ZonalModel.
From Verif Require Export ZonalSpec PeriodSpec.

(** Clock readings without zone. *)
Notation local_time := (InZone false TzNone).

(** The clocks of written times. *)
Inductive clock : Set := Wall | Standard | Universal.
Definition suffix (m : option bytes) (c : clock) : Prop :=
  match c with
  | Wall => m = None \/ m = Some [] \/ m = Some (lit "w")
  | Standard => m = Some (lit "s")
  | Universal => m = Some (lit "u")
  end.
(** The moment that is meant by x, in UTC, when the offset in force just before it is off and the standard offset is std. *)
Definition meant (c : clock) (x off std : Z) : Z := match c with Wall => x - off | Standard => x - std | Universal => x end.

(** x is h:mi:s on the day dd. *)
Definition reads (dd : date) (h mi s x : Z) : Prop := exists k, days_between hist_leap (1970, 1, 1) dd k /\ x = 86400 * k + 3600 * h + 60 * mi + s.

(** A rule takes effect at a written time; the saving from then on. *)
Record switch : Set := mkSwitch { swAt : Z; swClock : clock; swSave : Z; swRule : zrule }.
(** Rule r takes effect in year y at sw. *)
Definition switches_in (r : zrule) (y : Z) (sw : switch) : Prop :=
  swRule sw = r /\ 1901 <= y <= 2100 /\
  (exists m o h mi s dd, 1 <= m <= 12 /\ rlIn r = mon_name m /\ on_text o (rlOn r) /\ on_ok y m o /\ (forall w n, o <> AtMost w n) /\
     at_text h mi s (rlAt r) /\ h < 24 /\ mi < 60 /\ selects y m o dd /\ reads dd h mi 0 (swAt sw) /\ suffix (Some s) (swClock sw)) /\
  exists sg h l, offset_text sg h l (rlSave r) /\ (List.length l <= 1)%nat /\ ~ (sg = Minus /\ h = 0 /\ nth 0 l 0 <> 0) /\
    swSave sw = signed sg (seconds_of h l).
(** The years of rule r before maxYear (and maxYear itself if the rule ends with it). *)
Definition rule_years (r : zrule) (maxYear : Z) (ys : list Z) : Prop :=
  exists a b p, 0 <= a /\ rlFrom r = fmt0 p a /\
  (rlTo r = lit "only" /\ b = a \/ rlTo r = lit "max" /\ b = 9999 \/ (0 <= b /\ exists q, rlTo r = fmt0 q b)) /\
  StronglySorted Z.lt ys /\ (forall y, In y ys <-> a < maxYear /\ a <= y <= b /\ (y < maxYear \/ b = maxYear)) /\
  (a < maxYear -> exists sg h l, offset_text sg h l (rlSave r) /\ (List.length l <= 1)%nat /\ ~ (sg = Minus /\ h = 0 /\ nth 0 l 0 <> 0)).
(** All of a set of rules, in the order of the written times. *)
Definition set_switches (maxYear : Z) (set : list zrule) (l : list switch) : Prop :=
  exists ll, Forall2 (fun r k => exists ys, rule_years r maxYear ys /\ Forall2 (switches_in r) ys k) set ll /\
  Permutation l (List.concat ll) /\ StronglySorted (fun a b => swAt a < swAt b) l.

(** A zone line: standard offset, constant saving or rules, and the written time at which it ends. *)
Inductive body : Set := Fixed (save : Z) | Rules (l : list switch).
Record zline : Set := mkLine { lnStd : Z; lnBody : body; lnUntil : Z; lnClock : clock }.

(** The changes of the offset by rules: each time is meant with the offset before it; before the first there is no saving. *)
Record jump : Set := mkJump { jAt : Z; jFrom : Z; jTo : Z; jRule : zrule }.
Fixpoint chain (std off : Z) (l : list switch) : list jump :=
  match l with
  | [] => []
  | sw :: r => mkJump (meant (swClock sw) (swAt sw) off std) off (std + swSave sw) (swRule sw) :: chain std (std + swSave sw) r
  end.
Definition jumps (ln : zline) : list jump := match lnBody ln with Fixed _ => [] | Rules l => chain (lnStd ln) (lnStd ln) l end.
Definition base (ln : zline) : Z := match lnBody ln with Fixed s => lnStd ln + s | Rules _ => lnStd ln end.
(** The offset at t: the one that the last change not after t leads to. *)
Fixpoint after_jumps (off : Z) (l : list jump) (t : Z) : Z :=
  match l with
  | [] => off
  | j :: r => if jAt j <=? t then after_jumps (jTo j) r t else off
  end.
Definition offset_at (ln : zline) (t : Z) : Z := after_jumps (base ln) (jumps ln) t.

(** The line ends at e: its UNTIL, with the offset in force just before. *)
Definition ends (ln : zline) (e : Z) : Prop := e = meant (lnClock ln) (lnUntil ln) (offset_at ln (e - 1)) (lnStd ln).
(** No change is so close to the end that it is before it or not depending on the offset that UNTIL is read with. *)
Definition clear_end (ln : zline) (e : Z) : Prop :=
  Forall (fun j => jAt j < e <-> jAt j < meant (lnClock ln) (lnUntil ln) (jFrom j) (lnStd ln)) (jumps ln).
(** The first change is clearly before or after the start of the line (the line before it has the offsets po and ps at its end). *)
Definition clear_start (ln : zline) (s po ps : Z) : Prop :=
  match lnBody ln with
  | Fixed _ => True
  | Rules [] => False
  | Rules (sw :: _) =>
    let u := meant (swClock sw) (swAt sw) (lnStd ln) (lnStd ln) in let v := meant (swClock sw) (swAt sw) po ps in
    (u < s /\ v < s) \/ (s < u /\ s < v) \/ (po = lnStd ln /\ ps = lnStd ln)
  end.

(** The line of text z is ln, given the sets of rules. *)
Definition line_of (rules : list (bytes * list zrule)) (maxYear : Z) (z : zonerule) (ln : zline) : Prop :=
  (exists sg h l, offset_text sg h l (zGmtoff z) /\ lnStd ln = signed sg (seconds_of h l)) /\
  match lnBody ln with
  | Fixed s => zRule z = lit "-" /\ s = 0 \/
      exists sg h l, offset_text sg h l (zRule z) /\ sg <> Plus /\ ~ (sg = Minus /\ nth 0 l 0 <> 0) /\ nth 1 l 0 = 0 /\ s = signed sg (seconds_of h l)
  | Rules l => exists c r set, zRule z = c :: r /\ is_digit c = false /\ c <> "-"%char /\
      In (zRule z, set) rules /\ NoDup (map fst rules) /\ set_switches maxYear set l
  end /\
  ((zUntil z = None \/ exists r, zUntil z = Some ("#"%char :: r)) /\ reads (9999, 12, 1) 0 0 0 (lnUntil ln) /\ lnClock ln = Wall \/
   exists y m o h mi s mode toks dd, until_text y m o (h, mi, s) mode toks /\ zUntil z = Some (join_char SPC toks) /\
     Forall (fun t => ~ In SPC t) toks /\ 1752 < y /\ 1 <= m <= 12 /\ on_ok y m o /\ until_day_ok y o toks /\ 0 <= h < 24 /\ 0 <= mi < 60 /\ 0 <= s < 60 /\
     selects y m o dd /\ reads dd h mi s (lnUntil ln) /\ suffix mode (lnClock ln)).

(** The steps of a zone: the start of each line, and the changes by its rules until it ends. *)
Record step : Set := mkStep { stAt : Z; stTo : Z; stLine : zonerule; stRule : option zrule }.
Definition line_steps (z : zonerule) (ln : zline) (s e : Z) : list step :=
  mkStep s (offset_at ln s) z None ::
  map (fun j => mkStep (jAt j) (jTo j) z (Some (jRule j))) (filter (fun j => (s <? jAt j) && (jAt j <? e)) (jumps ln)).
Inductive zone_steps (rules : list (bytes * list zrule)) (maxYear : Z) : Z -> Z -> Z -> list (zonerule * zline * Z) -> list (list step) -> Prop :=
| zs_end : forall s po ps, zone_steps rules maxYear s po ps [] []
| zs_line : forall s po ps z ln e rest l,
    line_of rules maxYear z ln -> StronglySorted (fun a b => jAt a < jAt b) (jumps ln) ->
    clear_start ln s po ps -> ends ln e -> clear_end ln e -> s < e ->
    zone_steps rules maxYear e (offset_at ln (e - 1)) (lnStd ln) rest l ->
    zone_steps rules maxYear s po ps ((z, ln, e) :: rest) (line_steps z ln s e :: l).
(** The line as it is written. *)
Definition text_of (x : zonerule * zline * Z) : zonerule := fst (fst x).
(** The offset at t, in lines with their ends of which the first starts at s. *)
Inductive zone_offset : Z -> list (zonerule * zline * Z) -> Z -> Z -> Prop :=
| zo_here : forall s z ln e rest t, s <= t < e -> zone_offset s ((z, ln, e) :: rest) t (offset_at ln t)
| zo_later : forall s z ln e rest t o, e <= t -> zone_offset e rest t o -> zone_offset s ((z, ln, e) :: rest) t o.

(** The steps with the offsets before them. *)
Fixpoint with_from (off : Z) (l : list step) : list (Z * step) :=
  match l with
  | [] => []
  | s :: r => (off, s) :: with_from (stTo s) r
  end.
(** On the clock of the zone every step comes after the one before it. *)
Definition spaced (x off : Z) (l : list step) : Prop := StronglySorted Z.lt (x :: map (fun p => stAt (snd p) + fst p) (with_from off l)).
(** A result of expand() for a step: local time before the change, offsets before and after it. *)
Definition shows (p : Z * step) (c : change) : Prop :=
  let '(from, s) := p in
  instant local_time (chAt c) (stAt s + from) /\ chFrom c = from /\ chTo c = stTo s /\ chZone c = stLine s /\
  match stRule s with Some r => chRule c = Some r | None => True end.
(** 1 January of a year. *)
Definition new_year (y x : Z) : Prop := reads (y, 1, 1) 0 0 0 x.

(** The offset that the results tell for the moment t. *)
Definition told (l : list change) (t o : Z) : Prop :=
  (exists a c b, l = a ++ c :: b /\ chTo c = o /\ (exists x, instant local_time (chAt c) x /\ x - chFrom c <= t) /\
     forall d, In d b -> exists x, instant local_time (chAt d) x /\ t < x - chFrom d) \/
  (exists c b, l = c :: b /\ chFrom c = o /\ forall d, In d l -> exists x, instant local_time (chAt d) x /\ t < x - chFrom d).
