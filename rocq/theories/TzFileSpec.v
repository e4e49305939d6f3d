(** What a tz source file says, from the manual page of zic. *)
From Verif Require Export TzFileModel ZonalSpec.

(** Rules, zones and links (new name, old name). *)
Inductive fact : Set := FRule (r : zrule) | FZone (z : zone) | FLink (to from : bytes).
(** Lines that say nothing, and lines that begin with a blank. *)
Definition remark (s : bytes) : Prop := s = [] \/ exists r, s = "#"%char :: r.
Definition empty_line (s : bytes) : Prop := Forall (fun c => is_space c = true) s.
Definition indented (s : bytes) : Prop := exists c r, s = c :: r /\ blank c.
Definition begins (k s : bytes) : Prop := exists t, s = k ++ t.
(** Columns separated by blanks; there may be more after those of a rule or a link, and the UNTIL columns of a line of a zone go to the end of it. *)
Definition rule_line (r : zrule) (s : bytes) : Prop := begins (lit "Rule") s /\ exists more, laid_out (lit "Rule" :: rule_fields r ++ more) s.
Definition link_line (to from : bytes) (s : bytes) : Prop :=
  begins (lit "Link") s /\ Forall (fun c => is_space c = true -> blank c) s /\ exists more, laid_out (lit "Link" :: from :: to :: more) s.
Definition until_of (until : list bytes) : option bytes := match until with [] => None | _ => Some (join_char SPC until) end.
Definition zone_line (name : bytes) (z : zonerule) (s : bytes) : Prop :=
  begins (lit "Zone") s /\ exists until, laid_out (lit "Zone" :: name :: zonerule_fields z ++ until) s /\ zUntil z = until_of until.
Definition next_line (z : zonerule) (s : bytes) : Prop :=
  indented s /\ zGmtoff z <> lit "#" /\ exists until, laid_out (zonerule_fields z ++ until) s /\ zUntil z = until_of until.
Definition indented_remark (s : bytes) : Prop := indented s /\ exists a b more, laid_out (lit "#" :: a :: b :: more) s.
(** The lines after the first line of a zone. *)
Inductive zone_rest : list zonerule -> list bytes -> Prop :=
| rest_end : zone_rest [] []
| rest_remark : forall s zs l, remark s \/ indented_remark s -> zone_rest zs l -> zone_rest zs (s :: l)
| rest_next : forall z s zs l, next_line z s -> zone_rest zs l -> zone_rest (z :: zs) (s :: l).
(** The lines after a zone: the first that is not a remark does not begin with a blank. *)
Inductive no_more : list bytes -> Prop :=
| more_end : no_more []
| more_remark : forall s l, remark s -> no_more l -> no_more (s :: l)
| more_line : forall s l, ~ indented s -> ~ remark s -> no_more (s :: l).
Inductive says : list bytes -> list fact -> Prop :=
| says_end : says [] []
| says_remark : forall s l fs, remark s \/ empty_line s -> says l fs -> says (s :: l) fs
| says_rule : forall r s l fs, rule_line r s -> says l fs -> says (s :: l) (FRule r :: fs)
| says_zone : forall n z s zs mid l fs, zone_line n z s -> zone_rest zs mid -> no_more l -> says l fs ->
    says (s :: mid ++ l) (FZone (mkZone n (z :: zs)) :: fs)
| says_link : forall to from s l fs, link_line to from s -> says l fs -> says (s :: l) (FLink to from :: fs).
(** A line that is none of these. *)
Definition stray (s : bytes) : Prop :=
  ~ remark s /\ ~ empty_line s /\ ~ begins (lit "Rule") s /\ ~ begins (lit "Zone") s /\ ~ begins (lit "Link") s.

(** The text of these lines. *)
Definition text (lines : list bytes) : bytes := List.concat (map (fun s => s ++ [LF]) lines).
Definition one_line (s : bytes) : Prop := ~ In LF s.

(** What is known by a name: the rules of it in their order, the last zone, the last link. *)
Fixpoint known {A} (n : bytes) (d : list (bytes * A)) : option A :=
  match d with [] => None | (k, v) :: r => if beq n k then Some v else known n r end.
Definition rules_said (n : bytes) (fs : list fact) : list zrule :=
  flat_map (fun f => match f with FRule r => if beq n (rlName r) then [r] else [] | _ => [] end) fs.
Definition zones_said (n : bytes) (fs : list fact) : list zone :=
  flat_map (fun f => match f with FZone z => if beq n (znName z) then [z] else [] | _ => [] end) fs.
Definition links_said (n : bytes) (fs : list fact) : list bytes :=
  flat_map (fun f => match f with FLink to from => if beq n to then [from] else [] | _ => [] end) fs.
Definition more_rules (old : option (list zrule)) (new : list zrule) : option (list zrule) :=
  match old, new with None, [] => None | None, l => Some l | Some l, l' => Some (l ++ l') end.
Definition last_of {A} (old : option A) (new : list A) : option A := match rev new with [] => old | x :: _ => Some x end.
Definition learnt (d : tzdata) (fs : list fact) (d' : tzdata) : Prop := forall n,
  known n (tzRules d') = more_rules (known n (tzRules d)) (rules_said n fs) /\
  known n (tzZones d') = last_of (known n (tzZones d)) (zones_said n fs) /\
  known n (tzLinks d') = last_of (known n (tzLinks d)) (links_said n fs).

(** Facts that can be written: names and columns without white space. *)
Definition fact_ok (f : fact) : Prop :=
  match f with
  | FRule r => Forall field (rule_fields r)
  | FZone z => field (znName z) /\ znRules z <> [] /\ Forall zonerule_ok (znRules z) /\ Forall (fun z => zGmtoff z <> lit "#") (tl (znRules z))
  | FLink to from => (to <> [] /\ Forall (fun c => is_space c = false) to) /\ (from <> [] /\ Forall (fun c => is_space c = false) from)
  end.
(** The texts that the generate methods make of them; for links, which have none, the line with tabs. *)
Definition written (f : fact) : bytes :=
  match f with
  | FRule r => zrule_generate r
  | FZone z => zone_generate z
  | FLink to from => join_char TAB [lit "Link"; from; to]
  end.
