(** What C67 says: the busy times of a VFREEBUSY component. *)
From Verif Require Export FreeBusyModel EditSpec.
From Verif Require Import PyBase CalSpec DateTimeModel DateTimeSpec DateTimeSpec2 PeriodModel PeriodSpec PropertyModel ComponentModel TimingSpec.

(** The values of FBTYPE for busy times, and what FreeBusy calls them (freebusy.py:20-23). *)
Definition busy_names : list (bytes * Z) := [(lit "BUSY", 3); (lit "BUSY-UNAVAILABLE", 2); (lit "BUSY-TENTATIVE", 1)].
(** The first value of FBTYPE. *)
Definition fbtype_is (p : prop) (v : bytes) : Prop := exists l, PropertyModel.assoc (lit "FBTYPE") (pParams p) = Some l /\ first_value l = Ok v.
Definition busy_as (p : prop) (n : Z) : Prop :=
  PropertyModel.assoc (lit "FBTYPE") (pParams p) = None /\ n = 3 \/ exists v, fbtype_is p v /\ In (upper v, n) busy_names.
Definition not_busy (p : prop) : Prop := exists v, fbtype_is p v /\ ~ In (upper v) (map fst busy_names).
(** What these FREEBUSY properties list as busy. *)
Inductive lists_busy : list prop -> list (Z * period) -> Prop :=
| lists_none : lists_busy [] []
| lists_times p n l r t : busy_as p n -> pValue p = Some (Multi T_PERIOD (map VPeriod l)) -> lists_busy r t -> lists_busy (p :: r) (map (pair n) l ++ t)
| lists_free p r t : not_busy p -> lists_busy r t -> lists_busy (p :: r) t.

(** A period as Period(start, end) or Period(start, duration) makes it. *)
Definition built (p : period) : Prop := exists s, (exists e, p = newPeriodEnd s e) \/ (exists d, p = newPeriodDur s d).
(** From x to y. *)
Definition spans (sc : scale) (p : period) (x y : Z) : Prop := instant sc (pStart p) x /\ exists e, snd (getEnd p) = Ok e /\ instant sc e y.
Definition all_on (sc : scale) (busy : list (Z * period)) : Prop := Forall (fun t => built (snd t) /\ exists x y, spans sc (snd t) x y) busy.
(** The first and the last moment of these periods. *)
Definition earliest (sc : scale) (busy : list (Z * period)) (x : Z) : Prop :=
  (exists t y, In t busy /\ spans sc (snd t) x y) /\ forall t a b, In t busy -> spans sc (snd t) a b -> x <= a.
Definition latest (sc : scale) (busy : list (Z * period)) (y : Z) : Prop :=
  (exists t x, In t busy /\ spans sc (snd t) x y) /\ forall t a b, In t busy -> spans sc (snd t) a b -> b <= y.
(** The value of the first property with this name if there is one, else the moment that P says. *)
Definition bound (sc : scale) (name : bytes) (ps : props) (P : Z -> Prop) (x : Z) : Prop :=
  (exists p r d, getProperties name ps = p :: r /\ pValue p = Some (Single (VDateTime d)) /\ instant sc d x) \/
  (getProperties name ps = [] /\ P x).
(** The same items in order of their starts; those with the same start are in the order they were. *)
Definition by_start (sc : scale) (busy sorted : list (Z * period)) : Prop :=
  (forall i j s t a b c d, (i < j)%nat -> nth_error sorted i = Some s -> nth_error sorted j = Some t -> spans sc (snd s) a b -> spans sc (snd t) c d -> a <= c) /\
  exists at_ : Z * period -> Z, Forall (fun t => instant sc (pStart (snd t)) (at_ t)) busy /\
    forall x, filter (fun t => at_ t =? x) sorted = filter (fun t => at_ t =? x) busy.
(** What getBusyTime gives for these. *)
Definition as_items (l : list (Z * period)) : list freebusy := map (fun t => FB (Kind (fst t)) (Some (snd t))) l.

(** The fields read from the properties are the same. *)
Definition same_bounds (b b' : vfb) : Prop :=
  bHasStart b' = bHasStart b /\ bStart b' = bStart b /\ bHasEnd b' = bHasEnd b /\ bEnd b' = bEnd b /\ bDuration b' = bDuration b.
(** The window from w to v and the component from x to y have a moment in common. *)
Definition in_view (w v x y : Z) : bool := (w <? y) && (x <? v).
(** What is cached about the busy time is kept. *)
Definition cache_kept (b b' : vfb) : Prop := bCached b' = bCached b /\ bSpan b' = bSpan b /\ bTime b' = bTime b.
