(** C80: hash() of properties agrees with ==; == of vCards. *)
From Verif Require Import PyBase PyProofs PropertyProofs3 ParserCtx PropertyModel ComponentModel CalendarModel VCardModel PropCopy PropComponent PropVCard HashModel HashSpec HashProofs HashProofs2.

(** Two properties that are == have the same hash, if their times are of the same sort (dates, floating, or neither) and the lists in their rules in the same order. *)
Theorem C80_property : forall tzo fl fhash p q, floats_hash fl fhash -> NoDup (map fst (pParams p)) -> NoDup (map fst (pParams q)) -> like_values (pValue p) (pValue q) ->
  prop_eq tzo fl p q = Ok true -> prop_key tzo fhash p = prop_key tzo fhash q.
Proof. intros. eapply props_key; eassumption. Qed.
Print Assumptions C80_property.
(** So the properties of C57 that have a hash are such that C57 holds with the hash of the code. *)
Theorem C80_regular : forall tzo fl fhash H, floats_hash fl fhash -> regular tzo fl (hash_or_0 tzo fhash H) (hash_stock tzo fhash).
Proof. intros. apply stock_regular. assumption. Qed.
Print Assumptions C80_regular.
Theorem C80_component : forall tzo fl fhash H c d, floats_hash fl fhash -> drawn (hash_stock tzo fhash) c -> drawn (hash_stock tzo fhash) d ->
  exists b, comp_eq tzo fl (hash_or_0 tzo fhash H) c d = Ok b /\ (b = true <-> alike tzo fl c d).
Proof. intros tzo fl fhash H c d F C D. apply (C57_exactly tzo fl _ (hash_stock tzo fhash)); [apply C80_regular; exact F|exact C|exact D]. Qed.
Print Assumptions C80_component.
(** Two vCards are == exactly if each property of the one is == one of the other that has the same group, and the other way round. *)
Theorem C80_card : forall tzo fl fhash H c d, floats_hash fl fhash -> (forall p, In p (card_props c ++ card_props d) -> card_stock tzo fhash p) ->
  no_accident tzo fhash H (card_props c ++ card_props d) ->
  exists b, card_eq tzo fl fhash H c d = Ok b /\ (b = true <-> all_found tzo fl c d /\ all_found tzo fl d c).
Proof. intros. apply card_spec; assumption. Qed.
Print Assumptions C80_card.
(** A vCard is == itself and its copies (C77). *)
Theorem C80_self : forall tzo fl fhash H c, (forall p, In p (card_props c) -> card_stock tzo fhash p) -> card_eq tzo fl fhash H c c = Ok true.
Proof. exact card_self. Qed.
Print Assumptions C80_self.

(** ** Examples *)
Definition fhash0 (x : pyfloat) : Z := x.
Lemma floats0 : floats_hash fl0 fhash0.
Proof. intros x y H. unfold fhash0. cbn in H. try (apply Z.eqb_eq in H; exact H). Qed.
(** Some hash of a key. *)
Fixpoint H0 (k : hkey) : Z :=
  match k with
  | HNone => 1
  | HText s => fold_left (fun a c => a * 257 + Z.of_nat (nat_of_ascii c)) s 2
  | HInt n => 3 + 8 * n
  | HRule _ => 4
  | HTup l => (fix go (l : list hkey) (a : Z) : Z := match l with [] => a | x :: r => go r (a * 1000003 + H0 x) end) l 5
  end.
(** The parameters in another order and in another letter case; and a time in UTC and the same in another time zone. *)
Definition chair1 : prop := mkProp (lit "ATTENDEE") [(lit "ROLE", [(lit "ROLE", [lit "CHAIR"])]); (lit "CN", [(lit "cn", [lit "Kim"])])] (Some (Single (VPlain PCalAddress (Some (lit "mailto:k@a"))))).
Definition chair2 : prop := mkProp (lit "ATTENDEE") [(lit "CN", [(lit "CN", [lit "Kim"])]); (lit "ROLE", [(lit "ROLE", [lit "CHAIR"])])] (Some (Single (VPlain PCalAddress (Some (lit "mailto:k@a"))))).
Definition noon_utc : dt := newDateTime 2000 1 1 12 0 0 true TzNone.
Definition noon_east : dt := newDateTime 2000 1 1 13 0 0 false (TzInt 3600).
Example C80_property_ex : chair1 <> chair2 /\ NoDup (map fst (pParams chair1)) /\ NoDup (map fst (pParams chair2)) /\ prop_eq PropComponent.tz_none fl0 chair1 chair2 = Ok true /\
  like_values (Some (Single (VDateTime noon_utc))) (Some (Single (VDateTime noon_east))) /\
  prop_eq PropComponent.tz_none fl0 (mkProp (lit "DTSTART") [] (Some (Single (VDateTime noon_utc)))) (mkProp (lit "DTSTART") [] (Some (Single (VDateTime noon_east)))) = Ok true.
Proof.
  split; [discriminate|]. split; [repeat constructor; cbn; intuition discriminate|]. split; [repeat constructor; cbn; intuition discriminate|]. split; [vm_compute; reflexivity|].
  split; [|vm_compute; reflexivity]. intros _. split; [split; reflexivity|]. split; [split; reflexivity|]. right. right. repeat split.
Qed.
Lemma chair_stock p : p = chair1 \/ p = chair2 -> hash_stock PropComponent.tz_none fhash0 p.
Proof. intros [-> | ->]; (split; [repeat constructor; cbn; intuition discriminate|]); (split; [eexists; vm_compute; reflexivity|exact I]). Qed.
Example C80_regular_ex : floats_hash fl0 fhash0 /\ hash_stock PropComponent.tz_none fhash0 chair1 /\ hash_stock PropComponent.tz_none fhash0 (mkProp (lit "DTSTAMP") [] (Some (Single (VDateTime noon_utc)))) /\
  hash_stock PropComponent.tz_none fhash0 (mkProp (lit "EXDATE") [] (Some (Multi T_DATETIME [VDateTime noon_utc; VDateTime (newDate 2020 1 31 false TzNone)]))).
Proof.
  split; [exact floats0|]. split; [apply chair_stock; left; reflexivity|]. split; (split; [constructor|]; split; [eexists; vm_compute; reflexivity|]).
  - split; [split; reflexivity|]. left. split; reflexivity.
  - constructor; [split; [split; reflexivity|]; left; split; reflexivity|]. constructor; [|constructor]. split; [split; reflexivity|]. right. repeat split.
Qed.
Definition meet (p : prop) : comp := Comp VEVENT (newState []) [(pName p, [p])] [].
Example C80_component_ex : drawn (hash_stock PropComponent.tz_none fhash0) (meet chair1) /\ drawn (hash_stock PropComponent.tz_none fhash0) (meet chair2) /\
  comp_eq PropComponent.tz_none fl0 (hash_or_0 PropComponent.tz_none fhash0 H0) (meet chair1) (meet chair2) = Ok true.
Proof.
  assert (D : forall p, hash_stock PropComponent.tz_none fhash0 p -> drawn (hash_stock PropComponent.tz_none fhash0) (meet p)).
  { intros p P. constructor; [intros q [<-|[]]; exact P|constructor]. }
  split; [apply D, chair_stock; left; reflexivity|]. split; [|vm_compute; reflexivity]. apply D, chair_stock. right. reflexivity.
Qed.
(** A vCard with a name in a group, nicknames, a date and an organisation, and one with the same in another order; without the group they are not ==. *)
Definition nameless0 : cprop := mkCProp None (cpName name0) (cpParams name0) (cpValue name0).
Definition five0 : list cprop := [version0; name0; nick0; day0; org0].
Lemma five_stock p : In p (nameless0 :: five0) -> card_stock PropComponent.tz_none fhash0 p.
Proof.
  intros [<-|[<-|[<-|[<-|[<-|[<-|[]]]]]]]; (split; [repeat constructor; cbn; intuition discriminate|]); (split; [eexists; vm_compute; reflexivity|]); cbn; try exact I.
  - repeat constructor.
  - split; [split; reflexivity|]. right. repeat split.
Qed.
Example C80_card_ex : let c := card0 five0 in let d := card0 (rev five0) in
  (forall p, In p (card_props c ++ card_props d) -> card_stock PropComponent.tz_none fhash0 p) /\ no_accident PropComponent.tz_none fhash0 H0 (card_props c ++ card_props d) /\
  c <> d /\ card_eq PropComponent.tz_none fl0 fhash0 H0 c d = Ok true /\ card_eq PropComponent.tz_none fl0 fhash0 H0 c (card0 [version0; nameless0; nick0; day0; org0]) = Ok false.
Proof.
  assert (In5 : forall p, In p (card_props (card0 five0) ++ card_props (card0 (rev five0))) -> In p five0).
  { intros p P. assert (E : card_props (card0 five0) ++ card_props (card0 (rev five0)) = five0 ++ rev five0) by (vm_compute; reflexivity). rewrite E in P. apply in_app_iff in P.
    destruct P as [P|P]; [exact P|apply in_rev; exact P]. }
  cbv zeta. split; [intros p P; apply five_stock; right; apply In5; exact P|]. split.
  - intros p q k m P Q K M E. apply In5 in P, Q.
    destruct P as [<-|[<-|[<-|[<-|[<-|[]]]]]]; destruct Q as [<-|[<-|[<-|[<-|[<-|[]]]]]]; try congruence;
      vm_compute in K; vm_compute in M; apply Ok_inj in K, M; subst k m; vm_compute in E; discriminate E.
  - split; [vm_compute; discriminate|]. split; [vm_compute; reflexivity|]. vm_compute. reflexivity.
Qed.
Example C80_self_ex : forall p, In p (card_props (card0 five0)) -> card_stock PropComponent.tz_none fhash0 p.
Proof. intros p P. apply five_stock. right. assert (E : card_props (card0 five0) = five0) by (vm_compute; reflexivity). rewrite E in P. exact P. Qed.

(** ** What does not hold *)
(** __eq__ of vCard properties compares the group with itself: properties in different groups are == but have different keys, and then the vCards are not ==. *)
Theorem C80_group_refuted : exists p q, cprop_eq PropComponent.tz_none fl0 p q = Ok true /\ cpGroup p <> cpGroup q /\ cprop_key PropComponent.tz_none fhash0 p <> cprop_key PropComponent.tz_none fhash0 q /\
  forall fhash H k m, cprop_key PropComponent.tz_none fhash p = Ok k -> cprop_key PropComponent.tz_none fhash q = Ok m -> H k <> H m ->
    card_eq PropComponent.tz_none fl0 fhash H (card0 [p]) (card0 [q]) = Ok false.
Proof.
  exists name0, nameless0. split; [vm_compute; reflexivity|]. split; [discriminate|]. split; [vm_compute; discriminate|].
  intros fhash H k m K M N. unfold card_eq. assert (E1 : List.concat (map snd (card0 [name0])) = [name0]) by (vm_compute; reflexivity). assert (E2 : List.concat (map snd (card0 [nameless0])) = [nameless0]) by (vm_compute; reflexivity).
  rewrite E1, E2. unfold set_eq, updated, cprop_hash. rewrite K, M. cbn [rbind is_in app List.length Nat.eqb subset]. destruct (Z.eqb_spec (H m) (H k)) as [E|_]; [congruence|]. reflexivity.
Qed.
Print Assumptions C80_group_refuted.
(** Rules that are == with their lists in another order have different hashes; two components with them are then not ==. *)
Definition days_rule (l : list (Z * Z)) : prop := mkProp (lit "RRULE") [] (Some (Single (VRecur (mkRule WEEKLY false 0 false None 1 None None None (Some l) None None None None None 1)))).
Theorem C80_rule_refuted : exists p q, prop_eq PropComponent.tz_none fl0 p q = Ok true /\ (exists k m, prop_key PropComponent.tz_none fhash0 p = Ok k /\ prop_key PropComponent.tz_none fhash0 q = Ok m /\ k <> m) /\
  comp_eq PropComponent.tz_none fl0 (hash_or_0 PropComponent.tz_none fhash0 (fun k => if match k with HTup [_; _; HTup [_; HRule (_, (_, _, _, Some ((0, 1) :: _)), _, _)]] => true | _ => false end then 1 else 2)) (meet p) (meet q) = Ok false.
Proof.
  exists (days_rule [(0, 1); (0, 3)]), (days_rule [(0, 3); (0, 1)]). split; [vm_compute; reflexivity|]. split; [|vm_compute; reflexivity].
  eexists. eexists. split; [vm_compute; reflexivity|]. split; [vm_compute; reflexivity|]. discriminate.
Qed.
Print Assumptions C80_rule_refuted.
(** A floating time is == one in a time zone with the same hour and minute; the hashes differ. *)
Definition start_at (d : dt) : prop := mkProp (lit "DTSTART") [] (Some (Single (VDateTime d))).
Theorem C80_floating_refuted : exists p q, prop_eq PropComponent.tz_none fl0 p q = Ok true /\ exists k m, prop_key PropComponent.tz_none fhash0 p = Ok k /\ prop_key PropComponent.tz_none fhash0 q = Ok m /\ k <> m.
Proof.
  exists (start_at noon_east), (start_at (newDateTime 2000 1 1 13 0 0 false TzNone)). split; [vm_compute; reflexivity|].
  eexists. eexists. split; [vm_compute; reflexivity|]. split; [vm_compute; reflexivity|]. discriminate.
Qed.
Print Assumptions C80_floating_refuted.
(** A property whose time has month 13 (the parser lets it through) has no hash. *)
Theorem C80_raises_refuted : exists p e, prop_eq PropComponent.tz_none fl0 p p = Ok true /\ prop_key PropComponent.tz_none fhash0 p = Raise e.
Proof. exists (start_at (newDateTime 2000 13 1 12 0 0 false TzNone)). eexists. split; [vm_compute; reflexivity|]. vm_compute. reflexivity. Qed.
Print Assumptions C80_raises_refuted.
