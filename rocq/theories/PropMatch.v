(** Properties of matching by equality: C86. *)
From Verif Require Import PyBase PyProofs ParserCtx DateTimeModel RecurModel PropertyModel PropertySpec PropertyProofs ComponentModel MatchModel MatchSpec MatchProofs PropComponent.

(** removeProperty takes out one property: the first that is the object given or equal to it.  All other properties stay, in their order,
    and the name is gone if there are no more.  ValueError if the name has properties but none of them is equal; nothing happens if it has none. *)
Theorem C86_removed : forall tzo fl obj p ps, dict_props ps ->
  let key := upper (pName p) in
  let l := getProperties key ps in
  (forall y, In y l -> exists b, prop_eq tzo fl y p = Ok b) ->
  match removeProperty tzo fl obj p ps with
  | Ok qs =>
    l = [] /\ qs = ps \/
    exists a x b, l = a ++ x :: b /\ (obj = Some (List.length a) \/ prop_eq tzo fl x p = Ok true) /\ Forall (fun y => prop_eq tzo fl y p = Ok false) a /\
      getProperties key qs = a ++ b /\ (hasProperty key qs = true <-> a ++ b <> []) /\ forall k, k <> key -> getProperties k qs = getProperties k ps
  | Raise e => e = ValueError /\ l <> [] /\ Forall (fun y => prop_eq tzo fl y p = Ok false) l /\ forall j, obj = Some j -> (List.length l <= j)%nat
  end.
Proof.
  intros tzo fl obj p ps D key l H. destruct (assoc key ps) as [m|] eqn:A.
  - assert (L : l = m) by (unfold l, getProperties; rewrite A; reflexivity). rewrite L in H.
    pose proof (take_none tzo fl obj p m 0 H) as T. destruct (take_out tzo fl obj p 0 m) as [r|e] eqn:E.
    + destruct (remove_cases tzo fl obj p ps r D) as (qs & -> & G & K & S & _); [fold key; rewrite A; exact E|]. right.
      destruct (take_ok tzo fl obj p m 0 r E) as (a & x & b & -> & -> & O & F). exists a, x, b. rewrite L. split; [reflexivity|]. split; [exact O|]. split; [exact F|]. split; [exact G|]. split; [exact S|exact K].
    + destruct T as (-> & J & F). unfold removeProperty. fold key. rewrite A, E. cbn [rbind]. split; [reflexivity|]. split.
      * rewrite L. intros ->. destruct D as [_ D]. rewrite Forall_forall in D. apply assoc_some in A. apply (D _ A). reflexivity.
      * rewrite L. split; [exact F|]. intros j Q. specialize (J j Q). destruct J as [J|J]; [inversion J|exact J].
  - assert (L : l = []) by (unfold l, getProperties; rewrite A; reflexivity). unfold removeProperty. fold key. rewrite A. left. split; [exact L|reflexivity].
Qed.
Print Assumptions C86_removed.

Definition text_prop_of (name s : bytes) : prop := mkProp name [] (Some (Single (VText s))).
Definition three : props := fold_left (fun ps p => addProperty p ps)
  [text_prop_of (lit "COMMENT") (lit "one"); text_prop_of (lit "SUMMARY") (lit "s"); text_prop_of (lit "COMMENT") (lit "two"); text_prop_of (lit "COMMENT") (lit "one")] [].
Lemma three_dict : dict_props three.
Proof. split; [repeat constructor; cbn; intuition discriminate|repeat constructor; discriminate]. Qed.
Example C86_removed_ex :
  dict_props three /\
  removeProperty tz_none fl0 None (text_prop_of (lit "COMMENT") (lit "two")) three =
    Ok [(lit "COMMENT", [text_prop_of (lit "COMMENT") (lit "one"); text_prop_of (lit "COMMENT") (lit "one")]); (lit "SUMMARY", [text_prop_of (lit "SUMMARY") (lit "s")])] /\
  removeProperty tz_none fl0 None (text_prop_of (lit "COMMENT") (lit "three")) three = Raise ValueError /\
  option_map (map fst) (match removeProperty tz_none fl0 None (text_prop_of (lit "SUMMARY") (lit "s")) three with Ok q => Some q | Raise _ => None end) = Some [lit "COMMENT"].
Proof. split; [exact three_dict|]. split; [vm_compute; reflexivity|]. split; [vm_compute; reflexivity|]. vm_compute. reflexivity. Qed.

(** A property that is added and then removed leaves no trace if none was equal to it. *)
Theorem C86_undone : forall tzo fl p ps, dict_props ps ->
  let l := getProperties (upper (pName p)) ps in
  Forall (fun y => prop_eq tzo fl y p = Ok false) l ->
  removeProperty tzo fl (Some (List.length l)) p (addProperty p ps) = Ok ps.
Proof. intros tzo fl p ps [_ D] l F. exact (add_remove tzo fl p ps D F). Qed.
Print Assumptions C86_undone.
Example C86_undone_ex :
  let p := text_prop_of (lit "Comment") (lit "one") in
  Forall (fun y => prop_eq tz_none fl0 y p = Ok false) (getProperties (upper (pName p)) three) /\
  removeProperty tz_none fl0 (Some 3%nat) p (addProperty p three) = Ok three.
Proof. cbv zeta. split; [|vm_compute; reflexivity]. repeat (constructor; [vm_compute; reflexivity|]). constructor. Qed.

(** Not true: the property object that is given is the one taken out.  An equal one that comes before it goes in its place, which can be
    one that is written in another way. *)
Theorem C86_object_refuted : exists p ps qs a b ta tb, dict_props ps /\ nth_error (getProperties (upper (pName p)) ps) 1 = Some p /\
  removeProperty tz_none fl0 (Some 1%nat) p ps = Ok qs /\ getProperties (upper (pName p)) ps = [a; b] /\ b = p /\ getProperties (upper (pName p)) qs = [b] /\
  prop_line fl0 a = Ok ta /\ prop_line fl0 b = Ok tb /\ ta <> tb.
Proof.
  set (a := mkProp (lit "RRULE") [] (Some (Single (VRecur (mkRule WEEKLY false 1 false None 1 None None None None None None (Some [1; 2]) None None 1))))).
  set (b := mkProp (lit "RRULE") [] (Some (Single (VRecur (mkRule WEEKLY false 1 false None 1 None None None None None None (Some [2; 1]) None None 1))))).
  exists b, [(lit "RRULE", [a; b])], [(lit "RRULE", [b])], a, b. do 2 eexists. split; [split; [repeat constructor; intros []|repeat constructor; discriminate]|]. split; [reflexivity|].
  split; [vm_compute; reflexivity|]. split; [reflexivity|]. split; [reflexivity|]. split; [reflexivity|]. split; [vm_compute; reflexivity|]. split; [vm_compute; reflexivity|]. discriminate.
Qed.
Print Assumptions C86_object_refuted.

(** RecurrenceSet.equalsRules: the two lists have the same rules, each as often, in any order, if every UNTIL is in UTC. *)
Theorem C86_rules : forall tzo l1 l2, Forall until_utc l1 -> Forall until_utc l2 ->
  exists b, equalsRules tzo l1 l2 = Ok b /\ (b = true <-> exists m, Permutation m l2 /\ Forall2 rules_same l1 m).
Proof.
  intros tzo l1 l2 U1 U2. unfold equalsRules. destruct (Nat.eqb (List.length l1) (List.length l2)) eqn:E; cbn [negb].
  - apply Nat.eqb_eq in E. destruct (match_is tzo l1 l2 U1 U2 E) as (b & M & B). destruct l1 as [|r l1]; [|exists b; split; assumption].
    exists b. split; [|exact B]. cbn in M. exact M.
  - exists false. split; [reflexivity|]. split; [discriminate|]. intros (m & P & F). exfalso. apply Nat.eqb_neq in E. apply E.
    rewrite <- (Permutation_length P). clear - F. induction F; cbn; congruence.
Qed.
Print Assumptions C86_rules.
Definition weekly_on (l : list Z) (u : option dt) : rule :=
  mkRule WEEKLY false 1 (match u with Some _ => true | None => false end) u 1 None None None None None None (Some l) None None 1.
Example C86_rules_ex :
  let u := newDateTime 2020 12 31 0 0 0 true TzNone in
  let a := [weekly_on [1; 2] None; weekly_on [3] (Some u); weekly_on [2; 1] None] in
  Forall until_utc a /\
  equalsRules tz_none a [weekly_on [3] (Some u); weekly_on [2; 1] None; weekly_on [2; 1] None] = Ok true /\
  equalsRules tz_none a [weekly_on [3] (Some u); weekly_on [2; 1] None; weekly_on [3] (Some u)] = Ok false.
Proof.
  cbv zeta. split; [|split; vm_compute; reflexivity].
  constructor; [exact I|]. constructor; [split; reflexivity|]. constructor; [exact I|constructor].
Qed.
