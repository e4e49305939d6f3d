(** Proofs about filtered output. *)
From Coq Require Import Lia ZifyBool ZifyNat.
From Verif Require Import PyBase PyProofs ParserCtx LineModel LineSpec LineProofs PropertyModel PropertySpec PropertyProofs PropertyProofs3
  ComponentModel ComponentSpec ComponentProofs ComponentProofs2 ComponentProofs3 JsonModel JsonProofs3 FilterModel FilterSpec.

(** ** The calls. *)
Lemma dict_get {A} k n (v : A) m : assoc k (dict_set n v m) = if beq n k then Some v else assoc k m.
Proof.
  induction m as [|[x w] m IH]; cbn [dict_set assoc]; [reflexivity|]. destruct (beq_case x n) as [[-> ->]|[Hx ->]]; cbn [assoc].
  - destruct (beq n k); reflexivity.
  - destruct (beq_case x k) as [[-> ->]|[_ ->]]; [|exact IH]. destruct (beq_case n k) as [[E _]|[_ ->]]; [congruence|reflexivity].
Qed.

Definition props_of (f : ofilter) (name : bytes) : option bool := match fProps f with Some m => assoc name m | None => None end.
Lemma calls_all t calls : isAllProperties (filter_of t calls) = asks_all calls.
Proof.
  unfold filter_of, asks_all. assert (H : forall f, isAllProperties (fold_left call calls f) = isAllProperties f || existsb (fun a => match a with AllProperties => true | _ => false end) calls).
  { induction calls as [|a calls IH]; intro f; cbn [fold_left existsb]; [rewrite orb_false_r; reflexivity|]. rewrite IH.
    destruct f as [? ? ? p ?], a; cbn [call setAllProperties filterProperty setAllSubComponents addSubComponent isAllProperties orb]; try rewrite orb_true_r; reflexivity. }
  rewrite H. reflexivity.
Qed.
Lemma calls_all_subs t calls : isAllSubComponents (filter_of t calls) = asks_all_subs calls.
Proof.
  unfold filter_of, asks_all_subs. assert (H : forall f, isAllSubComponents (fold_left call calls f) = isAllSubComponents f || existsb (fun a => match a with AllSubComponents => true | _ => false end) calls).
  { induction calls as [|a calls IH]; intro f; cbn [fold_left existsb]; [rewrite orb_false_r; reflexivity|]. rewrite IH.
    destruct f as [? a0 ? ? ?], a; cbn [call setAllProperties filterProperty setAllSubComponents addSubComponent isAllSubComponents orb]; try rewrite orb_true_r; reflexivity. }
  rewrite H. reflexivity.
Qed.
Lemma calls_said t calls name : asks_all calls = false -> props_of (filter_of t calls) name = said name calls.
Proof.
  unfold filter_of, said, asks_all. assert (H : forall f r, props_of f name = r -> existsb (fun a => match a with AllProperties => true | _ => false end) calls = false ->
    props_of (fold_left call calls f) name = fold_left (fun r a => match a with Property n v => if beq n name then Some v else r | _ => r end) calls r).
  { induction calls as [|a calls IH]; intros f r E N; cbn [fold_left existsb] in *; [exact E|]. apply orb_false_iff in N as [N1 N2]. apply IH; [|assumption].
    destruct f as [? ? ? ? q], a; try discriminate; try exact E. unfold props_of in *. cbn [call filterProperty fProps] in *. rewrite dict_get.
    destruct (beq name0 name); [reflexivity|]. destruct q; exact E. }
  intro N. apply H; [reflexivity|exact N].
Qed.
Lemma calls_test t calls name : fst (testPropertyValue (filter_of t calls) name) = passes calls name /\
  (passes calls name = true -> snd (testPropertyValue (filter_of t calls) name) = if asks_all calls then Some false else said name calls).
Proof.
  unfold testPropertyValue, passes. rewrite calls_all. destruct (asks_all calls) eqn:E; [split; reflexivity|]. cbn [orb].
  pose proof (calls_said t calls name E) as S. unfold props_of in S. destruct (fProps _) as [m|]; rewrite <- S; [|split; [reflexivity|discriminate]].
  destruct (assoc name m); split; try reflexivity; discriminate.
Qed.
Lemma calls_subs t calls type : testSubComponent (filter_of t calls) type =
  asks_all_subs calls || existsb (fun a => match a with SubComponent g => beq (fType g) type | _ => false end) calls.
Proof.
  unfold testSubComponent. rewrite calls_all_subs. destruct (asks_all_subs calls) eqn:N; [reflexivity|]. cbn [orb]. unfold filter_of, asks_all_subs in *.
  set (has := fun f => match fSubs f with Some m => match assoc type m with Some _ => true | None => false end | None => false end).
  change (has (fold_left call calls (newFilter t)) = existsb (fun a => match a with SubComponent g => beq (fType g) type | _ => false end) calls).
  assert (H : forall f, has (fold_left call calls f) = has f || existsb (fun a => match a with SubComponent g => beq (fType g) type | _ => false end) calls).
  { induction calls as [|a calls IH]; intro f; cbn [fold_left existsb] in *; [rewrite orb_false_r; reflexivity|]. apply orb_false_iff in N as [N1 N2]. rewrite IH by assumption.
    destruct f as [? ? s ? ?], a; try discriminate; try reflexivity. unfold has. cbn [call addSubComponent fSubs]. rewrite dict_get.
    destruct (beq (fType g) type); [rewrite !orb_true_r; reflexivity|]. destruct s; reflexivity. }
  rewrite H. reflexivity.
Qed.
Lemma calls_no_subs t calls : asks_subs calls = false -> hasSubComponentFilters (filter_of t calls) = false.
Proof.
  unfold filter_of, asks_subs, hasSubComponentFilters.
  assert (H : forall f, fSubs f = None -> existsb (fun a => match a with SubComponent _ => true | _ => false end) calls = false -> fSubs (fold_left call calls f) = None).
  { induction calls as [|a calls IH]; intros f E N; cbn [fold_left existsb] in *; [exact E|]. apply orb_false_iff in N as [N1 N2]. apply IH; [|assumption].
    destruct f, a; try discriminate; try exact E; reflexivity. }
  intro N. rewrite H by (try assumption; reflexivity). reflexivity.
Qed.
Lemma calls_no_props t calls name : hasPropertyFilters (filter_of t calls) = false -> asks_all calls = false -> said name calls = None.
Proof. intros H N. rewrite <- (calls_said t) by assumption. unfold props_of, hasPropertyFilters in *. destruct (fProps _); [discriminate|reflexivity]. Qed.

(** ** Removing properties. *)
Section Kept.
Variable pass : bytes -> bool.
Definition keep (ps : props) : props := filter (fun kl => pass (fst kl)) ps.
Lemma keys_keep ps : map fst (keep ps) = filter pass (map fst ps).
Proof. unfold keep. induction ps as [|[k l] ps IH]; [reflexivity|]. cbn [filter map fst]. destruct (pass k); cbn [map fst]; rewrite IH; reflexivity. Qed.
Lemma keep_NoDup ps : NoDup (map fst ps) -> NoDup (map fst (keep ps)).
Proof. intro N. rewrite keys_keep. apply NoDup_filter; assumption. Qed.
Lemma get_keep name ps : getProperties name (keep ps) = if pass name then getProperties name ps else [].
Proof.
  unfold getProperties, keep. induction ps as [|[k l] ps IH]; [destruct (pass name); reflexivity|]. cbn [filter fst assoc].
  destruct (beq_case k name) as [[-> Hb]|[Hk Hb]].
  - destruct (pass name) eqn:E; cbn [assoc]; rewrite ?Hb; [reflexivity|]. exact IH.
  - destruct (pass k); cbn [assoc]; rewrite ?Hb; exact IH.
Qed.
Lemma filter_order l : in_order (fun x : bytes => x) l -> in_order (fun x => x) (filter pass l).
Proof.
  induction 1 as [|x l Hx Hl IH]; [constructor|]. cbn [filter]. destruct (pass x); [|assumption]. constructor; [|assumption].
  rewrite Forall_forall in *. intros y I. apply filter_In in I. apply Hx, I.
Qed.
Lemma filter_perm {A} (p : A -> bool) l m : Permutation l m -> Permutation (filter p l) (filter p m).
Proof.
  induction 1; cbn [filter]; repeat match goal with |- context [if ?b then _ else _] => destruct b end; auto.
  - constructor.
  - etransitivity; eassumption.
Qed.
Lemma sort_filter l : NoDup l -> sort_by (fun x => x) (filter pass l) = filter pass (sort_by (fun x => x) l).
Proof.
  intro N. rewrite <- (sort_sorted (fun x => x) (filter pass (sort_by (fun x => x) l))) by (apply filter_order, sort_order).
  apply sort_by_perm; [rewrite map_id; apply NoDup_filter; assumption|]. apply filter_perm. symmetry. apply sort_perm.
Qed.
Lemma filter_remove s l : filter pass (remove_key s l) = if pass s then remove_key s (filter pass l) else filter pass l.
Proof.
  induction l as [|y l IH]; [destruct (pass s); reflexivity|]. cbn [remove_key filter]. destruct (beq_case y s) as [[-> E]|[Hy E]]; rewrite E.
  - destruct (pass s) eqn:Ps; [cbn [remove_key]; rewrite E|]; reflexivity.
  - cbn [filter]. rewrite IH. destruct (pass y), (pass s); try reflexivity. cbn [remove_key]. rewrite E. reflexivity.
Qed.
Lemma in_keys s l : existsb (beq s) l = true <-> In s l.
Proof.
  rewrite existsb_exists. split.
  - intros (x & I & E). destruct (beq_case s x) as [[-> _]|[_ X]]; [assumption|congruence].
  - intro I. exists s. split; [assumption|apply beq_refl].
Qed.
Lemma order_filter order : forall keys, keys_in_order order (filter pass keys) = filter pass (keys_in_order order keys).
Proof.
  induction order as [|s r IH]; intro keys; [reflexivity|]. cbn [keys_in_order].
  destruct (existsb (beq s) keys) eqn:E.
  - cbn [filter]. rewrite <- IH, filter_remove. destruct (pass s) eqn:Ps.
    + assert (existsb (beq s) (filter pass keys) = true) as ->; [|reflexivity]. apply in_keys in E. apply in_keys, filter_In. auto.
    + assert (existsb (beq s) (filter pass keys) = false) as ->; [|reflexivity]. destruct (existsb _ (filter _ _)) eqn:X; [|reflexivity].
      apply in_keys, filter_In in X. destruct X; congruence.
  - assert (existsb (beq s) (filter pass keys) = false) as ->; [|apply IH]. destruct (existsb _ (filter _ _)) eqn:X; [|reflexivity].
    apply in_keys, filter_In in X. destruct X as [X _]. apply in_keys in X. congruence.
Qed.
Lemma written_keep k ps : filed ps -> written_props k (keep ps) = filter (fun p => pass (upper (pName p))) (written_props k ps).
Proof.
  intros [N F]. unfold written_props, sortedPropertyKeys. rewrite keys_keep, sort_filter by assumption. rewrite order_filter.
  induction (keys_in_order _ _) as [|key l IH]; [reflexivity|]. cbn [filter flat_map]. rewrite filter_app, <- IH.
  assert (G : forall p, In p (getProperties key ps) -> upper (pName p) = key).
  { intros p I. destruct (get_in key ps N p I) as (m & I1 & I2). rewrite Forall_forall in F. specialize (F _ I1). cbn [fst snd] in F.
    rewrite Forall_forall in F. apply F; assumption. }
  destruct (pass key) eqn:E; cbn [flat_map].
  - rewrite get_keep, E. f_equal. symmetry. clear IH. induction (getProperties key ps) as [|p m IH]; [reflexivity|]. cbn [filter].
    rewrite (G p) by (left; reflexivity). rewrite E. f_equal. apply IH. intros; apply G; right; assumption.
  - assert (filter (fun p => pass (upper (pName p))) (getProperties key ps) = []) as ->; [|reflexivity].
    induction (getProperties key ps) as [|p m IH']; [reflexivity|]. cbn [filter]. rewrite (G p) by (left; reflexivity). rewrite E. apply IH'. intros; apply G; right; assumption.
Qed.
End Kept.

Lemma write_skip fl (pass : prop -> bool) W R :
  write_all (map (fun p => if pass p then prop_generate fl p else Some (Ok [])) W ++ R) = write_all (map (prop_generate fl) (filter pass W) ++ R).
Proof.
  induction W as [|p W IH]; [reflexivity|]. cbn [map filter app write_all]. destruct (pass p); cbn [map app write_all]; rewrite IH; [reflexivity|].
  destruct (write_all (map (prop_generate fl) (filter pass W) ++ R)) as [[]|]; reflexivity.
Qed.
Lemma written_upper k ps p : filed ps -> In p (written_props k ps) -> In (upper (pName p)) (map fst ps).
Proof.
  intros [N F] I. destruct (written_in ps N k p I) as (key & l & I1 & I2). rewrite Forall_forall in F. specialize (F _ I1). cbn [fst snd] in F.
  rewrite Forall_forall in F. rewrite (F p I2). apply in_map_iff. exists (key, l). auto.
Qed.

Lemma filtered_prop fl t calls ps k p : filed ps -> with_values calls (Comp k (newState []) ps []) -> In (upper (pName p)) (map fst ps) ->
  prop_generateFiltered fl (filter_of t calls) p = if passes calls (upper (pName p)) then prop_generate fl p else Some (Ok []).
Proof.
  intros F W I. unfold prop_generateFiltered. destruct (calls_test t calls (upper (pName p))) as [A B].
  destruct (testPropertyValue _ _) as [b v]. cbn [fst snd] in *. rewrite A. destruct (passes _ _); [|reflexivity]. rewrite (B eq_refl).
  assert (E : (match (if asks_all calls then Some false else said (upper (pName p)) calls) with Some true => true | _ => false end) = false).
  { destruct (asks_all calls) eqn:Ea; [reflexivity|]. destruct W as [W|W]; [congruence|]. specialize (W _ I). destruct (said _ calls) as [[]|]; try reflexivity. congruence. }
  rewrite E. reflexivity.
Qed.

Lemma filtered_text fl t calls c : filed (cProps c) -> with_values calls c -> (asks_all_subs calls = true \/ asks_subs calls = false) ->
  generateFiltered fl (filter_of t calls) c = generate fl (kept calls c).
Proof.
  destruct c as [k s ps subs]. cbn [cProps]. intros F W S. unfold generateFiltered. cbn [kept generate].
  assert (P : forall R, write_all (writePropertiesFiltered fl (filter_of t calls) k ps ++ R) = write_all (map (prop_generate fl) (written_props k (kept_props calls ps)) ++ R)).
  { intro R. change (kept_props calls ps) with (keep (passes calls) ps). rewrite written_keep by assumption. rewrite <- write_skip.
    unfold writePropertiesFiltered. rewrite calls_all. destruct (asks_all calls) eqn:Ea.
    - unfold passes. rewrite Ea. cbn [orb]. f_equal.
    - destruct (hasPropertyFilters _) eqn:Eh.
      + f_equal. f_equal. apply map_ext_in. intros p I. apply (filtered_prop fl t calls ps k); [assumption|exact W|]. eapply written_upper; eassumption.
      + assert (X : forall l, write_all (map (fun p => if passes calls (upper (pName p)) then prop_generate fl p else Some (Ok [])) l ++ R) = write_all R).
        { induction l as [|p l IH]; [reflexivity|]. cbn [map app write_all]. unfold passes at 1. rewrite Ea, (calls_no_props t) by assumption. cbn [orb].
          rewrite IH. destruct (write_all R) as [[]|]; reflexivity. }
        rewrite X. reflexivity. }
  assert (Q : writeComponentsFiltered fl (filter_of t calls) k subs =
    map snd (sortedComponents fst k (map (fun d => (d, generate fl d)) (if asks_all_subs calls then subs else [])))).
  { unfold writeComponentsFiltered. rewrite calls_all_subs. destruct (asks_all_subs calls); [reflexivity|]. destruct S as [S|S]; [discriminate|].
    rewrite calls_no_subs by assumption. rewrite (sorted_snd (generate fl)). pose proof (sorted_perm k []) as Z. apply Permutation_sym, Permutation_nil in Z. rewrite Z. reflexivity. }
  rewrite Q. cbn [write_all]. rewrite P. reflexivity.
Qed.

(** ** A property without its value. *)
Lemma no_value_line fl p l : prop_line fl p = Ok l -> exists h v, l = (h ++ lit ":") ++ v /\ line_novalue fl true p = Ok (h ++ lit ":") /\
  match pValue p with Some x => value_generate fl x = Ok v | None => v = [] end.
Proof.
  unfold prop_line, line_novalue, gen_line. cbv zeta. cbn [lGroup lName lParams lValue]. destruct (pValue p) as [x|]; cbn [rbind].
  - destruct (value_generate fl x) as [s|]; [|discriminate]. cbn [rbind]. intros [= <-]. eexists. exists s. split; [|split; [|reflexivity]].
    2:{ f_equal. cbn [app]. rewrite app_assoc. reflexivity. }
    cbn [app]. rewrite <- !app_assoc. reflexivity.
  - intros [= <-]. eexists. exists []. split; [|split; [|reflexivity]].
    2:{ f_equal. cbn [app]. rewrite app_assoc. reflexivity. }
    cbn [app]. rewrite app_nil_r, <- app_assoc. reflexivity.
Qed.

(** ** Reading it back. *)
Lemma ok_filed ctx fl ps : props_ok ctx fl ps -> filed ps.
Proof.
  intros [N F]. split; [assumption|]. eapply Forall_impl; [|exact F]. intros [k l] (_ & _ & _ & G). cbn [fst snd] in *.
  eapply Forall_impl; [|exact G]. intros p H; apply H.
Qed.
Lemma kept_ok ctx fl calls c : calendar_ok ctx fl c -> passes calls (lit "VERSION") = true -> calendar_ok ctx fl (kept calls c).
Proof.
  destruct c as [k s ps subs]. intros (K & [N F] & V & C & T) Pv. cbn [cKind cProps cSubs kept] in *.
  change (kept_props calls ps) with (keep (passes calls) ps).
  assert (I : forall kl, In kl (keep (passes calls) ps) -> In kl ps) by (unfold keep; intros kl I; apply filter_In in I; apply I).
  split; [assumption|]. split; [|split; [|split]].
  - split; [apply keep_NoDup; assumption|]. rewrite Forall_forall in *. auto.
  - unfold cProps. rewrite get_keep, Pv. assumption.
  - cbn [cProps]. rewrite Forall_forall in *. intros p J. apply C. apply in_concat in J. destruct J as (l & J1 & J2). apply in_map_iff in J1.
    destruct J1 as (kl & <- & J1). apply in_concat. exists (snd kl). split; [apply in_map, I; assumption|assumption].
  - cbn [cSubs]. destruct (asks_all_subs calls); [assumption|constructor].
Qed.

(** ** JSON. *)
Lemma filtered_json t calls c : filed (cProps c) -> with_values calls c ->
  (cSubs c = [] \/ asks_all_subs calls = false /\ asks_subs calls = false) ->
  writeJSONFiltered (filter_of t calls) c = writeJSON (kept calls c).
Proof.
  destruct c as [k s ps subs]. cbn [cProps cSubs]. intros F W S. unfold writeJSONFiltered. cbn [kept cKind cProps]. rewrite writeJSON_eq.
  assert (P : writePropertiesFilteredJSON (filter_of t calls) k ps = map_r prop_writeJSON (written_props k (kept_props calls ps))).
  { change (kept_props calls ps) with (keep (passes calls) ps). rewrite written_keep by assumption.
    unfold writePropertiesFilteredJSON. rewrite calls_all. destruct (asks_all calls) eqn:Ea.
    - unfold passes. rewrite Ea. cbn [orb]. f_equal. induction (written_props k ps) as [|p l IH]; [reflexivity|]. cbn [filter]. f_equal. exact IH.
    - assert (G : forall p, In p (written_props k ps) -> prop_writeJSONFiltered (filter_of t calls) p =
        if passes calls (upper (pName p)) then do j <- prop_writeJSON p; Ok [j] else Ok []).
      { intros p I. apply (written_upper _ _ _ F) in I. unfold prop_writeJSONFiltered. destruct (calls_test t calls (upper (pName p))) as [A B].
        destruct (testPropertyValue _ _) as [b v]. cbn [fst snd] in *. rewrite A. destruct (passes _ _); [|reflexivity]. rewrite (B eq_refl), Ea.
        destruct W as [W|W]; [congruence|]. specialize (W _ I). destruct (said _ calls) as [[]|]; try reflexivity. congruence. }
      destruct (hasPropertyFilters _) eqn:Eh.
      + clear - G. induction (written_props k ps) as [|p l IH]; [reflexivity|]. cbn [map_r filter]. rewrite G by (left; reflexivity).
        specialize (IH (fun q I => G q (or_intror I))). destruct (passes calls (upper (pName p))).
        * cbn [map_r]. destruct (prop_writeJSON p); cbn [rbind]; [|reflexivity]. rewrite <- IH. destruct (map_r _ l); reflexivity.
        * cbn [rbind]. rewrite <- IH. destruct (map_r _ l); reflexivity.
      + assert (X : filter (fun p => passes calls (upper (pName p))) (written_props k ps) = []).
        { induction (written_props k ps) as [|p l IH]; [reflexivity|]. cbn [filter]. unfold passes at 1. rewrite Ea, (calls_no_props t) by assumption. cbn [orb].
          apply IH. intros; apply G; right; assumption. }
        rewrite X. reflexivity. }
  rewrite P. assert (Q : writeComponentsFilteredJSON (filter_of t calls) (Comp k s ps subs) =
    all_json (map writeJSON (sortedComponents (fun c => c) k (if asks_all_subs calls then subs else [])))).
  { assert (Z : sortedComponents (fun c => c) k [] = []) by (pose proof (sorted_perm k []) as Z; apply Permutation_sym, Permutation_nil in Z; exact Z).
    unfold writeComponentsFilteredJSON. cbn [cSubs]. destruct S as [-> | [S1 S2]].
    - destruct (asks_all_subs calls); rewrite Z; reflexivity.
    - rewrite calls_all_subs, S1, calls_no_subs, Z by assumption. destruct subs; reflexivity. }
  rewrite Q. reflexivity.
Qed.
