(** The jCal form of the properties, components and calendars that are written. *)
From Coq Require Import Lia.
From Verif Require Import PyBase PyProofs RecurModel RecurTextProofs2 LineProofs PropertyProofs3 ComponentProofs2 ComponentProofs3 JsonModel JsonProofs JsonProofs2 JsonProofs3 FilterModel
  XmlModel XmlSpec XmlProofs XmlProofs2.

Section WithFloats.
Variable fl : floats.

Lemma item_xml_json i : item_xml_ok fl i -> exists x j n, item_xml fl i = Ok x /\ item_json i = Ok j /\ json_name (item_type i) = Some n /\ raw x /\
  forall y, sim x y -> node_name y = n /\ value_of fl y = Some j.
Proof.
  assert (P : forall n s, xname n = true -> lower n = n -> xml_text_ok s ->
    In n [lit "binary"; lit "cal-address"; lit "date"; lit "date-time"; lit "text"; lit "unknown"; lit "uri"; lit "utc-offset"] ->
    raw (leaf n s) /\ forall y, sim (leaf n s) y -> node_name y = n /\ value_of fl y = Some (JText s)).
  { intros n s X L T I. split; [eapply raw_leaf; [rewrite L; exact X|reflexivity|exact T]|]. intros y S. destruct (sim_leaf_text _ _ _ S) as [N E]. rewrite L in N.
    split; [exact N|]. unfold value_of, named. rewrite N, E. repeat (destruct I as [<-|I]; [reflexivity|]). destruct I. }
  intro H. destruct i as [s|k s|s|n|n|x|a b|d|d|p|r|l]; cbn [item_xml_ok] in H; try contradiction.
  - exists (leaf (lit "text") s), (JText s), (lit "text"). repeat (split; [reflexivity|]). apply P; try reflexivity; [exact H|cbn; tauto].
  - destruct s as [s|]; [|contradiction]. destruct k;
      [exists (leaf (lit "binary") s), (JText s), (lit "binary")|exists (leaf (lit "cal-address") s), (JText s), (lit "cal-address")|exists (leaf (lit "unknown") s), (JText s), (lit "unknown")];
      repeat (split; [reflexivity|]); (apply P; try reflexivity; [exact H|cbn; tauto]).
  - destruct s as [s|]; [|contradiction]. exists (leaf (lit "uri") s), (JText s), (lit "uri"). repeat (split; [reflexivity|]). apply P; try reflexivity; [exact H|cbn; tauto].
  - exists (leaf (lit "integer") (pystr n)), (JNum n), (lit "integer"). repeat (split; [reflexivity|]). split; [apply raw_leaf_ok; [reflexivity|apply plain_pystr]|].
    intros y S. destruct (number_leaf _ _ _ S) as [N E]. split; [exact N|]. unfold value_of, named. rewrite N, E. reflexivity.
  - exists (leaf (lit "utc-offset") (utcoffset_xml n)), (JText (utcoffset_generate true n)), (lit "utc-offset"). repeat (split; [reflexivity|]). rewrite (offset_same n H).
    apply P; try reflexivity; [|cbn; tauto]. apply plain_spec. unfold utcoffset_generate. cbv zeta. pla.
  - destruct H as [R T]. exists (leaf (lit "float") (fl_str fl x)), (JFloat x), (lit "float"). repeat (split; [reflexivity|]). split; [eapply raw_leaf; [reflexivity|reflexivity|exact T]|].
    intros y S. destruct (sim_leaf_text _ _ _ S) as [N E]. split; [exact N|]. unfold value_of, named. rewrite N, E, R. reflexivity.
  - exists (date_xml d), (JText (getXMLText d)), (if mDateOnly d then lit "date" else lit "date-time"). split; [reflexivity|]. split; [reflexivity|].
    split; [cbn; destruct (mDateOnly d); reflexivity|]. unfold date_xml. destruct (mDateOnly d); (apply P; try reflexivity; [apply plain_spec, plain_xml|cbn; tauto]).
  - destruct (json_total r H) as (m & M). destruct (rule_xml_json r m M) as (l & E & R & G). exists (element (lit "recur") XNone l), (JObj (map member_json m)), (lit "recur").
    cbn [item_xml item_json item_type]. rewrite E, M. repeat (split; [reflexivity|]). split; [apply raw_branch; [reflexivity|exact R]|].
    intros y S. destruct (sim_name _ _ _ _ _ S) as [N _]. split; [exact N|]. destruct (sim_children _ _ _ _ S) as (k & K & F). unfold value_of, named. rewrite N, K. cbn [beq]. rewrite (G k F). reflexivity.
Qed.
Lemma items_xml_json t l n : json_name t = Some n -> Forall (fun i => item_type i = t /\ item_xml_ok fl i) l -> exists xs js, map_r (item_xml fl) l = Ok xs /\ map_r item_json l = Ok js /\ Forall raw xs /\ List.length xs = List.length l /\
  forall ys, Forall2 sim xs ys -> Forall (fun y => node_name y = n) ys /\ all_some (value_of fl) ys = Some js.
Proof.
  intro J. induction 1 as [|i l [T H] _ (xs & js & E1 & E2 & R & L & G)].
  - exists [], []. repeat (split; [try reflexivity; constructor|]). intros ys F. inversion F; subst. split; [constructor|reflexivity].
  - destruct (item_xml_json i H) as (x & j & n' & X & Y & N & R1 & G1). rewrite T, J in N. injection N as <-. exists (x :: xs), (j :: js). cbn [map_r]. rewrite X, Y, E1, E2. cbn [rbind].
    repeat (split; [reflexivity|]). split; [constructor; assumption|]. split; [cbn; rewrite L; reflexivity|]. intros ys F. inversion F as [|a b c d S F']; subst. destruct (G1 _ S) as [N1 V1]. destruct (G _ F') as [N2 V2].
    split; [constructor; assumption|]. cbn [all_some]. rewrite V1. fold (all_some (value_of fl)). rewrite V2. reflexivity.
Qed.
Lemma value_xml_json v n : json_name (value_type v) = Some n -> value_xml_ok fl v -> exists xs js, value_xml fl v = Ok xs /\ value_json v = Ok (JText n :: js) /\ Forall raw xs /\ xs <> [] /\
  forall ys, Forall2 sim xs ys -> Forall (fun y => node_name y = n) ys /\ all_some (value_of fl) ys = Some js.
Proof.
  intros J H. unfold value_json. rewrite J. destruct v as [i|t l].
  - destruct (items_xml_json (item_type i) [i] n J) as (xs & js & A & B & R & L & G); [constructor; [split; [reflexivity|exact H]|constructor]|]. cbn [map_r] in A, B.
    cbn [value_xml]. destruct (item_xml fl i) as [x|]; [|discriminate A]. destruct (item_json i) as [j|]; [|discriminate B]. cbn [rbind] in *. apply Ok_inj in A, B. subst xs js.
    exists [x], [j]. repeat (split; [reflexivity|]). split; [exact R|]. split; [discriminate|exact G].
  - destruct H as [NE H]. destruct (items_xml_json t l n J H) as (xs & js & A & B & R & L & G). exists xs, js. cbn [value_xml]. rewrite A, B. repeat (split; [reflexivity|]). split; [exact R|].
    split; [intros ->; destruct l; [apply NE; reflexivity|discriminate L]|exact G].
Qed.

Lemma param_xml_json p y : xname (lower (fst p)) = true -> sim (param_xml p) y -> parameter_of y = Some (lower (fst p), match snd p with [s] => JText s | l => JArr (map JText l) end).
Proof.
  intros N S. destruct (sim_name _ _ _ _ _ S) as [E _]. destruct (sim_children _ _ _ _ S) as (l & C & F). destruct (sims_leaves _ _ _ [] F) as [A T].
  unfold parameter_of. rewrite C, T, E. assert (X : forallb (named (lit "text")) l = true).
  { apply forallb_forall. intros x I. apply named_true. rewrite Forall_forall in A. exact (A x I). }
  rewrite X. destruct (snd p) as [|a [|b r]]; reflexivity.
Qed.
Lemma params_xml_json ps : params_json_ok ps -> Forall (fun kl => Forall (fun q => name_ok (fst q) /\ Forall xml_text_ok (snd q)) (snd kl)) ps ->
  ps = [] \/ exists x, params_xml ps = [x] /\ raw x /\ forall y, sim x y -> named (lit "parameters") y = true /\
    exists k, children y = Some k /\ all_some parameter_of k = Some (params_json ps).
Proof.
  intros OK T. assert (D : ps = [] \/ ps <> []) by (destruct ps; [left; reflexivity|right; discriminate]). destruct D as [D|D]; [left; exact D|right].
  eexists. split; [unfold params_xml; destruct ps; [contradiction D; reflexivity|reflexivity]|].
  set (fs := filter (fun p => negb (beq (lower (fst p)) (lit "value"))) (flat_map snd (sort_by fst ps))).
  assert (Q : Forall (fun q => name_ok (fst q) /\ Forall xml_text_ok (snd q)) fs).
  { apply Forall_forall. intros q I. apply filter_In in I. destruct I as [I _]. apply in_flat_map in I. destruct I as (kl & I & J).
    assert (I' : In kl ps) by (eapply Permutation_in; [apply sort_perm|exact I]). rewrite Forall_forall in T. specialize (T kl I'). rewrite Forall_forall in T. exact (T q J). }
  assert (JS : exists es, fs = map as_param es /\ params_json ps = map as_member es).
  { pose proof (sort_perm fst ps) as P. destruct (flat_entries (sort_by fst ps)) as (es & E & N & F & _ & L); [eapply params_ok_perm; [symmetry; exact P|exact OK]|].
    exists es. split; [exact E|]. change (params_json ps) with (fold_left param_json fs []). change fs with (filter not_value (flat_map snd (sort_by fst ps))). rewrite E.
    rewrite fold_json; [reflexivity|apply lower_NoDup; assumption|]. intros e _ []. }
  destruct JS as (es & EF & EJ). split.
  - apply raw_branch; [reflexivity|]. apply Forall_map. eapply Forall_impl; [|exact Q]. intros q [N X]. apply raw_branch; [exact N|]. apply Forall_map. eapply Forall_impl; [|exact X].
    intros s Ts. eapply raw_leaf; [reflexivity|reflexivity|exact Ts].
  - intros y S. destruct (sim_name _ _ _ _ _ S) as [E _]. split; [apply named_true; exact E|]. destruct (sim_children _ _ _ _ S) as (k & C & F). exists k. split; [exact C|].
    rewrite EJ. rewrite EF in F, Q. rewrite map_map in F. clear - F Q. revert k F. induction es as [|e es IH]; intros k F; cbn [map] in *; inversion F as [|a b c d S F']; subst; [reflexivity|].
    inversion Q as [|a2 b2 [N _] Q']; subst. cbn [all_some]. rewrite (param_xml_json _ _ N S). fold (all_some parameter_of). rewrite (IH Q' _ F'). reflexivity.
Qed.

Lemma json_name_not t n : json_name t = Some n -> n <> lit "parameters".
Proof. destruct t; intro H; cbn in H; try discriminate H; injection H as <-; discriminate. Qed.
Lemma type_named p v z : pValue p = Some v -> type_json_ok (pName p) v -> value_json_ok z v -> exists n, json_name (value_type v) = Some n.
Proof.
  intros _ [T _] _. destruct v as [i|t l].
  - cbn [value_type]. destruct i as [s|[]|s|n|n|x|a b|d|d|q|r|l]; cbn; try (eexists; reflexivity). destruct (mDateOnly d); eexists; reflexivity.
  - destruct T as (_ & A & B). cbn. destruct t; try (eexists; reflexivity); contradiction.
Qed.
Lemma prop_xml_json nv p : prop_xml_ok fl p -> exists x j, generateValueXML fl nv p = Ok x /\ generateValueJSON nv p = Ok j /\ raw x /\
  forall y, sim x y -> property_of fl y = Some j.
Proof.
  intros ((PJ & v & z & EV & TZ & TJ & VJ) & N & T & V). rewrite EV in V. destruct (type_named p v z EV TJ VJ) as (n & J).
  destruct (value_xml_json v n J V) as (xs & js & EX & EJ & R & NE & G).
  assert (PX : exists px, params_xml (pParams p) = px /\ Forall raw px /\ forall vs ys, Forall2 sim (px ++ vs) ys -> exists ps_nodes vs_nodes, ys = ps_nodes ++ vs_nodes /\ Forall2 sim vs vs_nodes /\
    match ps_nodes with
    | [] => params_json (pParams p) = []
    | [y] => named (lit "parameters") y = true /\ exists k, children y = Some k /\ all_some parameter_of k = Some (params_json (pParams p))
    | _ => False
    end).
  { destruct (params_xml_json (pParams p) PJ T) as [E | (x & E & Rx & Gx)]; rewrite E.
    - exists []. split; [reflexivity|]. split; [constructor|]. intros vs ys F. exists [], ys. split; [reflexivity|]. split; [exact F|reflexivity].
    - exists [x]. split; [reflexivity|]. split; [constructor; [exact Rx|constructor]|]. intros vs ys F. inversion F as [|a b c d S F']; subst. exists [b], d. split; [reflexivity|]. split; [exact F'|]. apply Gx. exact S. }
  destruct PX as (px & EP & RP & GP). unfold generateValueXML, generateValueJSON, prop_writeJSON. rewrite EV, EP, EX, EJ. cbn [rbind].
  destruct nv; (eexists; eexists; split; [reflexivity|]; split; [reflexivity|]; split; [apply raw_branch; [exact N|]; apply Forall_app; split; [exact RP|try exact R; constructor]|]);
    intros y S; destruct (sim_name _ _ _ _ _ S) as [Ny _]; destruct (sim_children _ _ _ _ S) as (l & C & F);
    destruct (GP _ _ F) as (pn & vn & -> & Fv & K); unfold property_of; rewrite C, Ny.
  - inversion Fv; subst. destruct pn as [|y1 [|y2 r]]; [|destruct K as (K1 & k & K2 & K3)|destruct K].
    + cbn [app]. rewrite K. reflexivity.
    + cbn [app]. rewrite K1, K2, K3. reflexivity.
  - destruct (G vn Fv) as [Nv Vv]. assert (Hv : exists v0 r0, vn = v0 :: r0) by (destruct vn; [inversion Fv; subst; contradiction NE; reflexivity|eauto]). destruct Hv as (v0 & r0 & ->).
    inversion Nv as [|a b N0 Nr]. subst.
    assert (X : forallb (named (node_name v0)) (v0 :: r0) = true) by (apply forallb_forall; intros q I; apply named_true; rewrite Forall_forall in Nv; exact (Nv q I)).
    assert (Y : named (lit "parameters") v0 = false).
    { unfold named. destruct (beq_case (node_name v0) (lit "parameters")) as [[E _]|[_ E]]; [destruct (json_name_not _ _ J E)|exact E]. }
    destruct pn as [|y1 [|y2 r]]; [|destruct K as (K1 & k & K2 & K3)|destruct K].
    + cbn [app]. rewrite Y, X, Vv, K. reflexivity.
    + cbn [app]. rewrite K1, K2, K3, X, Vv. reflexivity.
Qed.
Lemma props_xml_json l : Forall (prop_xml_ok fl) l -> exists xs js, map_r (prop_writeXML fl) l = Ok xs /\ map_r prop_writeJSON l = Ok js /\ Forall raw xs /\
  forall ys, Forall2 sim xs ys -> all_some (property_of fl) ys = Some js.
Proof.
  induction 1 as [|p l H _ (xs & js & A & B & R & G)]; [exists [], []; repeat (split; [try reflexivity; constructor|]); intros ys F; inversion F; reflexivity|].
  destruct (prop_xml_json false p H) as (x & j & X & J & R1 & G1). change (generateValueXML fl false p) with (prop_writeXML fl p) in X. change (generateValueJSON false p) with (prop_writeJSON p) in J.
  exists (x :: xs), (j :: js). cbn [map_r]. rewrite X, J, A, B. repeat (split; [reflexivity|]). split; [constructor; assumption|].
  intros ys F. inversion F as [|a b c d S F']; subst. cbn [all_some]. rewrite (G1 _ S). fold (all_some (property_of fl)). rewrite (G _ F'). reflexivity.
Qed.

Lemma writeXML_eq k s ps subs : writeXML fl (Comp k s ps subs) =
  (do pl <- map_r (prop_writeXML fl) (written_props k ps);
   do cl <- all_xml (map (writeXML fl) (sortedComponents (fun c => c) k subs));
   Ok (element (getType k) XNone
        (element (lit "properties") XNone pl :: match subs with [] => [] | _ => [element (lit "components") XNone cl] end))).
Proof. rewrite <- (sorted_snd (writeXML fl)). reflexivity. Qed.
Definition same_forms (c : comp) : Prop := exists x j, writeXML fl c = Ok x /\ writeJSON c = Ok j /\ raw x /\ forall y, sim x y -> component_of fl y = Some j.
Lemma all_forms l : Forall same_forms l -> exists xs js, all_xml (map (writeXML fl) l) = Ok xs /\ all_json (map writeJSON l) = Ok js /\ Forall raw xs /\
  forall ys, Forall2 sim xs ys -> all_some (component_of fl) ys = Some js.
Proof.
  induction 1 as [|c l (x & j & X & J & R & G) _ (xs & js & Xs & Js & Rs & Gs)]; [exists [], []; repeat (split; [try reflexivity; constructor|]); intros ys F; inversion F; reflexivity|].
  exists (x :: xs), (j :: js). cbn [map all_xml all_json]. rewrite X, J, Xs, Js. repeat (split; [reflexivity|]). split; [constructor; assumption|].
  intros ys F. inversion F as [|a b c0 d S F']; subst. cbn [all_some]. rewrite (G _ S). fold (all_some (component_of fl)). rewrite (Gs _ F'). reflexivity.
Qed.
Lemma written_xml_ok k ps : props_xml_ok fl ps -> Forall (prop_xml_ok fl) (written_props k ps).
Proof.
  intros [ND H]. apply Forall_forall. intros p I. destruct (written_in ps ND k p I) as (key & l & I1 & I2). rewrite Forall_forall in H. specialize (H _ I1). rewrite Forall_forall in H. exact (H p I2).
Qed.
Lemma tree_forms c : tree_xml_ok fl c -> same_forms c.
Proof.
  induction c as [k s ps subs IH] using comp_tree_ind. intro T. inversion T as [? ? ? ? N P Ts]; subst.
  set (l := sortedComponents (fun c => c) k subs). assert (Pl : Permutation l subs) by apply sorted_perm.
  assert (Hl : Forall same_forms l) by (eapply Permutation_Forall; [symmetry; exact Pl|]; rewrite Forall_forall in *; auto).
  destruct (all_forms l Hl) as (xs & js & Xs & Js & Rs & Gs). destruct (props_xml_json _ (written_xml_ok k ps P)) as (px & pj & PX & PJ & RP & GP).
  unfold same_forms. rewrite writeXML_eq, writeJSON_eq. fold l. rewrite Xs, Js, PX, PJ. cbn [rbind]. eexists. eexists. split; [reflexivity|]. split; [reflexivity|].
  assert (RX : Forall raw (match subs with [] => [] | _ => [element (lit "components") XNone xs] end)).
  { destruct subs; constructor; [|constructor]. apply raw_branch; [reflexivity|exact Rs]. }
  split; [apply raw_branch; [exact N|constructor; [apply raw_branch; [reflexivity|exact RP]|exact RX]]|].
  intros y S. inversion S as [|a b c d e f g NE B1 B2 F]; subst. inversion F as [|x1 y1 xr yr S1 F1]; subst.
  destruct (sim_name _ _ _ _ _ S1) as [N1 B3]. destruct (sim_children _ _ _ _ S1) as (pk & C1 & Fp). cbn [component_of]. assert (N1' : named (lit "properties") y1 = true) by (apply named_true; exact N1). rewrite B1, N1', B3. cbn [andb]. rewrite C1, (GP _ Fp).
  destruct subs as [|c0 r0].
  - inversion F1; subst. assert (E : js = []). { unfold l in Js. destruct k; cbn in Js; apply Ok_inj in Js; symmetry; exact Js. } subst js. reflexivity.
  - inversion F1 as [|x2 y2 xr2 yr2 S2 F2]; subst. inversion F2; subst. destruct (sim_name _ _ _ _ _ S2) as [N2 B4]. destruct y2 as [n2 t2 l2 u2]. cbn [node_name node_tail] in N2, B4. subst n2.
    destruct (sim_children _ _ _ _ S2) as (ck & C2 & Fc). cbn [children] in C2. destruct (blank t2 && forallb (fun k0 => blank (node_tail k0)) l2) eqn:B5; [|discriminate C2]. injection C2 as <-. apply andb_prop in B5. destruct B5 as [B5 B6].
    rewrite B5, B4, B6. change (beq (lower (lit "components")) (lit "components")) with true. cbn [andb]. rewrite (Gs _ Fc). reflexivity.
Qed.
Lemma calendar_forms c : tree_xml_ok fl c -> exists s j, getTextXML fl c = Ok s /\ jcal fl s = Some j /\ writeJSON c = Ok j.
Proof.
  intro T. destruct (tree_forms c T) as (x & j & X & J & R & G). unfold getTextXML. rewrite X. cbn [rbind].
  destruct (document (element (lit "icalendar") XNone [x])) as (s & y & Es & Ry & S); [apply raw_branch; [reflexivity|constructor; [exact R|constructor]]|].
  exists s, j. split; [exact Es|]. split; [|exact J]. unfold jcal. rewrite Ry. destruct (sim_name _ _ _ _ _ S) as [N _]. assert (N' : named (lit "icalendar") y = true) by (apply named_true; exact N). rewrite N'.
  destruct (sim_children _ _ _ _ S) as (l & C & F). rewrite C. inversion F as [|a b c0 d S1 F1]; subst. inversion F1; subst. exact (G _ S1).
Qed.
End WithFloats.

Fixpoint json_ind2 (P : json -> Prop) (H0 : P JNull) (H1 : forall b, P (JBool b)) (H2 : forall s, P (JText s)) (H3 : forall n, P (JNum n)) (H4 : forall x, P (JFloat x))
  (H5 : forall l, Forall P l -> P (JArr l)) (H6 : forall m, Forall (fun e => P (snd e)) m -> P (JObj m)) (j : json) : P j :=
  match j with
  | JNull => H0 | JBool b => H1 b | JText s => H2 s | JNum n => H3 n | JFloat x => H4 x
  | JArr l => H5 l ((fix go l : Forall P l := match l with [] => Forall_nil P | k :: r => Forall_cons k (json_ind2 P H0 H1 H2 H3 H4 H5 H6 k) (go r) end) l)
  | JObj m => H6 m ((fix go m : Forall (fun e => P (snd e)) m := match m with [] => Forall_nil _ | e :: r => Forall_cons e (json_ind2 P H0 H1 H2 H3 H4 H5 H6 (snd e)) (go r) end) m)
  end.
Lemma reordered_refl j : reordered j j.
Proof.
  induction j as [| | | | |l IH|m IH] using json_ind2; try constructor.
  - induction IH; constructor; assumption.
  - eapply re_obj; [|apply Permutation_refl]. induction IH; constructor; auto.
Qed.

Lemma filtered_props fl f l : Forall (prop_xml_ok fl) l -> exists xs js, map_r (prop_writeXMLFiltered fl f) l = Ok xs /\ map_r (prop_writeJSONFiltered f) l = Ok js /\ Forall raw (List.concat xs) /\
  forall ys, Forall2 sim (List.concat xs) ys -> all_some (property_of fl) ys = Some (List.concat js).
Proof.
  induction 1 as [|p l H _ (xs & js & A & B & R & G)]; [exists [], []; repeat (split; [try reflexivity; constructor|]); intros ys F; inversion F; reflexivity|].
  cbn [map_r]. unfold prop_writeXMLFiltered at 1, prop_writeJSONFiltered at 1. destruct (testPropertyValue f (upper (pName p))) as [[|] nv].
  - destruct (prop_xml_json fl (match nv with Some true => true | _ => false end) p H) as (x & j & X & J & R1 & G1). rewrite X, J, A, B. cbn [rbind]. exists ([x] :: xs), ([j] :: js).
    repeat (split; [reflexivity|]). split; [constructor; assumption|]. intros ys F. inversion F as [|a b c d S F']; subst. cbn [all_some List.concat app]. rewrite (G1 _ S). fold (all_some (property_of fl)). rewrite (G _ F'). reflexivity.
  - rewrite A, B. cbn [rbind]. exists ([] :: xs), ([] :: js). repeat (split; [reflexivity|]). split; [exact R|exact G].
Qed.
Lemma filtered_forms fl f c : tree_xml_ok fl c -> cSubs c = [] -> exists x j s, writeXMLFiltered fl f c = Ok x /\ writeJSONFiltered f c = Ok j /\
  toString (element (lit "icalendar") XNone [x]) = Ok s /\ jcal fl s = Some j.
Proof.
  intros T E. destruct c as [k s0 ps subs]. cbn [cSubs] in E. subst subs. inversion T as [? ? ? ? N P _]; subst. pose proof (written_xml_ok fl k ps P) as W.
  assert (D : exists px pj, writePropertiesFilteredXML fl f k ps = Ok px /\ writePropertiesFilteredJSON f k ps = Ok pj /\ Forall raw px /\ forall ys, Forall2 sim px ys -> all_some (property_of fl) ys = Some pj).
  { unfold writePropertiesFilteredXML, writePropertiesFilteredJSON. destruct (isAllProperties f); [apply props_xml_json; exact W|].
    destruct (hasPropertyFilters f).
    - destruct (filtered_props fl f _ W) as (xs & js & A & B & R & G). rewrite A, B. exists (List.concat xs), (List.concat js). repeat (split; [reflexivity|]). split; assumption.
    - exists [], []. repeat (split; [try reflexivity; constructor|]). intros ys F. inversion F; reflexivity. }
  destruct D as (px & pj & PX & PJ & RP & GP). unfold writeXMLFiltered, writeJSONFiltered. cbn [cKind cProps]. rewrite PX, PJ. cbn [rbind writeComponentsFilteredXML writeComponentsFilteredJSON cSubs].
  set (x := element (getType k) XNone [element (lit "properties") XNone px]).
  assert (RX : raw x) by (apply raw_branch; [exact N|constructor; [apply raw_branch; [reflexivity|exact RP]|constructor]]).
  destruct (document (element (lit "icalendar") XNone [x])) as (s & y & Es & Ry & S); [apply raw_branch; [reflexivity|constructor; [exact RX|constructor]]|].
  exists x, (JArr [JText (lower (getType k)); JArr pj; JArr []]), s. repeat (split; [first [reflexivity|exact Es]|]). unfold jcal. rewrite Ry. destruct (sim_name _ _ _ _ _ S) as [Ny _].
  assert (N' : named (lit "icalendar") y = true) by (apply named_true; exact Ny). rewrite N'. destruct (sim_children _ _ _ _ S) as (l & C & F). rewrite C. inversion F as [|a b c0 d S1 F1]; subst. inversion F1; subst.
  inversion S1 as [|a1 b1 c1 d1 e1 f1 g1 NE B1 B2 F2]; subst. inversion F2 as [|x1 y1 xr yr S2 F3]; subst. inversion F3; subst. destruct (sim_name _ _ _ _ _ S2) as [N1 B3]. destruct (sim_children _ _ _ _ S2) as (pk & C1 & Fp).
  assert (N1' : named (lit "properties") y1 = true) by (apply named_true; exact N1). cbn [component_of]. rewrite B1, N1', B3. cbn [andb]. rewrite C1, (GP _ Fp). reflexivity.
Qed.
