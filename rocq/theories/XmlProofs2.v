(** The jCal form of the values that are written. *)
From Coq Require Import Lia.
From Verif Require Import PyBase PyProofs RecurModel PropDateProofs JsonModel JsonProofs XmlModel XmlSpec XmlProofs.

Definition plainb (s : bytes) : bool := forallb (fun c => legal c && negb (Ascii.eqb c CR)) s.
Lemma plain_spec s : plainb s = true -> xml_text_ok s.
Proof.
  unfold plainb, xml_text_ok. rewrite forallb_forall, Forall_forall. intros H c I. specialize (H c I). apply andb_prop in H. destruct H as [A B].
  split; [exact A|]. intros ->. discriminate B.
Qed.
Lemma plain_app a b : plainb (a ++ b) = plainb a && plainb b.
Proof. apply forallb_app. Qed.
Lemma plain_udigits n : 0 <= n -> plainb (udigits n) = true.
Proof.
  intro H. pose proof (proj1 (udigits_spec n H)) as D. unfold all_digits in D. unfold plainb. rewrite forallb_forall in *. intros c I. specialize (D c I).
  destruct c as [[|] [|] [|] [|] [|] [|] [|] [|]]; vm_compute in D; try discriminate; reflexivity.
Qed.
Lemma plain_pystr n : plainb (pystr n) = true.
Proof. unfold pystr. destruct (Z.ltb_spec n 0); [cbn; apply plain_udigits; lia|apply plain_udigits; lia]. Qed.
Lemma plain_fmt0 w n : plainb (fmt0 w n) = true.
Proof.
  assert (P : forall w s, plainb s = true -> plainb (pad0 w s) = true).
  { intros w' s H. unfold pad0. rewrite plain_app, H, andb_true_r. apply forallb_forall. intros c I. apply repeat_spec in I. subst. reflexivity. }
  unfold fmt0. destruct (Z.ltb_spec n 0); [cbn|]; apply P, plain_udigits; lia.
Qed.
Ltac pla := repeat first [rewrite plain_app | rewrite plain_fmt0 | rewrite plain_pystr | progress cbn [andb] | reflexivity |
  match goal with |- context [if ?b then _ else _] => destruct b end].
Lemma plain_xml d : plainb (getXMLText d) = true.
Proof. unfold getXMLText. cbv zeta. destruct (mDateOnly d); [pla|]. destruct (mTZUTC d); [pla|]. destruct (mTZID d); unfold tz_sign; pla. Qed.
Lemma plain_weekday w : plainb (weekday_text w) = true.
Proof. unfold weekday_text. pla. Qed.
Lemma plain_byday d : plainb (byday_text d) = true.
Proof. unfold byday_text. rewrite plain_app, plain_weekday. pla. Qed.
Lemma offset_same n : n mod 60 = 0 -> utcoffset_xml n = utcoffset_generate true n.
Proof.
  intro H. unfold utcoffset_xml, utcoffset_generate. cbv zeta.
  assert (E : (if n <? 0 then - n else n) mod 60 = 0) by (destruct (n <? 0); [apply Z.mod_opp_l_z; lia|exact H]). rewrite E. cbn [Z.eqb negb].
  set (m := ((if n <? 0 then - n else n) / 60) mod 60).
  assert (L : List.length (fmt0 2 m) = 2%nat).
  { assert (0 <= m < 60) by (apply Z.mod_pos_bound; lia). destruct (fmt0_spec 2 m ltac:(lia)) as (_ & _ & W & _). apply (W 2); lia. }
  cbn [app]. set (h := fmt0 2 ((if n <? 0 then - n else n) / 3600)). set (s := if n <? 0 then lit "-" else lit "+"). rewrite (app_assoc s h).
  rewrite app_length, L. replace (List.length (s ++ h) + 2 - 2)%nat with (List.length (s ++ h)) by lia.
  rewrite firstn_app, firstn_all, Nat.sub_diag, skipn_app, skipn_all, Nat.sub_diag. cbn [firstn skipn app]. rewrite app_nil_r. rewrite <- app_assoc. reflexivity.
Qed.

(** ** What is known of an element that stands for a written one. *)
Lemma sim_name tag t kids tl y : sim (Elem tag t kids tl) y -> node_name y = tag /\ blank (node_tail y) = true.
Proof. intro H. inversion H; subst; split; try reflexivity; assumption. Qed.
Lemma sim_tails kids l : Forall2 sim kids l -> forallb (fun k => blank (node_tail k)) l = true.
Proof. induction 1 as [|x y kids l H _ IH]; [reflexivity|]. cbn. destruct x as [tag t k tl]. rewrite (proj2 (sim_name _ _ _ _ _ H)). exact IH. Qed.
Lemma sim_children tag kids tl y : sim (Elem tag XNone kids tl) y -> exists l, children y = Some l /\ Forall2 sim kids l.
Proof.
  intro H. inversion H as [a b c d B|a b c d e f g N B1 B2 F]; subst; [exists []; split; [reflexivity|constructor]|].
  exists f. cbn [children]. rewrite B1, (sim_tails _ _ F). split; [reflexivity|exact F].
Qed.
Lemma sim_text tag t tl y : sim (Elem tag t [] tl) y -> text y = Some (str t).
Proof. intro H. inversion H as [a b c d B|a b c d e f g N B1 B2 F]; subst; [reflexivity|contradiction]. Qed.
Lemma sim_leaf_text name s y : sim (leaf name s) y -> node_name y = lower name /\ text y = Some s.
Proof. intro H. split; [exact (proj1 (sim_name _ _ _ _ _ H))|exact (sim_text _ _ _ _ H)]. Qed.
Lemma all_some_rel {A B C} (f : B -> option C) (g : A -> C) (R : A -> B -> Prop) l m : Forall2 R l m -> (forall a b, In a l -> R a b -> f b = Some (g a)) -> all_some f m = Some (map g l).
Proof.
  induction 1 as [|a b l m H _ IH]; intro K; [reflexivity|]. cbn [all_some map]. rewrite (K a b (or_introl eq_refl) H). fold (all_some f).
  rewrite IH; [reflexivity|]. intros x y I. apply K. right. exact I.
Qed.
Lemma all_some_in {A B} (f : A -> option B) (g : A -> B) l : (forall a, In a l -> f a = Some (g a)) -> all_some f l = Some (map g l).
Proof.
  induction l as [|a l IH]; intro K; [reflexivity|]. cbn [all_some map]. rewrite (K a (or_introl eq_refl)). fold (all_some f). rewrite IH; [reflexivity|].
  intros x I. apply K. right. exact I.
Qed.
Lemma sims_leaves name l m (R : list (bytes)) : Forall2 sim (map (leaf name) l) m -> Forall (fun x => node_name x = lower name) m /\ all_some text m = Some l.
Proof.
  revert m. induction l as [|s l IH]; intros m H; inversion H as [|a b c d S F]; subst; [split; [constructor|reflexivity]|].
  destruct (sim_leaf_text _ _ _ S) as [N T]. destruct (IH _ F) as [Ns Ts]. split; [constructor; assumption|]. cbn [all_some]. rewrite T. fold (all_some text). rewrite Ts. reflexivity.
Qed.

(** ** Recurrence rules *)
Definition part_of (part : bytes * holds) (block : list node) : option (list (bytes * json)) :=
  match block with
  | [] => Some []
  | x :: r =>
    opt j <- match snd part, r with
             | OneText, [] => opt s <- text x; Some (JText s)
             | OneNumber, [] => opt n <- number x; Some (JNum n)
             | OneDate, [] =>
               opt k <- children x;
               match k with [d] => if named (lit "date") d || named (lit "date-time") d then opt s <- text d; Some (JText s) else None | _ => None end
             | Numbers, _ => opt v <- all_some number (x :: r); Some (JArr (map JNum v))
             | Texts, _ => opt v <- all_some text (x :: r); Some (JArr (map JText v))
             | _, _ => None
             end;
    Some [(fst part, j)]
  end.
Lemma rule_part_eq l part : rule_part l part = part_of part (filter (named (fst part)) l).
Proof. destruct part as [name h]. reflexivity. Qed.
Definition block : Set := (bytes * holds) * list xml * list (bytes * jval).
Definition block_ok (b : block) : Prop := let '(part, xb, jb) := b in
  forall nb, Forall2 sim xb nb -> Forall (fun x => node_name x = fst part) nb /\ part_of part nb = Some (map member_json jb).
Definition bpart (b : block) := fst (fst b).
Definition bxml (b : block) := snd (fst b).
Definition bjson (b : block) := snd b.
Lemma split_blocks T : Forall block_ok T -> forall nodes, Forall2 sim (List.concat (map bxml T)) nodes ->
  exists Q : list ((bytes * holds) * list node * list (bytes * jval)),
    map (fun q => fst (fst q)) Q = map bpart T /\ map snd Q = map bjson T /\ List.concat (map (fun q => snd (fst q)) Q) = nodes /\
    Forall (fun q => Forall (fun x => node_name x = fst (fst (fst q))) (snd (fst q)) /\ part_of (fst (fst q)) (snd (fst q)) = Some (map member_json (snd q))) Q.
Proof.
  induction 1 as [|[[part xb] jb] T B _ IH]; intros nodes F; [inversion F; subst; exists []; repeat split; constructor|].
  cbn [map List.concat] in F. change (bxml (part, xb, jb)) with xb in F. apply Forall2_app_inv_l in F. destruct F as (n1 & n2 & F1 & F2 & ->). destruct (IH n2 F2) as (Q & Q1 & Q2 & Q3 & Q4).
  exists ((part, n1, jb) :: Q). cbn [map List.concat fst snd]. rewrite Q1, Q2, Q3. repeat split. constructor; [apply B; exact F1|exact Q4].
Qed.
Lemma named_true name x : named name x = true <-> node_name x = name.
Proof. unfold named. apply beq_eq. Qed.
Lemma filter_none name l : (forall x, In x l -> node_name x <> name) -> filter (named name) l = [].
Proof.
  induction l as [|a l IH]; intro H; [reflexivity|]. cbn. destruct (named name a) eqn:E; [apply named_true in E; destruct (H a (or_introl eq_refl) E)|].
  apply IH. intros x I. apply H. right. exact I.
Qed.
Lemma filter_all name l : Forall (fun x => node_name x = name) l -> filter (named name) l = l.
Proof. induction 1 as [|a l H _ IH]; [reflexivity|]. cbn. rewrite (proj2 (named_true name a) H), IH. reflexivity. Qed.
Lemma filter_block {A} (nm : A -> bytes) (bl : A -> list node) Q : NoDup (map nm Q) -> Forall (fun q => Forall (fun x => node_name x = nm q) (bl q)) Q ->
  forall q, In q Q -> filter (named (nm q)) (List.concat (map bl Q)) = bl q.
Proof.
  induction Q as [|a Q IH]; intros N F q I; [destruct I|]. inversion N as [|x y NI N']. subst. inversion F as [|x y Fa F']. subst.
  cbn [map List.concat]. rewrite filter_app. destruct I as [-> | I].
  - rewrite (filter_all _ _ Fa), filter_none, app_nil_r; [reflexivity|]. intros x I E. apply in_concat in I. destruct I as (l & I & J). apply in_map_iff in I. destruct I as (b & <- & I).
    apply NI. rewrite Forall_forall in F'. specialize (F' b I). rewrite Forall_forall in F'. rewrite <- E, (F' x J). apply in_map. exact I.
  - rewrite filter_none, (IH N' F' q I); [reflexivity|]. intros x J E. rewrite Forall_forall in Fa. rewrite (Fa x J) in E. apply NI. rewrite E. apply in_map. exact I.
Qed.
Lemma rule_blocks T : map bpart T = rule_parts -> Forall block_ok T -> forall nodes, Forall2 sim (List.concat (map bxml T)) nodes ->
  rule_object nodes = Some (JObj (map member_json (List.concat (map bjson T)))).
Proof.
  intros P B nodes F. destruct (split_blocks T B nodes F) as (Q & Q1 & Q2 & Q3 & Q4). rewrite P in Q1. unfold rule_object.
  assert (N : NoDup (map (fun q => fst (fst (fst q))) Q)).
  { rewrite <- (map_map (fun q => fst (fst q)) (@fst bytes holds)), Q1. unfold rule_parts. cbn [map fst]. repeat constructor; cbn [In]; intuition discriminate. }
  assert (Fn : Forall (fun q => Forall (fun x => node_name x = fst (fst (fst q))) (snd (fst q))) Q) by (eapply Forall_impl; [|exact Q4]; intros q [H _]; exact H).
  assert (K : forallb (fun x => existsb (fun p => named (fst p) x) rule_parts) nodes = true).
  { apply forallb_forall. intros x I. rewrite <- Q3 in I. apply in_concat in I. destruct I as (l & I & J). apply in_map_iff in I. destruct I as (q & <- & I).
    apply existsb_exists. exists (fst (fst q)). split; [rewrite <- Q1; apply (in_map (fun q => fst (fst q))); exact I|]. apply named_true.
    rewrite Forall_forall in Fn. specialize (Fn q I). rewrite Forall_forall in Fn. exact (Fn x J). }
  rewrite K. assert (A : all_some (rule_part nodes) rule_parts = Some (map (fun q => map member_json (snd q)) Q)).
  { rewrite <- Q1. clear Q1. assert (G : forall l, (forall q, In q l -> In q Q) -> all_some (rule_part nodes) (map (fun q => fst (fst q)) l) = Some (map (fun q => map member_json (snd q)) l)).
    { induction l as [|q l IH]; intro S; [reflexivity|]. cbn [map all_some]. rewrite rule_part_eq.
      assert (E : filter (named (fst (fst (fst q)))) nodes = snd (fst q)).
      { rewrite <- Q3. apply (filter_block (fun q => fst (fst (fst q))) (fun q => snd (fst q)) Q N Fn). apply S. left. reflexivity. }
      rewrite E. rewrite Forall_forall in Q4. rewrite (proj2 (Q4 q (S q (or_introl eq_refl)))). fold (all_some (rule_part nodes)). rewrite IH; [reflexivity|]. intros x I. apply S. right. exact I. }
    apply G. auto. }
  rewrite A, <- (map_map snd (map member_json)), Q2, concat_map. reflexivity.
Qed.

Lemma number_leaf name n y : sim (leaf name (pystr n)) y -> node_name y = lower name /\ number y = Some n.
Proof. intro H. destruct (sim_leaf_text _ _ _ H) as [N T]. split; [exact N|]. unfold number. rewrite T, RecurTextProofs.pyint_pystr. reflexivity. Qed.
Lemma list_block name l : lower name = name -> block_ok ((name, Numbers), list_xml name l, json_list name l).
Proof.
  intros L nb F. destruct l as [l|]; [|inversion F; subst; split; [constructor|reflexivity]]. cbn [list_xml] in F.
  assert (N : Forall (fun x => node_name x = name) nb /\ all_some number nb = Some l).
  { revert nb F. induction l as [|n l IH]; intros nb F; inversion F as [|a b c d S F']; subst; [split; [constructor|reflexivity]|].
    destruct (number_leaf _ _ _ S) as [N T]. destruct (IH _ F') as [Ns Ts]. split; [constructor; [rewrite N; exact L|assumption]|]. cbn [all_some]. rewrite T. fold (all_some number). rewrite Ts. reflexivity. }
  destruct N as [N A]. split; [exact N|]. destruct l as [|n l]; [inversion F; subst; reflexivity|]. inversion F; subst. unfold part_of. cbn [snd fst]. rewrite A. reflexivity.
Qed.
Lemma one_text_block name s : lower name = name -> block_ok ((name, OneText), [leaf name s], [(name, JStr s)]).
Proof.
  intros L nb F. inversion F as [|a b c d S F']; subst. inversion F'; subst. destruct (sim_leaf_text _ _ _ S) as [N T]. split; [constructor; [rewrite N; exact L|constructor]|].
  unfold part_of. cbn [snd fst]. rewrite T. reflexivity.
Qed.
Lemma one_number_block name n : lower name = name -> block_ok ((name, OneNumber), [leaf name (pystr n)], [(name, JInt n)]).
Proof.
  intros L nb F. inversion F as [|a b c d S F']; subst. inversion F'; subst. destruct (number_leaf _ _ _ S) as [N T]. split; [constructor; [rewrite N; exact L|constructor]|].
  unfold part_of. cbn [snd fst]. rewrite T. reflexivity.
Qed.
Lemma no_block part : block_ok (part, [], []).
Proof. intros nb F. inversion F; subst. split; [constructor|reflexivity]. Qed.
Lemma date_leaf d y : sim (date_xml d) y -> node_name y = (if mDateOnly d then lit "date" else lit "date-time") /\ text y = Some (getXMLText d).
Proof. unfold date_xml. intro H. destruct (sim_leaf_text _ _ _ H) as [N T]. split; [|exact T]. rewrite N. destruct (mDateOnly d); reflexivity. Qed.
Lemma until_block d : block_ok ((lit "until", OneDate), [element (lit "until") XNone [date_xml d]], [(lit "until", JStr (getXMLText d))]).
Proof.
  intros nb F. inversion F as [|a b c e S F']; subst. inversion F'; subst. destruct (sim_name _ _ _ _ _ S) as [N _]. split; [constructor; [exact N|constructor]|].
  unfold part_of. cbn [snd fst]. destruct (sim_children _ _ _ _ S) as (l & -> & Fl). inversion Fl as [|a1 b1 c1 d1 S1 F1]; subst. inversion F1; subst.
  destruct (date_leaf _ _ S1) as [N1 T1]. unfold named. rewrite N1, T1. destruct (mDateOnly d); reflexivity.
Qed.
Lemma byday_block l : block_ok ((lit "byday", Texts), match l with None => [] | Some l => map (fun d => leaf (lit "byday") (byday_text d)) l end,
  match l with None | Some [] => [] | Some l => [(lit "byday", JStrs (map byday_text l))] end).
Proof.
  intros nb F. destruct l as [l|]; [|inversion F; subst; split; [constructor|reflexivity]]. rewrite <- (map_map byday_text (leaf (lit "byday"))) in F.
  destruct (sims_leaves _ _ _ [] F) as [N A]. split; [exact N|]. destruct l as [|d l]; [inversion F; subst; reflexivity|]. inversion F; subst. unfold part_of. cbn [snd fst]. rewrite A. reflexivity.
Qed.
Lemma raw_leaf_ok name s : xname (lower name) = true -> plainb s = true -> raw (leaf name s).
Proof. intros N P. eapply raw_leaf; [exact N|reflexivity|apply plain_spec; exact P]. Qed.
Lemma raw_list name l : xname (lower name) = true -> Forall raw (list_xml name l).
Proof. intro N. destruct l as [l|]; [|constructor]. cbn. apply Forall_map, Forall_forall. intros n _. apply raw_leaf_ok; [exact N|apply plain_pystr]. Qed.
Lemma raw_date d : raw (date_xml d).
Proof. unfold date_xml. apply raw_leaf_ok; [destruct (mDateOnly d); reflexivity|apply plain_xml]. Qed.
Lemma rule_xml_json r m : rule_json r = Ok m -> exists l, rule_xml r = Ok l /\ Forall raw l /\
  forall nodes, Forall2 sim l nodes -> rule_object nodes = Some (JObj (map member_json m)).
Proof.
  unfold rule_json, rule_xml. intro H.
  set (cx := if rUseCount r then [leaf (lit "count") (pystr (rCount r))] else []).
  set (cj := if rUseCount r then [(lit "count", JInt (rCount r))] else []).
  assert (U : exists ux uj, (if rUseCount r then Ok [leaf (lit "count") (pystr (rCount r))] else if rUseUntil r then match rUntil r with Some d => Ok [element (lit "until") XNone [date_xml d]] | None => Raise AttributeError end else Ok []) = Ok (cx ++ ux) /\
    (if rUseCount r then Ok [(lit "count", JInt (rCount r))] else if rUseUntil r then match rUntil r with Some d => Ok [(lit "until", JStr (getXMLText d))] | None => Raise AttributeError end else Ok []) = Ok (cj ++ uj) /\
    block_ok ((lit "until", OneDate), ux, uj) /\ Forall raw (cx ++ ux)).
  { subst cx cj. destruct (rUseCount r).
    - exists [], []. split; [reflexivity|]. split; [reflexivity|]. split; [apply no_block|]. constructor; [apply raw_leaf_ok; [reflexivity|apply plain_pystr]|constructor].
    - destruct (rUseUntil r); [|exists [], []; split; [reflexivity|]; split; [reflexivity|]; split; [apply no_block|constructor]].
      destruct (rUntil r) as [d|]; [|discriminate H]. eexists. eexists. split; [reflexivity|]. split; [reflexivity|]. split; [apply until_block|].
      constructor; [|constructor]. apply raw_branch; [reflexivity|]. constructor; [apply raw_date|constructor]. }
  destruct U as (ux & uj & EX & EJ & BU & RU). rewrite EJ in H. rewrite EX. cbn [rbind] in *. apply Ok_inj in H. eexists. split; [reflexivity|].
  set (T := [((lit "freq", OneText), [leaf (lit "freq") (freq_text (rFreq r))], [(lit "freq", JStr (freq_text (rFreq r)))]);
    ((lit "count", OneNumber), cx, cj); ((lit "until", OneDate), ux, uj);
    ((lit "interval", OneNumber), if 1 <? rInterval r then [leaf (lit "interval") (pystr (rInterval r))] else [], if 1 <? rInterval r then [(lit "interval", JInt (rInterval r))] else []);
    ((lit "bysecond", Numbers), list_xml (lit "bysecond") (rBySeconds r), json_list (lit "bysecond") (rBySeconds r));
    ((lit "byminute", Numbers), list_xml (lit "byminute") (rByMinutes r), json_list (lit "byminute") (rByMinutes r));
    ((lit "byhour", Numbers), list_xml (lit "byhour") (rByHours r), json_list (lit "byhour") (rByHours r));
    ((lit "byday", Texts), match rByDay r with None => [] | Some l => map (fun d => leaf (lit "byday") (byday_text d)) l end, match rByDay r with None | Some [] => [] | Some l => [(lit "byday", JStrs (map byday_text l))] end);
    ((lit "bymonthday", Numbers), list_xml (lit "bymonthday") (rByMonthDay r), json_list (lit "bymonthday") (rByMonthDay r));
    ((lit "byyearday", Numbers), list_xml (lit "byyearday") (rByYearDay r), json_list (lit "byyearday") (rByYearDay r));
    ((lit "byweekno", Numbers), list_xml (lit "byweekno") (rByWeekNo r), json_list (lit "byweekno") (rByWeekNo r));
    ((lit "bymonth", Numbers), list_xml (lit "bymonth") (rByMonth r), json_list (lit "bymonth") (rByMonth r));
    ((lit "bysetpos", Numbers), list_xml (lit "bysetpos") (rBySetPos r), json_list (lit "bysetpos") (rBySetPos r));
    ((lit "wkst", OneText), if negb (rWeekstart r =? 1) then [leaf (lit "wkst") (match weekday_text (rWeekstart r) with [] => lit "MO" | t => t end)] else [],
      if negb (rWeekstart r =? 1) then [(lit "wkst", JStr (match weekday_text (rWeekstart r) with [] => lit "MO" | t => t end))] else [])] : list block).
  assert (B : Forall block_ok T).
  { subst T. repeat (apply Forall_cons; [|]); try (apply list_block; reflexivity); try (apply one_text_block; reflexivity); try exact BU; try apply byday_block; try apply Forall_nil.
    - subst cx cj. destruct (rUseCount r); [apply one_number_block; reflexivity|apply no_block].
    - destruct (1 <? rInterval r); [apply one_number_block; reflexivity|apply no_block].
    - destruct (negb (rWeekstart r =? 1)); [apply one_text_block; reflexivity|apply no_block]. }
  split.
  - constructor; [apply raw_leaf_ok; [reflexivity|destruct (rFreq r); reflexivity]|]. apply Forall_app; split; [exact RU|].
    repeat (apply Forall_app; split); try (apply raw_list; reflexivity).
    + destruct (1 <? rInterval r); constructor; [apply raw_leaf_ok; [reflexivity|apply plain_pystr]|constructor].
    + destruct (rByDay r) as [l|]; [|constructor]. apply Forall_map, Forall_forall. intros d _. apply raw_leaf_ok; [reflexivity|apply plain_byday].
    + destruct (negb (rWeekstart r =? 1)); constructor; [|constructor]. apply raw_leaf_ok; [reflexivity|]. pose proof (plain_weekday (rWeekstart r)) as W. destruct (weekday_text (rWeekstart r)); [reflexivity|exact W].
  - intros nodes F. rewrite <- H. pose proof (rule_blocks T eq_refl B nodes) as R. unfold T in R. cbn [map List.concat bxml bjson fst snd app] in R. rewrite !app_nil_r in R. rewrite <- !app_assoc in F.
    rewrite (R F). rewrite <- !app_assoc. reflexivity.
Qed.
