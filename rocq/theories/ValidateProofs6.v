(** Proofs about validation: trees, the second run, and what a repair of UNTIL gives. *)
From Coq Require Import Lia ZifyBool ZifyNat.
From Verif Require Import CalSpec DateTimeSpec DateTimeSpec2 DateTimeProofs PyProofs LineProofs PropertyProofs ComponentProofs2 ComponentProofs3 ValidateModel ValidateSpec
  ValidateProofs ValidateProofs2 ValidateProofs3 ValidateProofs4 ValidateProofs5.

Lemma tree_inv parent k s ps subs o m : tree_problem parent (Comp k s ps subs) o m <->
  problem parent k s ps subs o m \/ exists c, In c subs /\ tree_problem (Some ps) c o m.
Proof.
  split.
  - intro H. inversion H; subst; [left; assumption|right; eexists; split; eassumption].
  - intros [H|(c & I & H)]; [apply tp_here; assumption|eapply tp_below; eassumption].
Qed.
(** A component sees of its parent whether there is METHOD. *)
Definition meth (p p' : option props) : Prop :=
  match p, p' with
  | None, None => True
  | Some a, Some b => named (lit "METHOD") a = named (lit "METHOD") b
  | _, _ => False
  end.
Lemma meth_refl p : meth p p.
Proof. destruct p; [reflexivity|exact I]. Qed.
Lemma meth_sym p p' : meth p p' -> meth p' p.
Proof. destruct p, p'; cbn; auto. Qed.
Lemma problem_parent1 p p' k s ps subs o m : meth p p' -> problem p k s ps subs o m -> problem p' k s ps subs o m.
Proof.
  intros M H. destruct H as [n L N|n L N|n L N|n L N G|n L N G|n L N|R N C|R N C|n p0 R I V NR|start p0 r u R S I V|a b n fs X F A B|pp F E A B|F A B C|F A B C|K A|K A];
    [apply p_required|apply p_text_many|apply p_text_none|apply p_too_many|apply p_too_many_gone|apply p_none|apply p_status|apply p_status_cancelled
    |eapply p_value|eapply p_until|eapply p_exclusive| |apply p_todo_start|apply p_todo_start_gone|apply p_together|apply p_no_observance]; try eassumption.
  subst p. destruct p' as [b|]; cbv beta iota delta [meth] in M; [|contradiction]. eapply p_start; [eassumption|reflexivity|congruence|assumption].
Qed.
Lemma problem_parent p p' k s ps subs o m : meth p p' -> problem p k s ps subs o m <-> problem p' k s ps subs o m.
Proof. intro M. split; apply problem_parent1; [assumption|apply meth_sym; assumption]. Qed.
Lemma tree_parent p p' c o m : meth p p' -> tree_problem p c o m <-> tree_problem p' c o m.
Proof. intro M. destruct c as [k s ps subs]. rewrite !tree_inv, (problem_parent _ _ _ _ _ _ _ _ M). tauto. Qed.

(** ** After a repair. *)
Section Settles.
Variable change : dt -> dt -> dt -> Prop.
Hypothesis matches : forall start u u', change start u u' -> mDateOnly u' = mDateOnly start.
Variables (k : kind) (s : cstate) (ps ps' : props).
Notation fam := (family_of k s).
Hypothesis H : forall n, props_repaired change fam s ps n (named n ps').

Definition special : list bytes := [lit "DESCRIPTION"; lit "SUMMARY"; lit "STATUS"; lit "RRULE"; lit "DTEND"; lit "DURATION"].
Lemma gives_way_name n : gives_way fam ps n -> n = lit "DTEND" \/ n = lit "DURATION".
Proof. intro W. apply gives_way_kind in W as [(_ & W & _)|(_ & W & _)]; auto. Qed.
Lemma plain_same n : ~ In n special -> named n ps' = named n ps.
Proof.
  intro Q. destruct (H n) as [L Z| -> R M C|W|start l -> R S F|Q1 Q2 Q3 Q4]; try reflexivity; exfalso; apply Q.
  - apply no_text_name in L as [->| ->]; cbn; auto.
  - cbn; auto 10.
  - apply gives_way_name in W as [->| ->]; cbn; auto 10.
  - cbn; auto 10.
Qed.
Lemma text_same n : listed exactly_once_text n fam -> many n ps' = if (many n ps =? 0)%nat then 1%nat else many n ps.
Proof.
  intro L. unfold many at 1. destruct (H n) as [_ Z| -> R M C|W|start l -> R S F|Q1 Q2 Q3 Q4].
  - unfold many. rewrite Z. reflexivity.
  - not_text L.
  - apply gives_way_name in W as [->| ->]; not_text L.
  - not_text L.
  - fold (many n ps). destruct (many n ps =? 0)%nat eqn:E; [|reflexivity]. apply Nat.eqb_eq, zero_named in E. exfalso. apply Q1. split; assumption.
Qed.
Lemma more_same n : listed at_most_once n fam -> (1 < many n ps')%nat <-> (1 < many n ps)%nat /\ ~ gives_way fam ps n.
Proof.
  intro L. unfold many at 1. destruct (H n) as [L' Z| -> R M C|W|start l -> R S F|Q1 Q2 Q3 Q4].
  - unfold many. rewrite Z. cbn. lia.
  - exfalso. assert (fam = Poll).
    { destruct L as (fs & I & J). clear - I J. unfold at_most_once in I. repeat (destruct I as [I|I]; [symmetry in I; pose proof (f_equal fst I) as E; cbn [fst] in E; try discriminate E|]); [|contradiction].
      pose proof (f_equal snd I) as E2. cbn [snd] in E2. subst fs. destruct J as [J|[]]. auto. }
    rewrite H0 in R. repeat (destruct R as [R|R]; [discriminate R|]). contradiction.
  - cbn. split; [lia|tauto].
  - assert (E : List.length l = many (lit "RRULE") ps) by (unfold many; clear - F; induction F; cbn; congruence). rewrite E.
    split; [|tauto]. intro Q. split; [assumption|]. intro W. apply gives_way_name in W as [W|W]; discriminate W.
  - fold (many n ps). tauto.
Qed.
Lemma gone n : gives_way fam ps n -> named n ps' = [].
Proof.
  intro W. destruct (H n) as [L Z| -> R M C|_|start l -> R S F|Q1 Q2 Q3 Q4].
  - apply gives_way_name in W as [->| ->]; not_text L.
  - apply gives_way_name in W as [W|W]; discriminate W.
  - reflexivity.
  - apply gives_way_name in W as [W|W]; discriminate W.
  - contradiction.
Qed.
Lemma stays n : n = lit "DTEND" \/ n = lit "DURATION" -> ~ gives_way fam ps n -> named n ps' = named n ps.
Proof.
  intros D W. destruct (H n) as [L Z| -> R M C|W'|start l -> R S F|Q1 Q2 Q3 Q4].
  - destruct D as [->| ->]; not_text L.
  - destruct D as [D|D]; discriminate D.
  - contradiction.
  - destruct D as [D|D]; discriminate D.
  - reflexivity.
Qed.
Lemma before n : n = lit "DTEND" \/ n = lit "DURATION" -> named n ps' <> [] -> named n ps <> [].
Proof. intros D Q. destruct (gives_way_dec k s ps n) as [W|W]; [exfalso; apply Q, gone; assumption|]. rewrite <- (stays n D W). assumption. Qed.
Lemma due_same : named (lit "DUE") ps' = named (lit "DUE") ps.
Proof. apply plain_same. intro Q. repeat (destruct Q as [Q|Q]; [discriminate Q|]). contradiction. Qed.
Lemma never_both n : ~ gives_way fam ps' n.
Proof.
  intro W. apply gives_way_kind in W as [(K & -> & A & B)|(K & -> & A & B)].
  - apply A, gone, gives_way_kind. left. repeat split; try assumption; apply before; auto.
  - apply B, gone, gives_way_kind. right. rewrite due_same in A. repeat split; try assumption. apply before; auto.
Qed.
Lemma status_same : In fam recurring -> ~ ((1 < many (lit "STATUS") ps)%nat /\ cancelled ps) -> named (lit "STATUS") ps' = named (lit "STATUS") ps.
Proof.
  intros R C. destruct (H (lit "STATUS")) as [L Z|_ R' M C'|W|start l Q R' S F|Q1 Q2 Q3 Q4].
  - not_text L.
  - exfalso. apply C. split; assumption.
  - apply gives_way_name in W as [W|W]; discriminate W.
  - discriminate Q.
  - reflexivity.
Qed.
Lemma status_one : In fam recurring -> (1 < many (lit "STATUS") ps)%nat -> cancelled ps -> many (lit "STATUS") ps' = 1%nat.
Proof.
  intros R M C. unfold many. destruct (H (lit "STATUS")) as [L Z|_ R' M' C'|W|start l Q R' S F|Q1 Q2 Q3 Q4].
  - not_text L.
  - reflexivity.
  - apply gives_way_name in W as [W|W]; discriminate W.
  - discriminate Q.
  - exfalso. apply Q2. repeat split; assumption.
Qed.
Lemma until_matches start p r u : In fam recurring -> sStart s = Some start -> In p (named (lit "RRULE") ps') -> ~ mismatch start p r u.
Proof.
  intros R S I. destruct (H (lit "RRULE")) as [L Z|Q R' M' C'|W|start' l Q R' S' F|Q1 Q2 Q3 Q4].
  - not_text L.
  - discriminate Q.
  - destruct I.
  - assert (start' = start) by congruence. subst start'. clear Q R R' S S'. induction F as [|q q' l l' RR F IH]; [destruct I|].
    destruct I as [->|I]; [|apply IH; assumption]. destruct RR as [[N ->]|(r1 & r' & v & v' & M & C & _ & _ & V & E & _)]; [apply N|].
    intros (V' & _ & E' & D). rewrite V in V'. assert (r' = r) by congruence. subst r'. assert (v' = u) by congruence. subst v'. apply D. apply matches in C. exact C.
  - exfalso. apply Q4. repeat split; try assumption. rewrite S. discriminate.
Qed.

Lemma settles parent subs subs' o m : map cKind subs' = map cKind subs ->
  problem parent k s ps' subs' o m <-> o = Stays /\ problem parent k s ps subs Stays m.
Proof.
  intro KS.
  assert (PS : forall t n, listed t n fam -> (forall n fs, In (n, fs) t -> ~ In n special) -> named n ps' = named n ps).
  { intros t n (fs & I & _) Q. apply plain_same. eapply Q. exact I. }
  assert (EO : forall n fs, In (n, fs) exactly_once -> ~ In n special).
  { intros n fs I. unfold exactly_once in I. repeat (destruct I as [I|I]; [symmetry in I; pose proof (f_equal fst I) as E; cbn [fst] in E; subst n;
      intro Q; repeat (destruct Q as [Q|Q]; [discriminate Q|]); exact Q|]). destruct I. }
  assert (AL : forall n fs, In (n, fs) at_least_once -> ~ In n special).
  { intros n fs I. unfold at_least_once in I. repeat (destruct I as [I|I]; [symmetry in I; pose proof (f_equal fst I) as E; cbn [fst] in E; subst n;
      intro Q; repeat (destruct Q as [Q|Q]; [discriminate Q|]); exact Q|]). destruct I. }
  assert (CH : forall n, In n checked_names -> ~ In n special).
  { intros n I. unfold checked_names in I. vm_compute in I. repeat (destruct I as [<-|I]; [intro Q; vm_compute in Q; repeat (destruct Q as [Q|Q]; [discriminate Q|]); exact Q|]). destruct I. }
  assert (PL : forall n, existsb (beq n) special = false -> named n ps' = named n ps).
  { intros n E. apply plain_same. intro I. assert (existsb (beq n) special = true) by (apply existsb_beq; exact I). congruence. }
  assert (ME : forall n, named n ps' = named n ps -> many n ps' = many n ps) by (intros n E; unfold many; congruence).
  assert (KI : forall P : kind -> Prop, (forall c, In c subs' -> P (cKind c)) <-> (forall c, In c subs -> P (cKind c))).
  { intro P. split; intros Q c I.
    - assert (J : In (cKind c) (map cKind subs')) by (rewrite KS; apply in_map; assumption). apply in_map_iff in J as (d & J & K). rewrite <- J. apply Q; assumption.
    - assert (J : In (cKind c) (map cKind subs)) by (rewrite <- KS; apply in_map; assumption). apply in_map_iff in J as (d & J & K). rewrite <- J. apply Q; assumption. }
  assert (DUR : fam = ToDo -> named (lit "DUE") ps = [] -> named (lit "DURATION") ps' = named (lit "DURATION") ps).
  { intros F D. apply stays; [auto|]. intro W. apply gives_way_kind in W as [(_ & W & _)|(_ & _ & W & _)]; [discriminate W|contradiction]. }
  assert (ALM : k = VALARM -> named (lit "DURATION") ps' = named (lit "DURATION") ps).
  { intro F. apply stays; [auto|]. intro W. apply gives_way_kind in W as [(W & _)|(W & _)]; [rewrite F in W; discriminate W|rewrite F in W; discriminate W]. }
  split.
  - intro P. destruct P as [n L N|n L N|n L N|n L N G|n L N G|n L N|R N C|R N C|n p R I V NR|start p r u R S I M|a b n fs X F A B|pp F E A B|F A B C|F A B C|K A|K A].
    + split; [reflexivity|]. apply p_required; [assumption|]. rewrite <- (ME n (PS _ n L EO)). assumption.
    + split; [reflexivity|]. rewrite (text_same n L) in N. apply p_text_many; [assumption|]. destruct (many n ps =? 0)%nat eqn:Z; lia.
    + exfalso. rewrite (text_same n L) in N. destruct (many n ps =? 0)%nat eqn:Z; lia.
    + split; [reflexivity|]. apply (more_same n L) in N as [N W]. apply p_too_many; assumption.
    + exfalso. exact (never_both n G).
    + split; [reflexivity|]. apply p_none; [assumption|]. rewrite <- (ME n (PS _ n L AL)). assumption.
    + split; [reflexivity|]. assert (Q : ~ ((1 < many (lit "STATUS") ps)%nat /\ cancelled ps)).
      { intros [Q1 Q2]. rewrite (status_one R Q1 Q2) in N. lia. }
      pose proof (status_same R Q) as E. rewrite (ME _ E) in N. apply p_status; [assumption|assumption|tauto].
    + exfalso. assert (Q : ~ ((1 < many (lit "STATUS") ps)%nat /\ cancelled ps)).
      { intros [Q1 Q2]. rewrite (status_one R Q1 Q2) in N. lia. }
      pose proof (status_same R Q) as E. rewrite (ME _ E) in N. apply Q. split; [assumption|]. unfold cancelled in *. rewrite <- E. exact C.
    + split; [reflexivity|]. rewrite (plain_same n (CH n (right_checked _ _ _ V))) in I. eapply p_value; eassumption.
    + exfalso. exact (until_matches _ _ _ _ R S I M).
    + exfalso. apply (never_both n). exists a, b, fs. repeat split; assumption.
    + split; [reflexivity|]. rewrite PL in B by reflexivity. eapply p_start; eassumption.
    + split; [reflexivity|]. rewrite PL in B by reflexivity. rewrite due_same in C. rewrite DUR in A by assumption. apply p_todo_start; assumption.
    + exfalso. apply (never_both (lit "DURATION")). apply gives_way_kind. right. repeat split; try assumption.
      destruct k; try discriminate F; try reflexivity. unfold family_of in F. destruct (sAction s) as [|[?|?|]|?]; discriminate F || (repeat match type of F with context [match ?x with _ => _ end] => destruct x end; discriminate F).
    + split; [reflexivity|]. rewrite ALM, PL in A by (assumption || reflexivity). apply p_together; assumption.
    + split; [reflexivity|]. apply p_no_observance; [assumption|].
      exact (proj1 (KI (fun k => getType k <> lit "STANDARD" /\ getType k <> lit "DAYLIGHT")) A).
  - intros [-> P]. remember Stays as o eqn:EO'. destruct P as [n L N|n L N|n L N|n L N G|n L N G|n L N|R N C|R N C|n p R I V NR|start p r u R S I M|a b n fs X F A B|pp F E A B|F A B C|F A B C|K A|K A]; try discriminate EO'.
    + apply p_required; [assumption|]. rewrite (ME n (PS _ n L EO)). assumption.
    + apply p_text_many; [assumption|]. rewrite (text_same n L). destruct (many n ps =? 0)%nat eqn:Z; lia.
    + apply p_too_many; [assumption|apply more_same; [assumption|split; assumption]|apply never_both].
    + apply p_none; [assumption|]. rewrite (ME n (PS _ n L AL)). assumption.
    + pose proof (status_same R (fun Q => C (proj2 Q))) as E. apply p_status; [assumption|rewrite (ME _ E); assumption|]. unfold cancelled in *. rewrite E. assumption.
    + eapply p_value; [|eassumption|eassumption]. rewrite (plain_same n (CH n (right_checked _ _ _ V))). eassumption.
    + eapply p_start; try eassumption. rewrite PL by reflexivity. assumption.
    + apply p_todo_start; [assumption|rewrite DUR by assumption; assumption|rewrite PL by reflexivity; assumption|rewrite due_same; assumption].
    + apply p_together; [assumption|]. rewrite ALM, PL by (assumption || reflexivity). assumption.
    + apply p_no_observance; [assumption|].
      exact (proj2 (KI (fun k => getType k <> lit "STANDARD" /\ getType k <> lit "DAYLIGHT")) A).
Qed.
End Settles.
