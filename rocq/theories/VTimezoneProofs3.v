(** Proofs about the offset lookup of time zone definitions: the table and the lookups. *)
From Coq Require Import Lia ZifyBool ZifyNat Sorting.Permutation Sorting.Sorted.
From Verif Require Import PyBase PyProofs CalModel CalSpec DateTimeModel DateTimeSpec DateTimeSpec2 DateTimeOps CalProofs DateTimeProofs DateTimeProofs2
  DateTimeProofs3 DateTimeProofs4 DateTimeOpsProofs PeriodModel PeriodSpec PeriodProofs RecurModel RecurTextProofs2 RecurExpand RecurExpandSpec RecurSetSpec RecurSortProofs
  RecurSimpleProofs RecurCacheProofs RecurMiscProofs RecurByPartsSpec RecurByPartsProofs3 RecurKeepProofs RecurSetModel RecurUnionSpec
  RecurAgainProofs RecurUnionProofs VTimezoneModel VTimezoneSpec VTimezoneProofs VTimezoneProofs2.
Ltac Zify.zify_post_hook ::= Z.div_mod_to_equations.

(** Sorting pairs by their first component. *)
Section Sort.
Context {A : Type}.
Notation lt := (fun a b : Z * A => fst a <? fst b).
Notation le := (fun a b : Z * A => fst a <= fst b).
Lemma p_insert x l : StronglySorted le l -> StronglySorted le (insert lt x l).
Proof.
  induction l as [|y l IH]; cbn [insert]; intro S; [repeat constructor|].
  inversion S as [|? ? S' F]; subst. destruct (Z.ltb_spec (fst y) (fst x)) as [L|L].
  - constructor; [auto|]. apply Forall_forall. intros z Hz.
    apply (Permutation_in _ (Permutation_sym (insert_perm _ lt x l))) in Hz. destruct Hz as [<-|Hz].
    + lia.
    + rewrite Forall_forall in F. auto.
  - constructor; [exact S|]. constructor; [exact L|]. apply Forall_forall. intros z Hz. rewrite Forall_forall in F.
    specialize (F z Hz). cbv beta in F. lia.
Qed.
Lemma p_sorted l : StronglySorted le (isort lt l).
Proof. induction l; cbn; [constructor|]. apply p_insert. assumption. Qed.
End Sort.

Lemma f2_perm {A B} (R : A -> B -> Prop) l l' xs : Permutation l l' -> Forall2 R l xs -> exists ys, Forall2 R l' ys /\ Permutation xs ys.
Proof.
  intro P. revert xs. induction P as [|a l l' P IH|a b l|l l1 l2 P1 IH1 P2 IH2]; intros xs F.
  - inversion F; subst. exists []. split; constructor.
  - inversion F as [|? x ? xs' H F']; subst. destruct (IH _ F') as (ys & Fy & Py). exists (x :: ys). split; constructor; auto.
  - inversion F as [|? x ? xs' H F']; subst. inversion F' as [|? y ? xs'' H' F'']; subst. exists (y :: x :: xs''). split; [repeat constructor; auto|apply perm_swap].
  - destruct (IH1 _ F) as (ys & Fy & Py). destruct (IH2 _ Fy) as (zs & Fz & Pz). exists zs. split; [exact Fz|]. eapply perm_trans; eassumption.
Qed.

Section WithTz.
Variable tzo : tzid -> Z -> Z -> Z -> Z -> Z -> Z -> bool -> bool -> Z.
Variable order : list dt -> list dt.
Variable torder : list onset_row -> list onset_row.
Hypothesis Ord : permutes order.
Hypothesis Shu : shuffles torder.
Variable top : Z.
Hypothesis Top : top <= 2099.
Hypothesis CO : clock_ordered tzo local_time.

Notation at_local := (at_local tzo).
Notation row_ok := (row_ok tzo).
Notation fresh := (DateTimeProofs.fresh_posix tzo).

Lemma at_good d x : at_local d x <-> RecurAgainProofs.good tzo local_time (new_year 1970) d x.
Proof.
  split; [intros [I C]|intros (I & _ & C); split; assumption]. split; [exact I|]. split; [|exact C].
  apply instant_civil in I as (_ & _ & U & T & _). split; [rewrite U|rewrite T]; reflexivity.
Qed.
Lemma at_key d x : at_local d x -> exists p d1, posix_key tzo d = Ok (p, d1) /\ at_local d1 x /\ fresh d = Ok p /\ fresh d1 = Ok p.
Proof.
  intro H. pose proof H as [I C]. apply at_good in H. destruct (good_key tzo local_time (new_year 1970) ltac:(discriminate) d x H) as (p & d1 & K & G & _ & F).
  exists p, d1. split; [exact K|]. split; [apply at_good, G|]. split; [exact F|].
  apply posix_key_spec in K as (V & _). rewrite (visible_fresh tzo d1 d V). exact F.
Qed.
(** ** Removing duplicates *)
Definition krow_ok (k : Z * onset_row) (c : change) : Prop := row_ok (snd k) c.
Lemma row_key_spec r c : row_ok r c -> exists k, row_key tzo r = Ok k /\ krow_ok k c.
Proof.
  destruct c as [[x f] o]. intros (A & F & T & N). destruct (at_key _ _ A) as (p & d1 & K & A1 & _). unfold row_key. rewrite K. cbn [rbind fst snd].
  eexists. split; [reflexivity|]. split; [exact A1|auto].
Qed.
Lemma has_row_spec acc cs k c : Forall2 krow_ok acc cs -> krow_ok k c -> exists b, has_row tzo acc k = Ok b /\ (b = true -> In c cs).
Proof.
  intros F K. induction F as [|k' c' acc cs K' F IH]; [exists false; split; [reflexivity|discriminate]|].
  cbn [has_row]. destruct IH as (b & E & H).
  match goal with |- context [if ?z then _ else _] => destruct z eqn:Q end; [|exists b; split; [exact E|right; auto]].
  destruct c as [[x f] o], c' as [[x' f'] o']. destruct K as ([I C] & F1 & T1 & _), K' as ([I' C'] & F1' & T1' & _).
  destruct (instant_ops tzo local_time _ _ _ _ I' I) as (_ & _ & _ & _ & -> & _). cbn [rbind].
  destruct (Z.eqb_spec (x - x') 0).
  - exists true. split; [reflexivity|]. intros _. left. f_equal; [f_equal|]; lia.
  - exists b. split; [exact E|right; auto].
Qed.
Lemma add_rows_spec l cs : Forall2 krow_ok l cs -> forall acc ds, Forall2 krow_ok acc ds ->
  exists u us, add_rows tzo acc l = Ok u /\ Forall2 krow_ok u us /\ forall c, In c us <-> In c ds \/ In c cs.
Proof.
  induction 1 as [|k c l cs K F IH]; intros acc ds Fa; cbn [add_rows].
  - exists acc, ds. split; [reflexivity|]. split; [exact Fa|]. cbn. tauto.
  - destruct (has_row_spec acc ds k c Fa K) as (b & -> & Hb). cbn [rbind]. destruct b.
    + destruct (IH acc ds Fa) as (u & us & E & Fu & M). exists u, us. split; [exact E|]. split; [exact Fu|]. intro c'. rewrite M. cbn.
      split; [tauto|]. intros [H|[<-|H]]; auto.
    + destruct (IH (acc ++ [k]) (ds ++ [c])) as (u & us & E & Fu & M); [apply Forall2_app; [exact Fa|constructor; [exact K|constructor]]|].
      exists u, us. split; [exact E|]. split; [exact Fu|]. intro c'. rewrite M, in_app_iff. cbn. tauto.
Qed.
Lemma mapr_spec {A B C} (f : A -> res B) (R : A -> C -> Prop) (S : B -> C -> Prop) l cs :
  (forall a c, R a c -> exists b, f a = Ok b /\ S b c) -> Forall2 R l cs -> exists bs, mapr f l = Ok bs /\ Forall2 S bs cs.
Proof.
  intros H F. induction F as [|a c l cs K F (bs & E & Fb)]; [exists []; split; [reflexivity|constructor]|].
  destruct (H a c K) as (b & Ea & Sb). cbn [mapr]. rewrite Ea. cbn [rbind]. rewrite E. cbn [rbind]. exists (b :: bs). split; [reflexivity|constructor; assumption].
Qed.
Lemma f2_map {A B C} (g : A -> B) (R : A -> C -> Prop) (S : B -> C -> Prop) l cs : (forall a c, R a c -> S (g a) c) -> Forall2 R l cs -> Forall2 S (map g l) cs.
Proof. intros H F. induction F; cbn; constructor; auto. Qed.
Lemma unique_rows_spec rows cs : Forall2 row_ok rows cs -> exists u us, unique_rows tzo torder rows = Ok u /\ Forall2 row_ok u us /\ forall c, In c us <-> In c cs.
Proof.
  intro F. destruct (mapr_spec (row_key tzo) row_ok krow_ok rows cs row_key_spec F) as (ks & E & Fk).
  destruct (add_rows_spec ks cs Fk [] [] (Forall2_nil _)) as (u & us & E2 & Fu & M).
  assert (Fm : Forall2 row_ok (map snd u) us) by (apply (f2_map snd krow_ok); [auto|exact Fu]).
  destruct (f2_perm _ _ _ _ (Shu (map snd u)) Fm) as (ys & Fy & P).
  exists (torder (map snd u)), ys. unfold unique_rows. rewrite E. cbn [rbind]. rewrite E2. split; [reflexivity|]. split; [exact Fy|].
  intro c. split; intro H.
  - apply (Permutation_in _ (Permutation_sym P)) in H. apply M in H. cbn in H. tauto.
  - apply (Permutation_in _ P). apply M. auto.
Qed.

(** ** The table *)
Definition trow_ok (r : trow) (c : change) : Prop :=
  let '(x, f, o) := c in at_local (tAt r) x /\ instant (InZone true TzNone) (tUTC r) (x - f) /\ tTo r = o.
Lemma with_utc_spec r c : row_ok r c -> trow_ok (with_utc r) c.
Proof.
  destruct c as [[x f] o]. intros ([I C] & F & T & N). split; [split; [exact I|exact C]|]. split; [|exact T].
  cbn [with_utc tUTC]. apply instant_civil in I as (V & D & U & Tz & ->). pose proof (valid_month _ V) as Hm.
  set (d := oAt r) in *. assert (J : instant local_time (offsetSeconds d (- oFrom r)) (civil d - f)).
  { unfold offsetSeconds. replace (civil d - f) with (civil (with_hms d (mHours d) (mMinutes d) (mSeconds d + - oFrom r))).
    - apply norm_instant; auto.
    - unfold civil, secs_of_day. cbn. lia. }
  set (e := offsetSeconds d (- oFrom r)) in *. apply instant_civil in J as (V' & D' & U' & T' & E').
  apply instant_civil. unfold setTimezoneUTC. rewrite U'. cbn [negb Bool.eqb]. split; [exact V'|]. split; [exact D'|]. split; [reflexivity|]. split; [exact T'|].
  rewrite E'. reflexivity.
Qed.
Lemma trow_key_spec r c : trow_ok r c -> exists k, trow_key tzo r = Ok k /\ (trow_ok (snd k) c /\ fresh (tAt (snd k)) = Ok (fst k)).
Proof.
  destruct c as [[x f] o]. intros (A & U & T). destruct (at_key _ _ A) as (p & d1 & K & A1 & _ & Fr). unfold trow_key. rewrite K. cbn [rbind fst snd].
  eexists. split; [reflexivity|]. cbn [fst snd tAt]. split; [split; [exact A1|auto]|exact Fr].
Qed.
Definition time_of (c : change) : Z := fst (fst c).
Definition year_ok (c : change) : Prop := forall d, instant local_time d (time_of c) -> 1901 <= mYear d <= 2100.
Lemma sort_rows_spec rows cs : Forall2 trow_ok rows cs -> Forall year_ok cs -> exists t ts, sort_rows tzo rows = Ok t /\ Forall2 trow_ok t ts /\
  Permutation cs ts /\ StronglySorted Z.le (map time_of ts).
Proof.
  intros F Y. destruct (mapr_spec (trow_key tzo) trow_ok (fun k c => trow_ok (snd k) c /\ fresh (tAt (snd k)) = Ok (fst k)) rows cs trow_key_spec F) as (ks & E & Fk).
  unfold sort_rows. rewrite E. cbn [rbind].
  destruct (f2_perm _ _ _ _ (isort_perm _ (fun a b => fst a <? fst b) ks) Fk) as (ts & Ft & P).
  eexists. exists ts. split; [reflexivity|]. split; [|split; [exact P|]].
  - apply (f2_map snd (fun k c => trow_ok (snd k) c /\ fresh (tAt (snd k)) = Ok (fst k))); [intros k c [H _]; exact H|exact Ft].
  - pose proof (p_sorted ks) as S. assert (Y' : Forall year_ok ts) by (apply Forall_forall; intros c Hc; rewrite Forall_forall in Y; apply Y; apply (Permutation_in _ (Permutation_sym P)); exact Hc).
    clear P E Fk Y F. revert ts Ft Y'. induction S as [|k l S IH Fl]; intros ts Ft Y; inversion Ft as [|? c ? ts' K Ft']; subst; [constructor|].
    inversion Y as [|? ? Yc Yt]; subst. cbn [map]. constructor; [apply IH; assumption|]. apply Forall_forall. intros z Hz. apply in_map_iff in Hz as (c' & <- & Hc').
    apply In_nth_error in Hc' as (i & Hi).
    destruct (forall2_nth (fun c k => trow_ok (snd k) c /\ fresh (tAt (snd k)) = Ok (fst k)) ts' l) with (i := i) (r := c') as (k' & Hk & T' & P'); [|exact Hi|].
    { clear - Ft'. induction Ft'; constructor; auto. }
    rewrite Forall_forall in Fl, Yt. specialize (Fl k' (nth_error_In _ _ Hk)). cbv beta in Fl. specialize (Yt c' (nth_error_In _ _ Hi)).
    destruct K as [Tc Pc]. destruct c as [[x f] o], c' as [[x' f'] o']. cbn [time_of fst] in *. destruct Tc as (A & _), T' as (A' & _).
    apply (clock_le tzo CO _ _ _ _ _ _ A A' (Yc _ (proj1 A)) (Yt _ (proj1 A')) Pc P' Fl).
Qed.

(** ** The lookups *)
Variable es : list elem.
Hypothesis HE : Forall (elem_ok tzo top) es.
Hypothesis WM : whole_minutes es.

Definition table_ok (b : Z) (table : list trow) (cs : list change) : Prop :=
  Forall2 trow_ok table cs /\ StronglySorted Z.le (map time_of cs) /\
  (forall x f o, In (x, f, o) cs -> onset es x f o /\ x <= b) /\ (forall x f o, onset es x f o -> x < b -> In (x, f, o) cs).

Lemma expandAll_spec es' stop b : eoks tzo es es' -> instant local_time stop b -> instant local_time (jan1 stop) b -> (mMonth stop, mDay stop) = (1, 1) -> mYear stop <= top ->
  exists es2 table cs, runs (fun n => expandAll tzo order torder n es' None stop false) (es2, Ok table) /\ eoks tzo es es2 /\ table_ok b table cs.
Proof.
  intros K Ib Ij M Y. destruct (expand_elems_spec tzo order Ord top Top CO es stop b HE Ib Ij M Y es' K) as (es2 & rows & cs & R & K2 & Fr & A & B).
  destruct (unique_rows_spec rows cs Fr) as (u & us & Eu & Fu & Mu).
  assert (Yc : Forall year_ok us).
  { apply Forall_forall. intros [[x f] o] Hc. apply Mu, A in Hc as [(e & Ie & _ & _ & a & Ia & La & _) Lb]. intros d Id. cbn [time_of fst] in Id.
    rewrite Forall_forall in HE. destruct (HE e Ie) as (_ & _ & Ye & _).
    apply instant_civil in Ia as (Va & _ & _ & _ & ->). apply instant_civil in Id as (Vd & _ & _ & _ & ->). apply instant_civil in Ib as (Vb & _ & _ & _ & ->).
    pose proof (scale_year local_time (eStart e) d ltac:(discriminate) Va Vd La). pose proof (scale_year local_time d stop ltac:(discriminate) Vd Vb Lb). lia. }
  assert (Ft : Forall2 trow_ok (map with_utc u) us) by (apply (f2_map with_utc row_ok); [apply with_utc_spec|exact Fu]).
  destruct (sort_rows_spec _ _ Ft Yc) as (t & ts & Et & Ftt & P & S).
  exists es2, t, ts. split; [|split; [exact K2|]].
  - refine (runs_bind (fun n => expand_elems tzo order n es' None stop false)
      (fun z _ => match z with (es, Raise x) => Some (es, Raise x) | (es, Ok rows) => Some (es, do u <- unique_rows tzo torder rows; sort_rows tzo (map with_utc u)) end) _ _ R _).
    rewrite Eu. cbn [rbind]. rewrite Et. apply runs_ret.
  - split; [exact Ftt|]. split; [exact S|]. split.
    + intros x f o H. apply (A x f o). apply Mu. apply (Permutation_in _ (Permutation_sym P)). exact H.
    + intros x f o H L. apply (Permutation_in _ P). apply Mu. apply B; assumption.
Qed.

Definition change_of (rel : bool) (c : change) : Z := let '(x, f, _) := c in change_at rel x f.
Definition index_ok (cs : list change) (rel : bool) (t : Z) (i : nat) : Prop :=
  (i <= List.length cs)%nat /\ Forall (fun c => change_of rel c <= t) (firstn i cs) /\ Forall (fun c => t < change_of rel c) (skipn i cs).

Lemma utc_lt d e t y : instant local_time d t -> instant (InZone true TzNone) e y -> dt_lt tzo d e = Ok (t <? y).
Proof.
  intros I J. apply instant_civil in I as (V & D & U & T & ->). apply instant_civil in J as (V' & D' & U' & T' & ->).
  assert (FC : field_comparable d e) by (right; left; unfold floating; rewrite U, T; reflexivity).
  pose proof (cmp_times tzo d e _ V V' D D' FC (db_diff no_tz _ _ _ _ V V' (hdn_db d V) (hdn_db e V'))) as (O & _).
  rewrite O. unfold civil. f_equal. lia.
Qed.
Lemma times_sorted b table cs rel : b <= civil (new_year top) -> table_ok b table cs -> (rel = true -> utc_ordered_to top es) -> StronglySorted Z.le (map (change_of rel) cs).
Proof.
  intros Lb (_ & S & A & _) UO. destruct rel.
  - specialize (UO eq_refl). clear HE WM. induction cs as [|[[x f] o] cs IH]; [constructor|]. cbn [map] in *. inversion S as [|? ? S' F]; subst.
    constructor; [apply IH; [exact S'|intros; apply A; right; assumption]|]. apply Forall_forall. intros z Hz. apply in_map_iff in Hz as ([[y g] o'] & <- & Hc).
    cbn. destruct (A y g o' (or_intror Hc)) as [Oy Ly]. apply (UO x f o y g o' (new_year top) (civil (new_year top))); [apply A; left; reflexivity|exact Oy| |apply new_year_instant|reflexivity|reflexivity|lia].
    rewrite Forall_forall in F. apply (F y). apply in_map_iff. exists (y, g, o'). auto.
  - replace (map (change_of false) cs) with (map time_of cs); [exact S|]. apply map_ext. intros [[x f] o]. reflexivity.
Qed.
Lemma firstn_all_le {A} (P : A -> Prop) n l : Forall P (firstn n l) -> Forall P (skipn n l) -> Forall P l.
Proof. intros. rewrite <- (firstn_skipn n l). apply Forall_app. auto. Qed.
Lemma search_spec b table cs rel temp t : b <= civil (new_year top) -> table_ok b table cs -> (rel = true -> utc_ordered_to top es) -> instant local_time temp t ->
  exists i, tuple_bisect_right tzo table temp rel = Ok i /\ index_ok cs rel t i.
Proof.
  intros Lb T UO It. pose proof (times_sorted b table cs rel Lb T UO) as S. destruct T as (F & _ & _).
  unfold tuple_bisect_right.
  destruct (bisect_instants tzo (fun r => if rel then tUTC r else tAt r) table temp t (map (change_of rel) cs)) as (k & E & L & H1 & H2); [|exact S|].
  - clear S UO. induction F as [|r [[x f] o] table cs (A & U & _) F IH]; cbn [map]; constructor; [|exact IH]. destruct rel; cbn [change_of change_at].
    + apply utc_lt; assumption.
    + destruct (instant_ops tzo local_time temp (tAt r) t x It (proj1 A)) as (-> & _). f_equal. lia.
  - exists k. split; [exact E|]. split; [rewrite <- (f2_len _ _ _ F); exact L|]. rewrite firstn_map in H1. rewrite skipn_map in H2.
    split; apply Forall_forall; intros c Hc; [rewrite Forall_forall in H1; apply H1|rewrite Forall_forall in H2; apply H2]; apply in_map; exact Hc.
Qed.
Lemma minute_spec cs rel t t' i : (forall x f o, In (x, f, o) cs -> onset es x f o) -> t / 60 = t' / 60 -> index_ok cs rel t i -> index_ok cs rel t' i.
Proof.
  intros A E (L & H1 & H2). split; [exact L|].
  assert (Q : forall c, In c cs -> change_of rel c mod 60 = 0).
  { intros [[x f] o] Hc. destruct (WM x f o (A _ _ _ Hc)) as [Q1 Q2]. destruct rel; cbn; [|exact Q1]. lia. }
  split; apply Forall_forall; intros c Hc; [rewrite Forall_forall in H1; specialize (H1 c Hc)|rewrite Forall_forall in H2; specialize (H2 c Hc)].
  - assert (In c cs) by (rewrite <- (firstn_skipn i cs); apply in_or_app; auto). specialize (Q c H). lia.
  - assert (In c cs) by (rewrite <- (firstn_skipn i cs); apply in_or_app; auto). specialize (Q c H). lia.
Qed.

Definition answer (table : list trow) (i : nat) : res Z :=
  match i with O => Ok 0 | S j => match nth_error table j with None => Raise IndexError | Some r => Ok (tTo r) end end.
Lemma answer_spec b table cs rel t i : b <= civil (new_year top) -> table_ok b table cs -> (rel = true -> utc_ordered_to top es) -> index_ok cs rel t i ->
  (forall x f o, onset es x f o -> change_at rel x f <= t -> x < b) ->
  exists v, answer table i = Ok v /\ in_force es rel t v.
Proof.
  intros Lb T UO (L & H1 & H2) Inside. pose proof (times_sorted b table cs rel Lb T UO) as Srt. destruct T as (F & _ & A & B).
  rewrite Forall_forall in H1, H2.
  assert (Fst : forall x f o, onset es x f o -> change_at rel x f <= t -> In (x, f, o) (firstn i cs)).
  { intros x f o O C. assert (H : In (x, f, o) cs) by (apply B; eauto). rewrite <- (firstn_skipn i cs) in H. apply in_app_or in H as [H|H]; [exact H|].
    specialize (H2 _ H). cbn in H2. lia. }
  destruct i as [|j]; cbn [answer].
  - exists 0. split; [reflexivity|]. left. split; [reflexivity|]. intros x f o O. destruct (Z.lt_ge_cases t (change_at rel x f)) as [|G]; [assumption|].
    destruct (Fst x f o O G).
  - destruct (nth_error table j) as [r|] eqn:Ej; [|apply nth_error_None in Ej; rewrite (f2_len _ _ _ F) in Ej; lia].
    destruct (forall2_nth _ _ _ F j r Ej) as ([[x f] o] & Ec & _ & _ & To). exists (tTo r). split; [reflexivity|]. right. exists x, f.
    assert (Hn : forall k, (k < S j)%nat -> nth_error cs k = nth_error (firstn (S j) cs) k).
    { intros k Lk. pose proof (nth_error_app1 (firstn (S j) cs) (skipn (S j) cs) (n := k)) as Q. rewrite firstn_skipn, firstn_length in Q. apply Q. lia. }
    assert (In1 : In (x, f, o) (firstn (S j) cs)).
    { apply (nth_error_In _ j). rewrite <- Hn by lia. exact Ec. }
    split; [rewrite To; apply A; apply (nth_error_In _ _ Ec)|]. split; [apply (H1 _ In1)|].
    intros y g o' O C. specialize (Fst y g o' O C). apply In_nth_error in Fst as (k & Ek).
    assert (Lk : (k < S j)%nat). { match type of Ek with ?l = _ => assert (Q : l <> None) by (rewrite Ek; discriminate) end. apply nth_error_Some in Q. rewrite firstn_length in Q. lia. }
    assert (Ek' : nth_error cs k = Some (y, g, o')).
    { rewrite Hn by lia. exact Ek. }
    apply (sorted_nth _ Srt k j (change_of rel (y, g, o')) (change_of rel (x, f, o)) ltac:(lia)); apply map_nth_error; assumption.
Qed.

(** The state of the object. *)
Definition entry_ok (cs : list change) (ki : ckey * nat) : Prop :=
  exists d t rel, fst ki = cache_key d rel /\ instant local_time d t /\ index_ok cs rel t (snd ki).
Definition zok (z : vtz) : Prop :=
  eoks tzo es (zElems z) /\
  match zMaxYear z with
  | None => True
  | Some y => y <= top /\ exists cs, table_ok (civil (new_year y)) (zTable z) cs /\ Forall (entry_ok cs) (zOffsets z)
  end.

Lemma key_minute d d' rel rel' t t' : cache_key d rel = cache_key d' rel' -> instant local_time d t -> instant local_time d' t' -> rel = rel' /\ t / 60 = t' / 60.
Proof.
  intros E I I'. injection E as E1 E2 E3 E4 E5 E6. split; [exact E6|].
  apply instant_civil in I as (V & _ & _ & _ & ->). apply instant_civil in I' as (V' & _ & _ & _ & ->).
  destruct V as (_ & (_ & _ & S) & _), V' as (_ & (_ & _ & S') & _). unfold civil, secs_of_day. rewrite E1, E2, E3, E4, E5.
  set (q := hdn (mYear d') (mMonth d') (mDay d') - hdn 1970 1 1). lia.
Qed.
Lemma lookup_in l k i : lookup l k = Some i -> exists k', In (k', i) l /\ k' = k.
Proof.
  induction l as [|[k' j] l IH]; [discriminate|]. cbn [lookup]. destruct (ckey_eqb k' k) eqn:E.
  - intro H. injection H as ->. exists k'. split; [left; reflexivity|]. destruct k' as [[[[[y m] d] h] mi] r], k as [[[[[y2 m2] d2] h2] mi2] r2].
    unfold ckey_eqb in E. rewrite !Bool.andb_true_iff in E. destruct E as [[[[[A B] C] D] F] G]. apply Bool.eqb_prop in G.
    replace y2 with y by lia. replace m2 with m by lia. replace d2 with d by lia. replace h2 with h by lia. replace mi2 with mi by lia. subst. reflexivity.
  - intro H. destruct (IH H) as (k2 & H2 & ->). exists k. split; [right; exact H2|reflexivity].
Qed.

Lemma lookup_offset_spec z y temp rel t : zok z -> zMaxYear z = Some y -> instant local_time temp t -> (rel = true -> utc_ordered_to top es) ->
  (forall x f o, onset es x f o -> change_at rel x f <= t -> x < civil (new_year y)) ->
  exists z' v, lookup_offset tzo z temp rel = (z', Ok v) /\ zok z' /\ in_force es rel t v.
Proof.
  intros Z Ey It UO Inside. pose proof Z as [Ke H]. rewrite Ey in H. destruct H as (Yt & cs & T & Fo). pose proof (new_year_le y top Yt) as Lb.
  unfold lookup_offset. destruct (zTable z) as [|r0 rest] eqn:Et.
  - destruct (answer_spec _ _ cs rel t 0%nat Lb T UO) as (v & Ev & Iv); [|exact Inside|].
    { destruct T as (F & _). inversion F; subst. split; [cbn; lia|]. split; constructor. }
    injection Ev as <-. exists z, 0. auto.
  - rewrite <- Et. fold (answer (zTable z)). rewrite <- Et in T.
    destruct (lookup (zOffsets z) (cache_key temp rel)) as [i|] eqn:El.
    + apply lookup_in in El as (k & Hk & ->). rewrite Forall_forall in Fo. destruct (Fo _ Hk) as (d & t' & rel' & Ek & Id & Ix). cbn [fst snd] in *.
      destruct (key_minute temp d rel rel' t t' Ek It Id) as [<- Em].
      assert (Ix' : index_ok cs rel t i) by (apply (minute_spec cs rel t' t i); [intros x f o Hx; apply (proj1 (proj2 (proj2 T)) x f o Hx)|lia|exact Ix]).
      destruct (answer_spec _ _ cs rel t i Lb T UO Ix' Inside) as (v & Ev & Iv). exists z, v. split; [f_equal; exact Ev|]. split; [exact Z|exact Iv].
    + destruct (search_spec _ _ cs rel temp t Lb T UO It) as (i & -> & Ix). cbv zeta.
      destruct (answer_spec _ _ cs rel t i Lb T UO Ix Inside) as (v & Ev & Iv). eexists. exists v. split; [f_equal; exact Ev|]. split; [|exact Iv].
      split; [exact Ke|]. cbn [zMaxYear zTable zOffsets]. rewrite Ey. split; [exact Yt|]. exists cs. split; [exact T|]. constructor.
      * exists temp, t, rel. auto.
      * destruct (max_entries <=? _); [constructor|exact Fo].
Qed.

Lemma ask_spec z d rel t : zok z -> question es top d rel t ->
  exists z' v, runs (fun n => getTimezoneOffsetSeconds tzo order torder n z d rel) (z', Ok v) /\ zok z' /\ in_force es rel t v.
Proof.
  intros Z (It & Y1 & Y2 & UO). unfold getTimezoneOffsetSeconds. set (temp := setTimezoneID d TzNone) in *. change (mYear d) with (mYear temp) in *.
  assert (UO' : rel = true -> utc_ordered_to top es) by (intro R; apply (UO R)).
  assert (Inside : forall y, mYear temp < y -> forall x f o, onset es x f o -> change_at rel x f <= t -> x < civil (new_year y)).
  { intros y Ly x f o O C. destruct rel; cbn [change_at] in C.
    - destruct (UO eq_refl) as [_ H]. specialize (H x f o (new_year (mYear temp + 1)) _ O C (new_year_instant _) eq_refl eq_refl).
      pose proof (new_year_le (mYear temp + 1) y ltac:(lia)). lia.
    - pose proof (year_before temp t y It Ly). lia. }
  destruct (match zMaxYear z with None => true | Some y => y <=? mYear temp end) eqn:Q.
  - destruct (cache_max_instant temp t It) as (Cy & Cm & Ci).
    destruct (expandAll_spec (zElems z) (cache_max temp) (civil (new_year (mYear temp + 2))) (proj1 Z) Ci) as (es2 & table & cs & R & K & T); auto; [|lia|].
    { unfold jan1. rewrite Cy. apply new_year_instant. }
    set (z1 := mkVtz es2 (Some (mYear (cache_max temp))) table []).
    destruct (lookup_offset_spec z1 (mYear (cache_max temp)) temp rel t) as (z' & v & E & Z' & Iv); auto.
    { split; [exact K|]. cbn [z1 zMaxYear zTable zOffsets]. rewrite Cy. split; [lia|]. exists cs. split; [exact T|constructor]. }
    { apply Inside. lia. }
    exists z', v. split; [|auto].
    refine (runs_bind (fun n => expandAll tzo order torder n (zElems z) None (cache_max temp) false)
      (fun w _ => match w with (es, Raise x) => Some (mkVtz es (zMaxYear z) (zTable z) (zOffsets z), Raise x)
        | (es, Ok table) => Some (lookup_offset tzo (mkVtz es (Some (mYear (cache_max temp))) table []) temp rel) end) _ _ R _).
    fold z1. rewrite E. apply runs_ret.
  - destruct (zMaxYear z) as [y|] eqn:Ey; [|discriminate].
    destruct (lookup_offset_spec z y temp rel t Z Ey It UO') as (z' & v & E & Z' & Iv); [apply Inside; lia|].
    exists z', v. split; [|auto]. rewrite E. apply runs_ret.
Qed.
(** The text for an element. *)
Lemma two_digits k : 0 <= k < 100 -> (if k <? 10 then lit "0" else []) ++ pystr k = map digit_char [k / 10; k mod 10].
Proof.
  intro H. assert (Q : forall n, (n < 100)%nat -> (if Z.of_nat n <? 10 then lit "0" else []) ++ pystr (Z.of_nat n) = map digit_char [Z.of_nat n / 10; Z.of_nat n mod 10]).
  { intros n Hn. do 100 (destruct n as [|n]; [vm_compute; reflexivity|]). lia. }
  specialize (Q (Z.to_nat k) ltac:(lia)). rewrite Z2Nat.id in Q by lia. exact Q.
Qed.
Lemma descriptor_spec e0 e : same_elem tzo e0 e -> describes e0 (descriptor e).
Proof.
  intros (T & _ & N & _). unfold describes, descriptor. rewrite N, T. destruct (eName e0) as [|c name]; [|reflexivity].
  intro H. cbv zeta. exists (Z.abs (eTo e0) / 3600), (Z.abs (eTo e0) / 60 mod 60), (Z.abs (eTo e0) mod 60). split; [lia|]. split; [lia|]. split; [lia|].
  rewrite (two_digits (Z.abs (eTo e0) / 3600)) by lia. rewrite (two_digits (Z.abs (eTo e0) / 60 mod 60)) by lia. destruct (eTo e0 <? 0); reflexivity.
Qed.

Lemma name_spec z d rel t : zok z -> question es top d rel t ->
  exists z' s, runs (fun n => getTimezoneDescriptor tzo order n z d) (z', Ok s) /\ zok z' /\ (quiet es d t -> named es t s).
Proof.
  intros [K Z] (It & Y1 & Y2 & _). unfold getTimezoneDescriptor, findTimezoneElement. set (temp := setTimezoneID d TzNone) in *. change (mYear d) with (mYear temp) in *.
  destruct (find_elem_spec tzo order Ord top Top CO temp t It ltac:(lia) es HE (zElems z) [] None K I) as (es2 & f & R & K2 & Fo); [intros _ x g o (e & [] & _)|].
  eexists. eexists. split; [|split].
  - refine (runs_bind (fun n => match find_elem tzo order n (zElems z) temp None with
      | None => None | Some (es, r) => Some (mkVtz es (zMaxYear z) (zTable z) (zOffsets z), do f <- r; Ok (option_map fst f)) end)
      (fun w _ => match w with (z, r) => Some (z, do f <- r; Ok (match f with None => [] | Some e => descriptor e end)) end) _ _ _ _).
    + exact (runs_bind (fun n => find_elem tzo order n (zElems z) temp None)
        (fun w _ => match w with (es, r) => Some (mkVtz es (zMaxYear z) (zTable z) (zOffsets z), do f <- r; Ok (option_map fst f)) end) _ _ R (runs_ret _)).
    + apply runs_ret.
  - split; [exact K2|exact Z].
  - intro Q. specialize (Fo Q). cbn [rbind app] in *. destruct f as [[e df]|]; cbn [option_map fst found_ok] in *.
    + right. destruct Fo as (e0 & a & x & I0 & S0 & Ia & Ix & Gx & Lx & Mx). exists e0, x. split; [exact I0|]. split; [exact Gx|]. split; [exact Lx|].
      split; [apply descriptor_spec, S0|exact Mx].
    + left. split; [reflexivity|exact Fo].
Qed.

Lemma asked_zok z : asked tzo order torder top es z -> zok z.
Proof.
  induction 1 as [|z fuel d rel t z' r A IH Q E|z fuel d t z' r A IH Q E].
  - split; [apply (eoks_init tzo top), HE|exact I].
  - destruct (ask_spec z d rel t IH Q) as (z2 & v & [D _] & Z2 & _). specialize (D fuel _ E). injection D as -> _. exact Z2.
  - destruct (name_spec z d false t IH Q) as (z2 & v & [D _] & Z2 & _). specialize (D fuel _ E). injection D as -> _. exact Z2.
Qed.
Theorem offset_in_force z d rel t : asked tzo order torder top es z -> question es top d rel t ->
  exists N, forall fuel, (N <= fuel)%nat -> exists z' v, getTimezoneOffsetSeconds tzo order torder fuel z d rel = Some (z', Ok v) /\ in_force es rel t v.
Proof.
  intros A Q. destruct (ask_spec z d rel t (asked_zok z A) Q) as (z' & v & [_ (N & HN)] & _ & Iv). exists N. intros fuel L. exists z', v. split; [apply HN, L|exact Iv].
Qed.
Theorem name_in_force z d t : asked tzo order torder top es z -> question es top d false t -> quiet es d t ->
  exists N, forall fuel, (N <= fuel)%nat -> exists z' s, getTimezoneDescriptor tzo order fuel z d = Some (z', Ok s) /\ named es t s.
Proof.
  intros A Q Qu. destruct (name_spec z d false t (asked_zok z A) Q) as (z' & v & [_ (N & HN)] & _ & Iv). exists N. intros fuel L. exists z', v. split; [apply HN, L|auto].
Qed.
End WithTz.

Lemma force_unique es rel t v w : unambiguous es rel -> in_force es rel t v -> in_force es rel t w -> v = w.
Proof.
  intros Un [[-> Nv]|(x & f & O & L & M)] [[-> Nw]|(y & g & O' & L' & M')].
  - reflexivity.
  - specialize (Nv _ _ _ O'). lia.
  - specialize (Nw _ _ _ O). lia.
  - apply (Un x f v y g w O O'). specialize (M _ _ _ O' L'). specialize (M' _ _ _ O L). lia.
Qed.
(** Neither what was asked before nor the order of sets matters. *)
Theorem offset_history tzo top es : top <= 2099 -> clock_ordered tzo local_time -> Forall (elem_ok tzo top) es -> whole_minutes es ->
  forall order torder z order' torder' z' d rel t, permutes order -> shuffles torder -> permutes order' -> shuffles torder' ->
  asked tzo order torder top es z -> asked tzo order' torder' top es z' -> question es top d rel t -> unambiguous es rel ->
  exists N v, forall fuel, (N <= fuel)%nat -> exists z1 z2, getTimezoneOffsetSeconds tzo order torder fuel z d rel = Some (z1, Ok v) /\
    getTimezoneOffsetSeconds tzo order' torder' fuel z' d rel = Some (z2, Ok v).
Proof.
  intros Top CO HE WM order torder z order' torder' z' d rel t O1 S1 O2 S2 A1 A2 Q Un.
  destruct (offset_in_force tzo order torder O1 S1 top Top CO es HE WM z d rel t A1 Q) as (N1 & H1).
  destruct (offset_in_force tzo order' torder' O2 S2 top Top CO es HE WM z' d rel t A2 Q) as (N2 & H2).
  destruct (ask_spec tzo order torder O1 S1 top Top CO es HE WM z d rel t (asked_zok tzo order torder O1 S1 top Top CO es HE WM z A1) Q) as (zz & v & [D _] & _ & F).
  exists (N1 + N2)%nat, v. intros fuel L. destruct (H1 fuel ltac:(lia)) as (z1 & v1 & E1 & F1). destruct (H2 fuel ltac:(lia)) as (z2 & v2 & E2 & F2).
  exists z1, z2. rewrite E1, E2. rewrite (force_unique es rel t v v1 Un F F1), (force_unique es rel t v1 v2 Un F1 F2). auto.
Qed.

(** The posix time of floating values, when the default zone has one offset. *)
Lemma fixed_default tzo o : (forall y m d h mi s b, tzo TzNone y m d h mi s b false = o) -> clock_ordered tzo local_time.
Proof.
  intros H d e x y p q Id Ie _ Yd Ye P Q L.
  apply instant_civil in Id as (Vd & _ & Ud & Td & ->). apply instant_civil in Ie as (Ve & _ & Ue & Te & ->).
  apply posix_rebuilt in P, Q; auto. assert (tz_lookup tzo d false = tz_lookup tzo e false).
  { unfold tz_lookup. rewrite Ud, Ue, Td, Te. rewrite !H. reflexivity. }
  unfold civil in L. lia.
Qed.
(** A rule by months or years without BYSECOND keeps the seconds of the start. *)
Lemma rule_minutes off start a r x : hasBy r = true -> step_months r <> None -> rBySeconds r = None -> mSeconds start = 0 ->
  rule_gives local_time off start a r x -> x mod 60 = 0.
Proof.
  intros HB SM BS S0 (lim & _ & G). rewrite HB in G. destruct G as (_ & _ & k & s & e & _ & Iv & (_ & (_ & _ & C) & _) & Ie).
  unfold interval_at in Iv. destruct (step_months r) as [p|]; [|congruence]. rewrite BS in C. cbn in C. destruct Iv as (_ & _ & Sc & _).
  apply instant_civil in Ie as (_ & _ & _ & _ & ->). unfold civil, secs_of_day. rewrite C, Sc, S0.
  set (q := hdn (mYear e) (mMonth e) (mDay e) - hdn 1970 1 1). lia.
Qed.

(** An element with one yearly rule is covered. *)
Lemma yearly_elem_ok tzo top start to from name r a : clock_ordered tzo local_time -> by_ok local_time r -> hasBy r = true -> rFreq r = YEARLY -> rInterval r = 1 ->
  rUseUntil r = false -> instant local_time start a -> 1902 <= mYear start -> honest tzo start -> top < 2099 ->
  elem_ok tzo top (mkElem start to from name (mkRset [(r, cache_init)] [] [] [] [] []) None None).
Proof.
  intros CO BO HB FR IV UU Ia Y H T. unfold elem_ok. cbn [eBelow eItems eStart eFrom eRec sRrules sExrules sRdates sExdates sRperiods sExperiods map fst].
  do 8 (split; [auto|]). split; [repeat constructor|]. split; [constructor|]. exists a. split; [exact Ia|].
  intros d b MD Yd Ib L. constructor; [|constructor]. exists None. right. split; [|exact CO].
  assert (Lt : mYear start <= mYear d).
  { pose proof Ia as Ia'. pose proof Ib as Ib'. apply instant_civil in Ia' as (Va & _ & _ & _ & Ea), Ib' as (Vb & _ & _ & _ & Eb).
    apply (scale_year local_time start d); auto; [discriminate|]. cbn. lia. }
  split; [discriminate|]. split; [exact HB|]. split; [exact BO|]. split; [exact Ia|]. split; [exact Y|]. split; [|split; [exact Ia|unfold until_at; rewrite UU; reflexivity]].
  exists d. split; [reflexivity|]. split; [exact Ib|]. exists (mYear d + 1 - mYear start), (with_ymd start (mYear d + 1) (mMonth start) (mDay start)). split; [lia|].
  assert (Vs : 1 <= mMonth start <= 12) by (destruct Ia as ((V & _) & _); cbn in V; apply V).
  assert (Ys : mYear (with_ymd start (mYear d + 1) (mMonth start) (mDay start)) = mYear d + 1) by reflexivity. split; [|rewrite Ys; lia]. unfold interval_at, step_months. rewrite FR, IV.
  do 7 (split; [reflexivity|]). split; [exact Vs|]. rewrite Ys. change (mMonth (with_ymd start (mYear d + 1) (mMonth start) (mDay start))) with (mMonth start). lia.
Qed.
(** Its onsets are in the months of BYMONTH, or DTSTART. *)
Lemma yearly_onset start to from name r c m x f o : hasBy r = true -> rFreq r = YEARLY -> rByMonth r = Some [m] -> 1 <= mMonth start <= 12 -> mMonth start = m ->
  onset_of (mkElem start to from name (mkRset [(r, c)] [] [] [] [] []) None None) x f o ->
  f = from /\ o = to /\ exists e, instant local_time e x /\ mMonth e = m.
Proof.
  intros HB FR BM Vs Ms (-> & -> & a & Ia & _ & G). cbn [eStart eFrom eTo eRec sRrules sRdates] in *. split; [reflexivity|]. split; [reflexivity|].
  destruct G as [->|[(r' & c' & [E|[]] & lim & _ & G)|(d & [] & _)]]; [exists start; auto|]. inversion E; subst r' c'. rewrite HB in G.
  destruct G as (_ & _ & k & s & e & _ & _ & (_ & _ & D) & Ie). rewrite FR in D. exists e. split; [exact Ie|]. destruct D as [D _].
  destruct D as (m' & In' & _ & (_ & _ & Em & _)); [left; rewrite BM; exact I|]. rewrite BM in In'. destruct (In' I) as [<-|[]]. exact Em.
Qed.
Lemma instant_month d e x : instant local_time d x -> instant local_time e x -> mMonth d = mMonth e.
Proof. intros I J. destruct (instant_same local_time d e x ltac:(discriminate) I J) as (A & _). unfold ymd in A. congruence. Qed.
Lemma instant_minutes d x : instant local_time d x -> mSeconds d = 0 -> x mod 60 = 0.
Proof.
  intros I S0. apply instant_civil in I as (_ & _ & _ & _ & ->). unfold civil, secs_of_day. rewrite S0.
  set (q := hdn (mYear d) (mMonth d) (mDay d) - hdn 1970 1 1). lia.
Qed.
(** A time from 1 January of a year to a time in a month of that year is not in a later month. *)
Lemma month_le n d e y x t : instant local_time n y -> (mMonth n, mDay n) = (1, 1) -> mYear n = mYear d -> instant local_time d t -> instant local_time e x ->
  y <= x -> x <= t -> mMonth e <= mMonth d.
Proof.
  intros Hn MD Yn Hd He L1 L2. apply instant_civil in Hn as (Vn & _ & _ & _ & ->), Hd as (Vd & _ & _ & _ & ->), He as (Ve & _ & _ & _ & ->).
  pose proof (scale_year local_time n e ltac:(discriminate) Vn Ve L1) as Y1. pose proof (scale_year local_time e d ltac:(discriminate) Ve Vd L2) as Y2.
  destruct (Z.le_gt_cases (mMonth e) (mMonth d)) as [|G]; [assumption|exfalso].
  assert (Me : 1 <= mMonth e <= 12) by (destruct Ve as (V & _); apply V).
  pose proof (before_day local_time d (mYear e) (mMonth e) ltac:(discriminate) Vd Me ltac:(right; lia)) as B1.
  pose proof (from_day local_time e (mYear e) (mMonth e) ltac:(discriminate) Ve Me ltac:(right; lia)) as B2. cbn [on_scale] in B1, B2. lia.
Qed.
Lemma instant_one d x y : instant local_time d x -> instant local_time d y -> y = x.
Proof. intros H K. symmetry. exact (instant_fun local_time d x y ltac:(discriminate) H K). Qed.
Lemma midnight_le n m y k : instant local_time n y -> instant local_time m k -> ymd n = ymd m -> secs_of_day m = 0 -> k <= y.
Proof.
  intros Hn Hm E S0. apply instant_civil in Hn as (Vn & _ & _ & _ & ->), Hm as (Vm & _ & _ & _ & ->). unfold civil. pose proof (valid_secs n Vn).
  unfold ymd in E. injection E as -> -> ->. lia.
Qed.
