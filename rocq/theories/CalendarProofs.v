(** Proofs about the index of a calendar. *)
From Verif Require Import PyBase PyProofs PropertyProofs ComponentProofs2 CalendarModel CalendarSpec.
From Coq Require Import Lia.

Lemma assoc_put : forall A k (v : A) d k', assoc k' (put k v d) = if beq k k' then Some v else assoc k' d.
Proof.
  intros A k v. induction d as [|[a b] d IH]; intro k'; cbn; [reflexivity|].
  destruct (beq a k) eqn:E; cbn.
  - apply beq_eq in E as ->. destruct (beq k k'); reflexivity.
  - rewrite IH. destruct (beq a k') eqn:F; [|reflexivity]. apply beq_eq in F as ->. rewrite beq_sym, E. reflexivity.
Qed.
Lemma put_keys : forall A k (v : A) d x, In x (map fst (put k v d)) -> x = k \/ In x (map fst d).
Proof.
  intros A k v. induction d as [|[a b] d IH]; intros x H; cbn in *; [destruct H as [<-|[]]; auto|].
  destruct (beq a k); cbn in H; destruct H as [<-|H]; auto. apply IH in H as [->|H]; auto.
Qed.
Lemma put_NoDup : forall A k (v : A) d, NoDup (map fst d) -> NoDup (map fst (put k v d)).
Proof.
  intros A k v. induction d as [|[a b] d IH]; intros H; cbn; [repeat constructor; intros []|].
  apply NoDup_cons_iff in H as [H1 H2]. destruct (beq a k) eqn:E; cbn; [constructor; assumption|].
  constructor; [|apply IH; exact H2]. intro I. apply put_keys in I as [->|I]; [|exact (H1 I)]. rewrite beq_refl in E. discriminate.
Qed.
Lemma del_keys : forall A k (d : list (bytes * A)) x, In x (map fst (del k d)) -> In x (map fst d).
Proof. intros A k. induction d as [|[a b] d IH]; intros x H; cbn in *; [exact H|]. destruct (beq a k); cbn in H; [auto|]. destruct H; auto. Qed.
Lemma del_NoDup : forall A k (d : list (bytes * A)), NoDup (map fst d) -> NoDup (map fst (del k d)).
Proof.
  intros A k. induction d as [|[a b] d IH]; intros H; cbn; [constructor|]. apply NoDup_cons_iff in H as [H1 H2].
  destruct (beq a k); [exact H2|]. cbn. constructor; [|apply IH; exact H2]. intro I. apply del_keys in I. exact (H1 I).
Qed.
Lemma assoc_absent : forall A k (d : list (bytes * A)), ~ In k (map fst d) -> assoc k d = None.
Proof.
  intros A k. induction d as [|[a b] d IH]; intros H; cbn; [reflexivity|]. destruct (beq a k) eqn:E.
  - apply beq_eq in E as ->. exfalso. apply H. left. reflexivity.
  - apply IH. intro I. apply H. right. exact I.
Qed.
Lemma assoc_del : forall A k (d : list (bytes * A)) k', NoDup (map fst d) -> assoc k' (del k d) = if beq k k' then None else assoc k' d.
Proof.
  intros A k. induction d as [|[a b] d IH]; intros k' H; cbn; [destruct (beq k k'); reflexivity|].
  apply NoDup_cons_iff in H as [H1 H2]. destruct (beq a k) eqn:E; cbn.
  - apply beq_eq in E as ->. destruct (beq k k') eqn:F; [|reflexivity]. apply beq_eq in F as <-. apply assoc_absent. exact H1.
  - rewrite IH by exact H2. destruct (beq a k') eqn:F; [|reflexivity]. apply beq_eq in F as ->. rewrite beq_sym, E. reflexivity.
Qed.
Lemma assoc_move : forall A old new (d : list (bytes * A)) k, NoDup (map fst d) ->
  assoc k (move_key old new d) = match assoc old d with
    | None => assoc k d
    | Some v => if beq old k then None else if beq new k then Some v else assoc k d
    end.
Proof.
  intros A old new d k H. unfold move_key. destruct (assoc old d) as [v|]; [|reflexivity].
  rewrite assoc_del by (apply put_NoDup; exact H). destruct (beq old k); [reflexivity|]. apply assoc_put.
Qed.
Lemma move_NoDup : forall A old new (d : list (bytes * A)), NoDup (map fst d) -> NoDup (map fst (move_key old new d)).
Proof. intros A old new d H. unfold move_key. destruct (assoc old d); [|exact H]. apply del_NoDup, put_NoDup, H. Qed.
Lemma items_put : forall A k (v : list A) d k', items k' (put k v d) = if beq k k' then v else items k' d.
Proof. intros. unfold items. rewrite assoc_put. destruct (beq k k'); reflexivity. Qed.

(** The dictionaries have each key once. *)
Definition dicts_ok (c : cal) : Prop :=
  NoDup (map fst (overridden c)) /\ (forall ty, NoDup (map fst (items ty (masters c)))).
Definition index_inv (c : cal) : Prop := NoDup (held c) /\ dicts_ok c /\ coherent c.

Lemma is_master_or : forall c, is_recur (cKind c) = true -> is_master c \/ is_instance c.
Proof. intros c H. destruct (getRecurrenceID c) eqn:E; [right|left]; split; try assumption. rewrite E. discriminate. Qed.
Lemma instance_of_spec : forall u c, instance_of u c = true <-> is_instance c /\ getUID c = u.
Proof.
  intros u c. unfold instance_of, is_instance. rewrite !Bool.andb_true_iff. split.
  - intros [[A B] C]. apply beq_eq in C. destruct (getRecurrenceID c); [|discriminate B]. split; [split; [assumption|discriminate]|assumption].
  - intros [[A B] <-]. rewrite beq_refl. destruct (getRecurrenceID c); [auto|contradiction].
Qed.
Lemma instance_of_master : forall u c, is_master c -> instance_of u c = false.
Proof. intros u c [A B]. unfold instance_of. rewrite A, B. reflexivity. Qed.
Lemma instance_of_other : forall u c, is_recur (cKind c) = false -> instance_of u c = false.
Proof. intros u c A. unfold instance_of. rewrite A. reflexivity. Qed.
Lemma recur_type : forall k k', is_recur k = true -> getType k' = getType k -> is_recur k' = true \/ exists t, k' = UNKNOWN t.
Proof. intros k k' H E. destruct k'; try (left; reflexivity); try (right; eexists; reflexivity); destruct k; discriminate. Qed.

Lemma inv_new : forall h, index_inv (new_cal h).
Proof.
  intro h. split; [constructor|]. split; [split; [constructor|intro; constructor]|]. split; [|reflexivity].
  intros ty u i. split; [discriminate|intros [[] _]].
Qed.

Lemma inv_add : forall c i, index_inv c -> ~ In i (held c) ->
  (forall j, In j (held c) -> is_master (heap c i) -> is_master (heap c j) ->
     getType (cKind (heap c j)) = getType (cKind (heap c i)) -> getUID (heap c j) <> getUID (heap c i)) ->
  index_inv (cal_add i c).
Proof.
  intros c i (N & [D1 D2] & [M O]) H U.
  assert (N' : NoDup (held c ++ [i])).
  { apply (proj2 (NoDup_Add (Add_app i (held c) []))). rewrite app_nil_r. split; assumption. }
  unfold cal_add. destruct (is_recur (cKind (heap c i))) eqn:R.
  - destruct (getRecurrenceID (heap c i)) as [d|] eqn:I.
    + assert (X : is_instance (heap c i)) by (split; [exact R|rewrite I; discriminate]).
      split; [exact N'|]. split; [split; [apply put_NoDup; exact D1|exact D2]|]. split; cbn [heap held masters overridden].
      * intros ty u j. change (master_of ty u (mkCal (heap c) (held c ++ [i]) (masters c) _)) with (master_of ty u c).
        rewrite M, in_app_iff. split; [intros (A & B); auto|]. intros ([A|[<-|[]]] & B & C); [auto|].
        destruct B as [_ B]. rewrite I in B. discriminate.
      * intro u. unfold getRecurrenceInstancesItems. cbn [overridden]. rewrite items_put, filter_app. cbn [filter].
        destruct (beq (getUID (heap c i)) u) eqn:E.
        -- apply beq_eq in E as <-. rewrite (proj2 (instance_of_spec _ _)) by auto. f_equal. apply O.
        -- replace (instance_of u (heap c i)) with false by (unfold instance_of; rewrite E, Bool.andb_false_r; reflexivity).
           rewrite app_nil_r. apply O.
    + assert (X : is_master (heap c i)) by (split; assumption).
      split; [exact N'|]. split.
      { split; [exact D1|]. intro ty. cbn [masters]. rewrite items_put. destruct (beq _ ty); [apply put_NoDup|]; apply D2. }
      split; cbn [heap held masters overridden].
      * intros ty u j. unfold master_of. cbn [masters]. rewrite items_put, in_app_iff.
        destruct (beq (getType (cKind (heap c i))) ty) eqn:T.
        -- apply beq_eq in T as <-. rewrite assoc_put. destruct (beq (getUID (heap c i)) u) eqn:E.
           ++ apply beq_eq in E as <-. split.
              ** intro H1. injection H1 as <-. split; [right; left; reflexivity|]. auto.
              ** intros ([A|[<-|[]]] & B & C & F); [|reflexivity]. exfalso. exact (U j A X B C F).
           ++ fold (master_of (getType (cKind (heap c i))) u c). rewrite M. split; [intros (A & B); auto|].
              intros ([A|[<-|[]]] & B & C & F); [auto|]. rewrite F, beq_refl in E. discriminate.
        -- fold (master_of ty u c). rewrite M. split; [intros (A & B); auto|].
           intros ([A|[<-|[]]] & B & C & F); [auto|]. rewrite C, beq_refl in T. discriminate.
      * intro u. change (getRecurrenceInstancesItems u (mkCal (heap c) (held c ++ [i]) _ (overridden c))) with (getRecurrenceInstancesItems u c).
        rewrite filter_app. cbn [filter]. rewrite (instance_of_master _ _ X), app_nil_r. apply O.
  - split; [exact N'|]. split; [split; assumption|]. split; cbn [heap held masters overridden].
    + intros ty u j. change (master_of ty u (mkCal (heap c) (held c ++ [i]) (masters c) (overridden c))) with (master_of ty u c).
      rewrite M, in_app_iff. split; [intros (A & B); auto|]. intros ([A|[<-|[]]] & B & C); [auto|].
      destruct B as [B _]. rewrite R in B. discriminate.
    + intro u. change (getRecurrenceInstancesItems u (mkCal (heap c) (held c ++ [i]) (masters c) (overridden c))) with (getRecurrenceInstancesItems u c).
      rewrite filter_app. cbn [filter]. rewrite (instance_of_other _ _ R), app_nil_r. apply O.
Qed.

(** Two heaps that agree on what the index looks at. *)
Lemma inv_ext : forall c h, index_inv c ->
  (forall i, In i (held c) -> cKind (h i) = cKind (heap c i) /\ getUID (h i) = getUID (heap c i) /\ getRecurrenceID (h i) = getRecurrenceID (heap c i)) ->
  index_inv (mkCal h (held c) (masters c) (overridden c)).
Proof.
  intros c h (N & D & [M O]) E. split; [exact N|]. split; [exact D|]. split; cbn [heap held].
  - intros ty u i. change (master_of ty u (mkCal h _ _ _)) with (master_of ty u c). rewrite M. unfold is_master.
    split; intros (A & B); destruct (E i A) as (F & G & I); [rewrite F, G, I|rewrite F, G, I in B]; auto.
  - intro u. change (getRecurrenceInstancesItems u (mkCal h _ _ _)) with (getRecurrenceInstancesItems u c). rewrite O.
    apply filter_ext_in. intros i A. destruct (E i A) as (F & G & I). unfold instance_of. rewrite F, G, I. reflexivity.
Qed.

Lemma filter_none : forall A (f : A -> bool) l, (forall x, In x l -> f x = false) -> filter f l = [].
Proof.
  intros A f. induction l as [|x l IH]; intro H; [reflexivity|]. cbn. rewrite (H x) by (left; reflexivity).
  apply IH. intros y Y. apply H. right. exact Y.
Qed.

Section Remove.
Variable tzo : tzid -> Z -> Z -> Z -> Z -> Z -> Z -> bool -> bool -> Z.
Variable fl : floats.
Variable phash : prop -> Z.

Lemma take_only : forall h i l, (forall j, In j l -> j <> i -> comp_eq tzo fl phash (h j) (h i) = Ok false) -> In i l -> NoDup l ->
  take_first (is_or_equal tzo fl phash h i) l = Ok (Some (filter (fun j => negb (Nat.eqb j i)) l)).
Proof.
  intros h i. induction l as [|j l IH]; intros E I N; [destruct I|]. cbn [take_first filter]. apply NoDup_cons_iff in N as [N1 N2].
  unfold is_or_equal at 1. destruct (Nat.eqb j i) eqn:J.
  - apply Nat.eqb_eq in J as ->. cbn. f_equal. f_equal. clear - N1. induction l as [|k l IH]; [reflexivity|]. cbn.
    destruct (Nat.eqb k i) eqn:K; [apply Nat.eqb_eq in K as ->; exfalso; apply N1; left; reflexivity|]. cbn. f_equal.
    apply IH. intro I. apply N1. right. exact I.
  - assert (J' : j <> i) by (intro; subst; rewrite Nat.eqb_refl in J; discriminate).
    rewrite E by (auto; left; reflexivity). cbn [rbind]. destruct I as [<-|I]; [contradiction|].
    rewrite IH; [reflexivity| |exact I|exact N2]. intros k K. apply E. right. exact K.
Qed.
Lemma filter_filter : forall A (f g : A -> bool) l, filter f (filter g l) = filter g (filter f l).
Proof.
  intros A f g. induction l as [|x l IH]; [reflexivity|]. cbn. destruct (g x) eqn:G; destruct (f x) eqn:F; cbn; rewrite ?G, ?F, ?IH; reflexivity.
Qed.
Lemma filter_idle : forall A (f : A -> bool) l, (forall x, In x l -> f x = true) -> filter f l = l.
Proof.
  intros A f. induction l as [|x l IH]; intro H; [reflexivity|]. cbn. rewrite (H x) by (left; reflexivity). f_equal.
  apply IH. intros y Y. apply H. right. exact Y.
Qed.

Lemma inv_remove : forall c i, index_inv c -> In i (held c) ->
  (forall j, In j (held c) -> j <> i -> comp_eq tzo fl phash (heap c j) (heap c i) = Ok false) ->
  exists c', cal_remove tzo fl phash i c = (c', Ok tt) /\ index_inv c' /\
    heap c' = heap c /\ held c' = filter (fun j => negb (Nat.eqb j i)) (held c).
Proof.
  intros c i (N & [D1 D2] & [M O]) I E. unfold cal_remove. rewrite (take_only _ _ _ E I N).
  set (l := filter (fun j => negb (Nat.eqb j i)) (held c)).
  assert (L : forall j, In j l <-> In j (held c) /\ j <> i).
  { intro j. unfold l. rewrite filter_In, Bool.negb_true_iff, Nat.eqb_neq. reflexivity. }
  assert (N' : NoDup l) by (apply NoDup_filter; exact N).
  destruct (is_recur (cKind (heap c i))) eqn:R.
  - destruct (getRecurrenceID (heap c i)) as [d|] eqn:Q.
    + assert (X : is_instance (heap c i)) by (split; [exact R|rewrite Q; discriminate]).
      pose proof (O (getUID (heap c i))) as OI. unfold getRecurrenceInstancesItems in OI. rewrite OI.
      rewrite take_only.
      * eexists. split; [reflexivity|]. split; [|split; reflexivity].
        split; [exact N'|]. split; [split; [apply put_NoDup; exact D1|exact D2]|]. split; cbn [heap held].
        -- intros ty u j. change (master_of ty u (mkCal (heap c) l (masters c) _)) with (master_of ty u c).
           rewrite M, L. split; [|intros ((A & A') & B); auto]. intros (A & B & C). repeat split; auto; try apply B; try apply C.
           intros ->. destruct B as [_ B]. rewrite Q in B. discriminate.
        -- intro u. unfold getRecurrenceInstancesItems. cbn [overridden]. rewrite items_put. unfold l.
           destruct (beq (getUID (heap c i)) u) eqn:F; [apply beq_eq in F as <-; apply filter_filter|]. rewrite filter_filter.
           pose proof (O u) as OU. unfold getRecurrenceInstancesItems in OU. rewrite OU. symmetry. apply filter_idle.
           intros j J. apply filter_In in J as [_ J]. apply instance_of_spec in J as [_ J]. apply Bool.negb_true_iff, Nat.eqb_neq.
           intros ->. rewrite J, beq_refl in F. discriminate.
      * intros j J K. apply filter_In in J as [J _]. apply E; assumption.
      * apply filter_In. split; [exact I|]. apply instance_of_spec. auto.
      * apply NoDup_filter. exact N.
    + assert (X : is_master (heap c i)) by (split; assumption).
      assert (Y : master_of (getType (cKind (heap c i))) (getUID (heap c i)) c = Some i) by (apply M; repeat split; auto).
      unfold master_of in Y. rewrite Y. eexists. split; [reflexivity|]. split; [|split; reflexivity].
      split; [exact N'|]. split.
      { split; [exact D1|]. intro ty. cbn [masters]. rewrite items_put. destruct (beq _ ty); [apply del_NoDup|]; apply D2. }
      split; cbn [heap held].
      * intros ty u j. rewrite L. unfold master_of. cbn [masters]. rewrite items_put.
        assert (MJ : assoc u (items ty (masters c)) = Some j <-> In j (held c) /\ is_master (heap c j) /\ getType (cKind (heap c j)) = ty /\ getUID (heap c j) = u) by apply M.
        destruct (beq (getType (cKind (heap c i))) ty) eqn:T.
        -- apply beq_eq in T as <-. rewrite assoc_del by apply D2. destruct (beq (getUID (heap c i)) u) eqn:F.
           ++ apply beq_eq in F as <-. split; [discriminate|]. intros ((A & A') & B). exfalso. apply A'.
              assert (Z : Some j = Some i) by (rewrite <- Y; symmetry; apply MJ; auto). injection Z as ->. reflexivity.
           ++ rewrite MJ. split; [|intros ((A & A') & B); auto]. intros (A & B & C & G). repeat split; auto; try apply B.
              intros ->. rewrite G, beq_refl in F. discriminate.
        -- rewrite MJ. split; [|intros ((A & A') & B); auto]. intros (A & B & C & G). repeat split; auto; try apply B.
           intros ->. rewrite C, beq_refl in T. discriminate.
      * intro u. change (getRecurrenceInstancesItems u (mkCal (heap c) l _ (overridden c))) with (getRecurrenceInstancesItems u c).
        rewrite O. unfold l. rewrite filter_filter. symmetry. apply filter_idle. intros j J. apply filter_In in J as [_ J].
        apply Bool.negb_true_iff, Nat.eqb_neq. intros ->. rewrite (instance_of_master _ _ X) in J. discriminate.
  - eexists. split; [reflexivity|]. split; [|split; reflexivity].
    split; [exact N'|]. split; [split; assumption|]. split; cbn [heap held].
    + intros ty u j. change (master_of ty u (mkCal (heap c) l (masters c) (overridden c))) with (master_of ty u c).
      rewrite M, L. split; [|intros ((A & A') & B); auto]. intros (A & B & C). repeat split; auto; try apply B; try apply C.
      intros ->. destruct B as [B _]. rewrite R in B. discriminate.
    + intro u. change (getRecurrenceInstancesItems u (mkCal (heap c) l (masters c) (overridden c))) with (getRecurrenceInstancesItems u c).
      rewrite O. unfold l. rewrite filter_filter. symmetry. apply filter_idle. intros j J. apply filter_In in J as [_ J].
      apply Bool.negb_true_iff, Nat.eqb_neq. intros ->. rewrite (instance_of_other _ _ R) in J. discriminate.
Qed.
End Remove.

(** changeUID changes the components that have the old UID, and only those. *)
Lemma upd_same : forall h i c, upd h i c i = c.
Proof. intros. unfold upd. rewrite Nat.eqb_refl. reflexivity. Qed.
Lemma upd_other : forall h i c j, j <> i -> upd h i c j = h j.
Proof. intros. unfold upd. rewrite (proj2 (Nat.eqb_neq j i)) by assumption. reflexivity. Qed.
Lemma change_one_at : forall made old new h i j, change_one made old new h i j =
  if Nat.eqb j i && beq (getUID (h i)) old then setUID (made i) new (h i) else h j.
Proof.
  intros. unfold change_one. destruct (beq (getUID (h i)) old); [|rewrite Bool.andb_false_r; reflexivity].
  rewrite Bool.andb_true_r. reflexivity.
Qed.
Lemma change_at : forall made old new l h j, NoDup l ->
  fold_left (change_one made old new) l h j =
  if existsb (Nat.eqb j) l && beq (getUID (h j)) old then setUID (made j) new (h j) else h j.
Proof.
  intros made old new. induction l as [|i l IH]; intros h j N; [reflexivity|]. cbn [fold_left existsb]. apply NoDup_cons_iff in N as [N1 N2].
  rewrite IH by exact N2. rewrite !change_one_at. destruct (Nat.eqb j i) eqn:J; cbn [orb andb]; [|reflexivity].
  apply Nat.eqb_eq in J as ->. replace (existsb (Nat.eqb i) l) with false; [reflexivity|].
  symmetry. apply Bool.not_true_is_false. intro F. apply existsb_exists in F as (k & K & F). apply Nat.eqb_eq in F as <-. exact (N1 K).
Qed.
Lemma setUID_kind : forall made u c, cKind (setUID made u c) = cKind c.
Proof. intros made u [k s ps subs]. reflexivity. Qed.
Lemma setUID_rid : forall made u c, getRecurrenceID (setUID made u c) = getRecurrenceID c.
Proof. intros made u [k s ps subs]. reflexivity. Qed.
Lemma setUID_uid : forall made u c, u <> [] -> getUID (setUID made u c) = u.
Proof. intros made u [k s ps subs] H. cbn. destruct u; [contradiction|reflexivity]. Qed.

Lemma items_moved : forall old new ty m, NoDup (map fst (items ty m)) ->
  items ty (map (fun e : bytes * list (bytes * nat) => (fst e, move_key old new (snd e))) m) = move_key old new (items ty m).
Proof.
  intros old new ty m _. unfold items. induction m as [|[t d] m IH]; [reflexivity|]. cbn.
  destruct (beq t ty); [reflexivity|exact IH].
Qed.

Lemma inv_change : forall c made old new, index_inv c -> new <> [] ->
  (forall j, In j (held c) -> is_recur (cKind (heap c j)) = true -> getUID (heap c j) <> new) ->
  index_inv (changeUID made old new c).
Proof.
  intros c made old new (N & [D1 D2] & [M O]) W F.
  set (h := fold_left (change_one made old new) (held c) (heap c)).
  assert (K : forall j, cKind (h j) = cKind (heap c j) /\ getRecurrenceID (h j) = getRecurrenceID (heap c j)).
  { intro j. unfold h. rewrite (change_at _ _ _ _ _ _ N). destruct (existsb _ _ && _); [|auto]. split; [apply setUID_kind|apply setUID_rid]. }
  assert (U : forall j, In j (held c) -> getUID (h j) = if beq (getUID (heap c j)) old then new else getUID (heap c j)).
  { intros j J. unfold h. rewrite (change_at _ _ _ _ _ _ N). replace (existsb (Nat.eqb j) (held c)) with true.
    - cbn [andb]. destruct (beq _ _); [apply setUID_uid; exact W|reflexivity].
    - symmetry. apply existsb_exists. exists j. split; [exact J|apply Nat.eqb_refl]. }
  assert (MH : forall j, is_master (h j) <-> is_master (heap c j)) by (intro j; unfold is_master; destruct (K j) as [-> ->]; reflexivity).
  split; [exact N|]. split.
  { split; [apply move_NoDup; exact D1|]. intro ty. cbn [changeUID masters]. rewrite items_moved by apply D2. apply move_NoDup, D2. }
  split; cbn [changeUID heap held]; fold h.
  - intros ty u i. unfold master_of. cbn [changeUID masters]. rewrite items_moved by apply D2. rewrite assoc_move by apply D2.
    assert (MM : forall v j, assoc v (items ty (masters c)) = Some j <-> In j (held c) /\ is_master (heap c j) /\ getType (cKind (heap c j)) = ty /\ getUID (heap c j) = v) by (intros; apply M).
    destruct (assoc old (items ty (masters c))) as [m|] eqn:A.
    + pose proof (proj1 (MM _ _) A) as (B1 & B2 & B3 & B4).
      destruct (beq old u) eqn:E1.
      * apply beq_eq in E1 as <-. split; [discriminate|]. intros (C1 & C2 & C3 & C4). exfalso. rewrite U in C4 by exact C1.
        destruct (beq (getUID (heap c i)) old) eqn:E2.
        -- subst new. apply (F m B1); [apply B2|exact B4].
        -- rewrite C4, beq_refl in E2. discriminate.
      * destruct (beq new u) eqn:E2.
        -- apply beq_eq in E2 as <-. split.
           ++ intro Z. injection Z as <-. split; [exact B1|]. split; [apply MH; exact B2|]. destruct (K m) as [-> _]. split; [exact B3|].
              rewrite U by exact B1. rewrite B4, beq_refl. reflexivity.
           ++ intros (C1 & C2 & C3 & C4). rewrite U in C4 by exact C1. apply MH in C2. destruct (K i) as [K1 _]. rewrite K1 in C3.
              destruct (beq (getUID (heap c i)) old) eqn:E2.
              ** apply beq_eq in E2. rewrite <- A. apply MM. auto.
              ** exfalso. apply (F i C1); [apply C2|exact C4].
        -- rewrite MM. destruct (K i) as [K1 _]. rewrite K1, MH. split; intros (C1 & C2 & C3 & C4); repeat split; auto; try apply C2.
           ++ rewrite U by exact C1. rewrite C4, beq_sym, E1. exact eq_refl.
           ++ rewrite U in C4 by exact C1. destruct (beq (getUID (heap c i)) old) eqn:E3; [|exact C4]. rewrite C4, beq_refl in E2. discriminate.
    + rewrite MM. destruct (K i) as [K1 _]. rewrite K1, MH. split; intros (C1 & C2 & C3 & C4); repeat split; auto; try apply C2.
      * rewrite U by exact C1. destruct (beq (getUID (heap c i)) old) eqn:E; [|exact C4]. apply beq_eq in E.
        assert (Z : None = Some i) by (rewrite <- A; apply MM; auto). discriminate Z.
      * rewrite U in C4 by exact C1. destruct (beq (getUID (heap c i)) old) eqn:E; [|exact C4]. apply beq_eq in E.
        assert (Z : None = Some i) by (rewrite <- A; apply MM; auto). discriminate Z.
  - intro u. unfold getRecurrenceInstancesItems. cbn [changeUID overridden]. unfold items at 1. rewrite assoc_move by exact D1.
    assert (OO : forall v, items v (overridden c) = filter (fun i => instance_of v (heap c i)) (held c)) by (intro; apply O).
    assert (IH : forall v j, instance_of v (h j) = is_recur (cKind (heap c j)) && (match getRecurrenceID (heap c j) with Some _ => true | None => false end) && beq (getUID (h j)) v)
      by (intros v j; unfold instance_of; destruct (K j) as [-> ->]; reflexivity).
    destruct (assoc old (overridden c)) as [l|] eqn:A.
    + pose proof (OO old) as L. unfold items in L. rewrite A in L. destruct (beq old u) eqn:E1.
      * apply beq_eq in E1 as <-. symmetry. apply filter_none. intros j J. rewrite IH, U by exact J.
        destruct (beq (getUID (heap c j)) old) eqn:E2; [|rewrite E2, Bool.andb_false_r; reflexivity].
        destruct (beq new old) eqn:E3; [|rewrite Bool.andb_false_r; reflexivity]. apply beq_eq in E2, E3. subst new.
        destruct (is_recur (cKind (heap c j))) eqn:R; [|reflexivity]. exfalso. exact (F j J R E2).
      * destruct (beq new u) eqn:E2.
        -- apply beq_eq in E2 as <-. rewrite L. apply filter_ext_in. intros j J. rewrite IH, U by exact J. unfold instance_of.
           destruct (beq (getUID (heap c j)) old) eqn:E3; [rewrite beq_refl; reflexivity|].
           destruct (is_recur (cKind (heap c j))) eqn:R; [|reflexivity].
           destruct (beq (getUID (heap c j)) new) eqn:E4; [|reflexivity]. apply beq_eq in E4. exfalso. exact (F j J R E4).
        -- change (match assoc u (overridden c) with Some l0 => l0 | None => [] end) with (items u (overridden c)). rewrite OO.
           apply filter_ext_in. intros j J. rewrite IH, U by exact J. unfold instance_of.
           destruct (beq (getUID (heap c j)) old) eqn:E3; [|reflexivity]. apply beq_eq in E3. rewrite E3, E1, E2. reflexivity.
    + pose proof (OO old) as L. unfold items in L. rewrite A in L.
      change (match assoc u (overridden c) with Some l0 => l0 | None => [] end) with (items u (overridden c)). rewrite OO.
      apply filter_ext_in. intros j J. rewrite IH, U by exact J. unfold instance_of.
      destruct (beq (getUID (heap c j)) old) eqn:E3; [|reflexivity].
      assert (Z : instance_of old (heap c j) = false).
      { destruct (instance_of old (heap c j)) eqn:Z; [|reflexivity]. exfalso.
        assert (In j []) by (rewrite L; apply filter_In; auto). contradiction. }
      unfold instance_of in Z. rewrite E3, Bool.andb_true_r in Z. rewrite Z. reflexivity.
Qed.

Theorem history_inv : forall tzo fl phash c, history tzo fl phash c -> index_inv c.
Proof.
  intros tzo fl phash c H. induction H as [h|c i H IH A B|c i d H IH A|c i H IH A B|c made old new H IH A B].
  - apply inv_new.
  - apply inv_add; assumption.
  - apply inv_ext; [exact IH|]. intros j J. unfold upd. destruct (Nat.eqb j i) eqn:E; [|auto]. apply Nat.eqb_eq in E as ->. exact (A J).
  - destruct (inv_remove tzo fl phash c i IH A B) as (c' & -> & C & _). exact C.
  - apply inv_change; assumption.
Qed.

Lemma remove_splits : forall tzo fl phash c i, index_inv c -> In i (held c) ->
  (forall j, In j (held c) -> j <> i -> comp_eq tzo fl phash (heap c j) (heap c i) = Ok false) ->
  exists c', cal_remove tzo fl phash i c = (c', Ok tt) /\ heap c' = heap c /\
    exists a b, held c = a ++ i :: b /\ held c' = a ++ b /\ ~ In i (a ++ b).
Proof.
  intros tzo fl phash c i H I E. destruct (inv_remove tzo fl phash c i H I E) as (c' & R & _ & Hh & Hl). exists c'. split; [exact R|].
  split; [exact Hh|]. destruct H as (N & _). destruct (in_split _ _ I) as (a & b & S). exists a, b. split; [exact S|].
  rewrite S in N. pose proof (NoDup_remove_2 _ _ _ N) as K. split; [|exact K]. rewrite Hl, S, filter_app. cbn [filter].
  rewrite Nat.eqb_refl. cbn [negb]. rewrite in_app_iff in K. f_equal; apply filter_idle; intros x X; apply Bool.negb_true_iff, Nat.eqb_neq; intros ->; tauto.
Qed.

Lemma get_removed : forall name n ps, NoDup (map fst ps) ->
  getProperties name (removeProperties n ps) = if beq name n then [] else getProperties name ps.
Proof.
  intros name n ps H. unfold getProperties. replace (removeProperties n ps) with (del n ps).
  - rewrite assoc_del by exact H. rewrite (beq_sym n name). destruct (beq name n); reflexivity.
  - clear H. induction ps as [|[a b] r IH]; [reflexivity|]. cbn. rewrite IH. reflexivity.
Qed.
Lemma changed : forall c made old new i, new <> [] -> index_inv c ->
  let before := heap c i in
  let after := heap (changeUID made old new c) i in
  held (changeUID made old new c) = held c /\
  (In i (held c) /\ getUID before = old ->
     getUID after = new /\ cKind after = cKind before /\ cSubs after = cSubs before /\ getRecurrenceID after = getRecurrenceID before /\
     (NoDup (map fst (cProps before)) -> forall name, getProperties name (cProps after) =
        if beq name (lit "UID") then [mkProp (lit "UID") [] (Some (Single (VText new)))] else getProperties name (cProps before))) /\
  (~ (In i (held c) /\ getUID before = old) -> after = before).
Proof.
  intros c made old new i W (N & _) before after. split; [reflexivity|].
  assert (A : after = if existsb (Nat.eqb i) (held c) && beq (getUID before) old then setUID (made i) new before else before)
    by (apply change_at; exact N).
  split.
  - intros [I E]. assert (X : existsb (Nat.eqb i) (held c) = true) by (apply existsb_exists; exists i; split; [exact I|apply Nat.eqb_refl]).
    rewrite X, E, beq_refl in A. cbn [andb] in A. rewrite A. split; [apply setUID_uid; exact W|]. split; [apply setUID_kind|].
    split; [destruct before; reflexivity|]. split; [apply setUID_rid|]. intros D name. destruct before as [k s ps subs].
    cbn [setUID cProps] in *. destruct new as [|n0 new]; [contradiction|]. unfold addProperty. rewrite get_add.
    change (upper (pName _)) with (lit "UID"). rewrite get_removed by exact D. rewrite (beq_sym (lit "UID") name).
    destruct (beq name (lit "UID")); [reflexivity|]. try rewrite app_nil_r. reflexivity.
  - intro F. rewrite A. destruct (existsb (Nat.eqb i) (held c)) eqn:X; [|reflexivity]. cbn [andb].
    destruct (beq (getUID before) old) eqn:Y; [|reflexivity]. exfalso. apply F. apply beq_eq in Y. split; [|exact Y].
    apply existsb_exists in X as (j & J & X). apply Nat.eqb_eq in X as ->. exact J.
Qed.
