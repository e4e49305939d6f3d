(** Proofs about the paths that the time zone database opens. *)
From Coq Require Import Lia.
From Verif Require Import PyBase PyProofs TzDbModel TzDbSpec RecurTextProofs.

Lemma split_app c s t : exists i x y u, split_char c s = i ++ [x] /\ split_char c t = y :: u /\ split_char c (s ++ t) = i ++ (x ++ y) :: u.
Proof.
  induction s as [|a s IH]; cbn.
  - destruct (split_char c t) as [|y u] eqn:E.
    + destruct t as [|b t]; cbn in E; [discriminate|]. destruct (Ascii.eqb c b); [discriminate|]. destruct (split_char c t); discriminate.
    + exists [], [], y, u. auto.
  - destruct IH as (i & x & y & u & E1 & E2 & E3). destruct (Ascii.eqb c a).
    + exists ([] :: i), x, y, u. rewrite E1, E2, E3. auto.
    + destruct i as [|h i]; cbn in E1, E3; rewrite E1, E3.
      * exists [], (a :: x), y, u. auto.
      * exists ((a :: h) :: i), x, y, u. auto.
Qed.
Lemma split_slash c s t : split_char c (s ++ c :: t) = split_char c s ++ split_char c t.
Proof.
  induction s as [|a s IH]; cbn.
  - rewrite Ascii.eqb_refl. reflexivity.
  - destruct (Ascii.eqb c a); [rewrite IH; reflexivity|]. rewrite IH.
    destruct (split_char c s) as [|h l] eqn:E; [|reflexivity].
    destruct s as [|b s]; cbn in E; [discriminate|]. destruct (Ascii.eqb c b); [discriminate|]. destruct (split_char c s); discriminate.
Qed.
Lemma split_pieces c s : Forall (fun p => ~ In c p) (split_char c s).
Proof.
  induction s as [|a s IH]; cbn; [constructor; auto|].
  destruct (Ascii.eqb_spec c a) as [->|N]; [constructor; auto|].
  destruct (split_char c s) as [|h t]; inversion IH; subst; constructor; auto; cbn; intuition congruence.
Qed.
Lemma cin_In c s : cin c s = true <-> In c s.
Proof.
  induction s as [|a s IH]; cbn; [intuition discriminate|].
  destruct (Ascii.eqb_spec c a) as [->|N]; cbn; [intuition|]. rewrite IH. intuition congruence.
Qed.
Lemma cin_out c s : cin c s = false <-> ~ In c s.
Proof. rewrite <- cin_In. destruct (cin c s); intuition congruence. Qed.

Lemma beq_no a b : a <> b -> beq a b = false.
Proof. intro H. destruct (beq a b) eqn:E; [apply beq_eq in E; contradiction|reflexivity]. Qed.
Lemma beq_is a b : beq a b = false -> a <> b.
Proof. intros H E. subst. rewrite beq_refl in H. discriminate. Qed.

Lemma walk_app p : forall a q, walk a (p ++ q) = walk (walk a p) q.
Proof.
  induction p as [|x p IH]; intros; cbn [walk app]; [reflexivity|].
  destruct (beq x [] || beq x (lit ".")); [apply IH|]. destruct (beq x (lit "..")); apply IH.
Qed.
Lemma walk_names p : forall a, Forall name p -> walk a p = a ++ p.
Proof.
  induction p as [|x p IH]; intros a F; cbn [walk]; [rewrite app_nil_r; reflexivity|]. inversion F as [|? ? (N1 & N2 & N3 & _) F']; subst.
  rewrite (beq_no _ _ N1), (beq_no _ _ N2), (beq_no _ _ N3). cbn [orb]. rewrite IH by exact F'. rewrite <- app_assoc. reflexivity.
Qed.

(** Pieces that normpath keeps. *)
Definition proper (p : bytes) : Prop := p <> [] /\ p <> lit ".".
Lemma norm_walk comps : forall s acc at_, (s = true -> at_ = []) -> Forall proper acc ->
  walk at_ (norm_comps s acc comps) = walk (walk at_ (rev acc)) comps.
Proof.
  induction comps as [|c t IH]; intros s acc at_ A P; cbn [norm_comps walk]; [reflexivity|].
  destruct (beq c [] || beq c (lit ".")) eqn:B1; [apply IH; assumption|].
  apply orb_false_elim in B1 as [B1 B2].
  destruct (negb (beq c (lit "..")) || (negb s && match acc with [] => true | _ => false end) || match acc with x :: _ => beq x (lit "..") | [] => false end) eqn:B3.
  - rewrite IH; [|exact A|constructor; [split; apply beq_is; assumption|exact P]].
    cbn [rev]. rewrite walk_app. cbn [walk]. rewrite B1, B2. cbn [orb]. destruct (beq c (lit "..")); reflexivity.
  - apply orb_false_elim in B3 as [B3 B4]. apply orb_false_elim in B3 as [B3 B5]. apply negb_false_iff in B3. rewrite B3.
    destruct acc as [|x a].
    + destruct s; [|discriminate]. rewrite IH by auto. cbn [rev walk]. rewrite (A eq_refl). reflexivity.
    + inversion P as [|? ? (P1 & P2) P']; subst. rewrite IH by auto.
      cbn [rev]. rewrite walk_app. cbn [walk]. rewrite (beq_no _ _ P1), (beq_no _ _ P2), B4. cbn [orb]. rewrite removelast_last. reflexivity.
Qed.
Lemma norm_names comps : forall acc, Forall (fun p => ~ In "/"%char p) comps -> Forall name acc -> Forall name (norm_comps true acc comps).
Proof.
  induction comps as [|c t IH]; intros acc S P; cbn [norm_comps]; [apply Forall_rev; exact P|].
  inversion S as [|? ? S1 S2]; subst.
  destruct (beq c [] || beq c (lit ".")) eqn:B1; [apply IH; assumption|].
  apply orb_false_elim in B1 as [B1 B2]. cbn [negb andb]. rewrite orb_false_r.
  destruct (beq c (lit "..")) eqn:B3; cbn [negb orb].
  - destruct acc as [|x a]; [apply IH; auto|]. inversion P as [|? ? (N1 & N2 & N3 & N4) P']; subst.
    rewrite (beq_no _ _ N3). apply IH; assumption.
  - apply IH; [assumption|]. constructor; [|assumption]. repeat split; try (apply beq_is; assumption). exact S1.
Qed.
Lemma norm_pieces comps : forall s acc, Forall (fun p => ~ In "/"%char p) comps -> Forall (fun p => proper p /\ ~ In "/"%char p) acc ->
  Forall (fun p => proper p /\ ~ In "/"%char p) (norm_comps s acc comps).
Proof.
  induction comps as [|c t IH]; intros s acc S P; cbn [norm_comps]; [apply Forall_rev; exact P|].
  inversion S as [|? ? S1 S2]; subst.
  destruct (beq c [] || beq c (lit ".")) eqn:B1; [apply IH; assumption|].
  apply orb_false_elim in B1 as [B1 B2].
  destruct (_ || _ || _).
  - apply IH; [assumption|]. constructor; [|assumption]. split; [split; apply beq_is; assumption|exact S1].
  - apply IH; [assumption|]. destruct acc; [constructor|]. inversion P; assumption.
Qed.

Lemma walk_empties n : forall a p, walk a (repeat [] n ++ p) = walk a p.
Proof. induction n; intros; cbn; auto. Qed.
Lemma split_slashes n s : split_char "/" (repeat "/"%char n ++ s) = repeat [] n ++ split_char "/" s.
Proof. induction n; cbn [repeat app split_char]; [reflexivity|]. cbn. rewrite IHn. reflexivity. Qed.

Definition absolute (p : bytes) : bool := match p with c :: _ => Ascii.eqb c "/" | [] => false end.
Lemma place_eq cwd p : place cwd p = walk (if absolute p then [] else cwd) (split_char "/" p).
Proof. destruct p as [|c p]; reflexivity. Qed.
Lemma slashes_abs p : negb (Nat.eqb (initial_slashes p) 0) = absolute p.
Proof.
  destruct p as [|c p]; [reflexivity|]. unfold initial_slashes. cbn [absolute].
  destruct (Ascii.eqb_spec c "/") as [->|N].
  - replace (startswith ("/"%char :: p) (lit "/")) with true by (destruct p; reflexivity).
    destruct (startswith _ (lit "//") && _); reflexivity.
  - cbn [lit list_ascii_of_string startswith]. destruct (Ascii.eqb_spec "/" c) as [E|E]; [congruence|reflexivity].
Qed.
Lemma abs_slashes n s : absolute (repeat "/"%char (S n) ++ s) = true.
Proof. reflexivity. Qed.

Lemma split_join' l : l <> [] -> Forall (fun p => ~ In "/"%char p) l -> split_char "/" (join_char "/" l) = l.
Proof. intros N F. apply split_join; [exact N|]. eapply Forall_impl; [|exact F]. intros a H. apply cin_out. exact H. Qed.

(** normpath does not change the place that a path names. *)
Lemma normpath_place cwd p : place cwd (normpath p) = place cwd p.
Proof.
  destruct p as [|c p]; [reflexivity|]. set (q := c :: p). unfold normpath.
  change (match q with [] => lit "." | _ => ?b end) with b.
  pose proof (slashes_abs q) as SA. set (n := initial_slashes q) in *.
  set (L := norm_comps (negb (Nat.eqb n 0)) [] (split_char "/" q)).
  assert (FL : Forall (fun p => proper p /\ ~ In "/"%char p) L).
  { apply norm_pieces; [apply split_pieces|constructor]. }
  assert (W : walk (if absolute q then [] else cwd) L = place cwd q).
  { unfold L. rewrite SA. rewrite norm_walk; [|destruct (absolute q); intro; congruence|constructor]. rewrite place_eq. reflexivity. }
  assert (SL : walk (if absolute q then [] else cwd) (split_char "/" (join_char "/" L)) = walk (if absolute q then [] else cwd) L).
  { destruct L as [|l L']; [reflexivity|]. rewrite split_join'; [reflexivity|discriminate|]. eapply Forall_impl; [|exact FL]. cbn. tauto. }
  assert (AJ : absolute (join_char "/" L) = false).
  { destruct L as [|l L']; [reflexivity|]. inversion FL as [|? ? ((P1 & _) & P2) _]; subst.
    destruct l as [|x l]; [congruence|]. destruct L'; cbn; destruct (Ascii.eqb_spec x "/") as [->|]; try reflexivity; exfalso; apply P2; left; reflexivity. }
  destruct n as [|n].
  - assert (AQ : absolute q = false) by (rewrite <- SA; reflexivity). rewrite AQ in *.
    cbn [repeat app]. rewrite <- W, <- SL. destruct (join_char "/" L) as [|x y] eqn:EJ; [reflexivity|].
    rewrite place_eq, AJ. reflexivity.
  - assert (AQ : absolute q = true) by (rewrite <- SA; reflexivity). rewrite AQ in *.
    rewrite <- W, <- SL.
    transitivity (place cwd (repeat "/"%char (S n) ++ join_char "/" L)); [reflexivity|].
    rewrite place_eq, abs_slashes, split_slashes, walk_empties. reflexivity.
Qed.

Lemma ends_slash s : ends_with s "/" = true -> exists t, s = t ++ lit "/".
Proof.
  unfold ends_with. destruct (rev s) as [|x r] eqn:E; [discriminate|]. intro H. apply Ascii.eqb_eq in H. subst x.
  exists (rev r). rewrite <- (rev_involutive s), E. reflexivity.
Qed.
Lemma starts_slash s : startswith s (lit "/") = absolute s.
Proof.
  destruct s as [|c s]; [reflexivity|]. cbn [startswith lit list_ascii_of_string absolute].
  replace (startswith s []) with true by (destruct s; reflexivity). rewrite andb_true_r. apply Ascii.eqb_sym.
Qed.
(** os.path.join names the place that b names when the current directory is a. *)
Lemma join_place cwd a b : place cwd (path_join a b) = place (place cwd a) b.
Proof.
  unfold path_join. rewrite starts_slash. destruct (absolute b) eqn:AB; [rewrite !place_eq, AB; reflexivity|].
  destruct a as [|c a]; [reflexivity|].
  assert (G : forall s, absolute (c :: a ++ s) = absolute (c :: a)) by reflexivity.
  destruct (ends_with (c :: a) "/") eqn:E.
  - apply ends_slash in E as [t E]. rewrite E. rewrite <- app_assoc.
    rewrite (place_eq cwd). rewrite (place_eq (place _ _)), AB. rewrite place_eq. cbn [lit list_ascii_of_string app].
    rewrite !split_slash, !walk_app. cbn [split_char walk]. rewrite beq_refl. cbn [orb].
    destruct t; reflexivity.
  - rewrite (place_eq cwd). rewrite (place_eq (place _ _)), AB. rewrite place_eq. cbn [lit list_ascii_of_string app].
    rewrite app_comm_cons. rewrite split_slash, walk_app. reflexivity.
Qed.
