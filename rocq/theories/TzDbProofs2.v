(** Proofs about where the files opened by the time zone database are. *)
From Coq Require Import Lia.
From Verif Require Import PyBase PyProofs TzDbModel TzDbSpec TzDbProofs.

Lemma starts_app s p : startswith s p = true <-> exists q, s = p ++ q.
Proof.
  revert s. induction p as [|c p IH]; intros s; cbn.
  - split; [intro; exists s; reflexivity|intros _; destruct s; reflexivity].
  - destruct s as [|d s]; [split; [discriminate|intros [q E]; discriminate]|].
    cbn. split.
    + intro H. apply andb_true_iff in H as [H1 H2]. apply Ascii.eqb_eq in H1. subst. apply IH in H2 as [q ->]. exists q. reflexivity.
    + intros [q E]. injection E as -> ->. rewrite Ascii.eqb_refl. cbn. apply IH. exists q. reflexivity.
Qed.

Lemma abs_cons n l : abs_path (n :: l) = "/"%char :: n ++ abs_path l.
Proof. reflexivity. Qed.
Lemma abs_path_join l : l <> [] -> abs_path l = "/"%char :: join_char "/" l.
Proof.
  induction l as [|x l IH]; [congruence|]. intros _. cbn [abs_path flat_map app]. fold (abs_path l).
  destruct l as [|y l]; [cbn; rewrite app_nil_r; reflexivity|]. rewrite IH by discriminate. reflexivity.
Qed.
Lemma abs_path_app a b : abs_path (a ++ b) = abs_path a ++ abs_path b.
Proof. unfold abs_path. rewrite flat_map_app. reflexivity. Qed.
Lemma abs_path_split l : Forall (fun p => ~ In "/"%char p) l -> split_char "/" (abs_path l) = [] :: l.
Proof.
  destruct l as [|x l]; intros F; [reflexivity|]. rewrite abs_path_join by discriminate.
  cbn [split_char]. rewrite Ascii.eqb_refl. rewrite split_join' by (discriminate || exact F). reflexivity.
Qed.
Lemma name_slash l : Forall name l -> Forall (fun p => ~ In "/"%char p) l.
Proof. apply Forall_impl. unfold name. tauto. Qed.
Lemma abs_place cwd l : Forall name l -> l <> [] -> place cwd (abs_path l) = l.
Proof.
  intros F N. rewrite place_eq. rewrite abs_path_split by (apply name_slash; exact F).
  destruct l; [congruence|]. cbn [abs_path flat_map app absolute]. rewrite Ascii.eqb_refl.
  change (walk [] ([] :: ?x)) with (walk [] x). rewrite walk_names by exact F. reflexivity.
Qed.

(** Two names followed by the end or a slash. *)
Definition ended (s : bytes) : Prop := s = [] \/ exists t, s = "/"%char :: t.
Lemma ended_abs l : ended (abs_path l).
Proof. destruct l; [left; reflexivity|right; eexists; reflexivity]. Qed.
Lemma name_prefix a : forall b x y, ~ In "/"%char a -> ~ In "/"%char b -> ended x -> a ++ x = b ++ "/"%char :: y -> a = b /\ x = "/"%char :: y.
Proof.
  induction a as [|c a IH]; intros b x y A B X E.
  - destruct b as [|d b]; [split; [reflexivity|exact E]|]. cbn in E. destruct X as [->|[t ->]]; [discriminate|].
    injection E as <- _. exfalso. apply B. left. reflexivity.
  - destruct b as [|d b]; cbn in E; injection E as -> E.
    + exfalso. apply A. left. reflexivity.
    + destruct (IH b x y) as [-> ->]; auto; try (intro; eauto using in_cons).
Qed.
Lemma name_longer a : forall b x y, ~ In "/"%char b -> ended x -> a ++ x = b ++ y -> exists s, a = b ++ s.
Proof.
  induction a as [|c a IH]; intros b x y B X E.
  - destruct b as [|d b]; [exists []; reflexivity|]. cbn in E. destruct X as [->|[t ->]]; [discriminate|].
    injection E as <- _. exfalso. apply B. left. reflexivity.
  - destruct b as [|d b]; [exists (c :: a); reflexivity|]. cbn in E; injection E as -> E.
    destruct (IH b x y) as [s ->]; auto; try (intro; eauto using in_cons). exists s. reflexivity.
Qed.
Lemma abs_prefix D : forall L q, Forall name D -> Forall name L -> abs_path L = (abs_path D ++ lit "/") ++ q -> exists rest, rest <> [] /\ L = D ++ rest.
Proof.
  induction D as [|n D IH]; intros L q FD FL E.
  - exists L. split; [intros ->; discriminate|reflexivity].
  - destruct L as [|l L]; [discriminate|]. inversion FD as [|? ? (_ & _ & _ & N) FD']; subst. inversion FL as [|? ? (_ & _ & _ & M) FL']; subst.
    rewrite !abs_cons in E.
    change ((("/"%char :: n ++ abs_path D) ++ lit "/") ++ q) with ("/"%char :: ((n ++ abs_path D) ++ lit "/") ++ q) in E.
    apply (f_equal (@tl ascii)) in E. cbn [tl] in E. rewrite <- !app_assoc in E.
    assert (G : exists y, abs_path D ++ lit "/" ++ q = "/"%char :: y) by (destruct D; eexists; reflexivity).
    destruct G as [y G]. rewrite G in E. apply name_prefix in E as [-> E]; auto using ended_abs.
    rewrite <- G, app_assoc in E. apply IH in E as (rest & R & ->); auto. exists rest. split; [exact R|reflexivity].
Qed.
Lemma abs_sibling par : forall n L q, Forall name par -> name n -> Forall name L -> abs_path L = abs_path (par ++ [n]) ++ q ->
  exists s rest, L = par ++ (n ++ s) :: rest.
Proof.
  induction par as [|p par IH]; intros n L q FD Nn FL E.
  - destruct L as [|l L]; [discriminate|]. cbn [app] in E. rewrite !abs_cons in E. change (abs_path []) with (@nil ascii) in E. rewrite app_nil_r in E. rewrite <- !app_comm_cons in E.
    injection E as E. apply name_longer in E as [s ->]; [|apply Nn|apply ended_abs]. exists s, L. reflexivity.
  - destruct L as [|l L]; [discriminate|]. inversion FD as [|? ? (_ & _ & _ & N) FD']; subst. inversion FL as [|? ? (_ & _ & _ & M) FL']; subst.
    rewrite <- app_comm_cons in E. rewrite !abs_cons in E.
    rewrite <- !app_comm_cons in E. injection E as E. rewrite <- !app_assoc in E.
    assert (G : exists y, abs_path (par ++ [n]) ++ q = "/"%char :: y) by (destruct par; eexists; reflexivity).
    destruct G as [y G]. rewrite G in E. apply name_prefix in E as [-> E]; auto using ended_abs.
    rewrite <- G in E. apply IH in E as (s & rest & ->); auto. exists s, rest. reflexivity.
Qed.

(** The last piece of a path that ends with ".ics". *)
Lemma last_piece s t : ~ In "/"%char t -> exists i x, split_char "/" (s ++ t) = i ++ [x ++ t].
Proof.
  intro N. destruct (split_app "/" s t) as (i & x & y & u & E1 & E2 & E3). rewrite RecurTextProofs.split_char_no in E2 by (apply cin_out; exact N).
  injection E2 as <- <-. exists i, x. exact E3.
Qed.
Lemma ics_name x : ~ In "/"%char x -> name (x ++ lit ".ics").
Proof.
  intro N. repeat split.
  - destruct x; discriminate.
  - intro E. apply (f_equal (@List.length ascii)) in E. rewrite app_length in E. cbn in E. lia.
  - intro E. apply (f_equal (@List.length ascii)) in E. rewrite app_length in E. cbn in E. lia.
  - rewrite in_app_iff. intros [H|H]; [auto|]. cbn in H. intuition discriminate.
Qed.
Lemma place_file cwd f : exists d x, ~ In "/"%char x /\ place cwd (f ++ lit ".ics") = d ++ [x ++ lit ".ics"].
Proof.
  rewrite place_eq. destruct (last_piece f (lit ".ics")) as (i & x & E); [cbn; intuition discriminate|].
  assert (N : ~ In "/"%char x).
  { pose proof (split_pieces "/" (f ++ lit ".ics")) as F. rewrite E in F. apply Forall_app in F as [_ F]. inversion F; subst. intro I. apply H1, in_or_app. auto. }
  rewrite E, walk_app. exists (walk (if absolute (f ++ lit ".ics") then [] else cwd) i), x. split; [exact N|].
  rewrite walk_names; [reflexivity|]. constructor; [apply ics_name; exact N|constructor].
Qed.
Lemma file_name_ics k : exists f, file_name k = f ++ lit ".ics".
Proof. destruct k; eexists; reflexivity. Qed.

Lemma abs_one_two q : absolute q = true -> (initial_slashes q = 1 \/ initial_slashes q = 2)%nat.
Proof.
  intro A. pose proof (slashes_abs q) as SA. rewrite A in SA. unfold initial_slashes in *.
  destruct (startswith q (lit "/")); [destruct (_ && _); auto|discriminate].
Qed.
Lemma normpath_abs q : absolute q = true ->
  normpath q = repeat "/"%char (initial_slashes q) ++ join_char "/" (norm_comps true [] (split_char "/" q)).
Proof.
  intro A. pose proof (slashes_abs q) as SA. rewrite A in SA. pose proof (abs_one_two q A) as M. unfold normpath.
  destruct q as [|c p]; [discriminate|]. cbv zeta. rewrite SA. destruct M as [-> | ->]; reflexivity.
Qed.

(** The path computed for an absolute database path: one or two slashes and names. *)
Lemma abs_tz_path dbpath k : absolute dbpath = true ->
  exists m L, (m = 1 \/ m = 2)%nat /\ L <> [] /\ Forall name L /\ tz_path dbpath k = repeat "/"%char (pred m) ++ abs_path L /\
    forall cwd, place cwd (tz_path dbpath k) = L.
Proof.
  intro A. set (q := path_join dbpath (file_name k)).
  assert (AQ : absolute q = true).
  { unfold q, path_join. rewrite starts_slash. destruct (absolute (file_name k)) eqn:AK; [exact AK|].
    destruct dbpath as [|c a]; [discriminate|]. destruct (ends_with (c :: a) "/"); exact A. }
  set (L := norm_comps true [] (split_char "/" q)).
  assert (FL : Forall name L) by (apply norm_names; [apply split_pieces|constructor]).
  assert (PL : forall cwd, place cwd q = L).
  { intro cwd. rewrite place_eq, AQ. transitivity (walk [] L); [|rewrite walk_names by exact FL; reflexivity].
    unfold L. rewrite norm_walk by (auto || constructor). reflexivity. }
  assert (NL : L <> []).
  { destruct (file_name_ics k) as [f F]. destruct (place_file (place [] dbpath) f) as (d & x & _ & P). rewrite <- F, <- join_place in P. fold q in P.
    rewrite PL in P. rewrite P. destruct d; discriminate. }
  assert (T : exists m, (m = 1 \/ m = 2)%nat /\ tz_path dbpath k = repeat "/"%char (pred m) ++ abs_path L).
  { unfold tz_path. fold q. rewrite normpath_abs by exact AQ. exists (initial_slashes q).
    pose proof (abs_one_two q AQ) as M.
    split; [exact M|]. rewrite abs_path_join by exact NL. fold L. destruct M as [-> | ->]; cbn [repeat app pred]; reflexivity. }
  destruct T as (m & M & T). exists m, L. repeat split; auto.
  intro cwd. unfold tz_path. rewrite normpath_place. fold q. apply PL.
Qed.

Lemma tz_path_place cwd dbpath k : place cwd (tz_path dbpath k) = place (place cwd dbpath) (file_name k).
Proof. unfold tz_path. rewrite normpath_place, join_place. reflexivity. Qed.

Lemma inside D k cwd : Forall name D -> startswith (tz_path (abs_path D ++ lit "/") k) (abs_path D ++ lit "/") = true ->
  below D (place cwd (tz_path (abs_path D ++ lit "/") k)).
Proof.
  intros FD S. destruct (abs_tz_path (abs_path D ++ lit "/") k) as (m & L & M & NL & FL & E & P); [destruct D; reflexivity|].
  rewrite P. apply starts_app in S as [q S]. rewrite E in S. destruct M as [-> | ->]; cbn [pred repeat app] in S.
  - apply abs_prefix in S as (rest & R & ->); auto. exists rest. auto.
  - destruct D as [|n D].
    + exists L. auto.
    + exfalso. inversion FD as [|? ? (N1 & _ & _ & N2) _]; subst. destruct n as [|c n]; [congruence|].
      cbn in S. injection S as S. destruct L as [|l L]; [congruence|]. cbn in S. injection S as S _. subst c. apply N2. left. reflexivity.
Qed.
Lemma beside par n k cwd : Forall name par -> name n -> startswith (tz_path (abs_path (par ++ [n])) k) (abs_path (par ++ [n])) = true ->
  exists s rest, place cwd (tz_path (abs_path (par ++ [n])) k) = par ++ (n ++ s) :: rest.
Proof.
  intros FD Nn S. destruct (abs_tz_path (abs_path (par ++ [n])) k) as (m & L & M & NL & FL & E & P); [destruct par; reflexivity|].
  rewrite P. apply starts_app in S as [q S]. rewrite E in S. destruct M as [-> | ->]; cbn [pred repeat app] in S.
  - apply abs_sibling in S; auto.
  - exfalso. destruct L as [|l L]; [congruence|]. destruct par as [|p par].
    + destruct Nn as (N1 & _ & _ & N2). destruct n as [|c n]; [congruence|]. cbn in S. injection S as S _. subst c. apply N2. left. reflexivity.
    + inversion FD as [|? ? (N1 & _ & _ & N2) _]; subst. destruct p as [|c p]; [congruence|]. cbn in S. injection S as S _. subst c. apply N2. left. reflexivity.
Qed.

(** An ordinary TZID names the file in the directory. *)
Lemma rel_names names id : names <> [] -> Forall name names -> rel_path names id ->
  absolute id = false /\ id <> [] /\ split_char "/" id = names.
Proof.
  intros N F R. unfold rel_path in R. rewrite abs_path_join in R by exact N. injection R as <-.
  rewrite split_join' by (auto || apply name_slash; exact F). destruct names as [|x l]; [congruence|].
  inversion F as [|? ? (N1 & _ & _ & N2) _]; subst. destruct x as [|c x]; [congruence|].
  split; [|split; [destruct l; discriminate|reflexivity]].
  destruct l; cbn; destruct (Ascii.eqb_spec c "/") as [->|]; try reflexivity; exfalso; apply N2; left; reflexivity.
Qed.
Lemma split_last s t : ~ In "/"%char t -> forall i x, split_char "/" s = i ++ [x] -> split_char "/" (s ++ t) = i ++ [x ++ t].
Proof.
  intros N i x E. destruct (split_app "/" s t) as (i' & x' & y & u & E1 & E2 & E3). rewrite RecurTextProofs.split_char_no in E2 by (apply cin_out; exact N).
  injection E2 as <- <-. rewrite E1 in E. apply app_inj_tail in E as [-> ->]. exact E3.
Qed.
Lemma found_path D id names (trail : bool) : Forall name D -> names <> [] -> Forall name names -> rel_path names id ->
  tz_path (if trail then abs_path D ++ lit "/" else abs_path D) (Some id) = abs_path D ++ "/"%char :: id ++ lit ".ics" \/ (trail = false /\ D = []).
Proof.
  intros FD N F R. destruct (rel_names _ _ N F R) as (A & NE & SP).
  destruct (exists_last N) as (i & x & ->). apply Forall_app in F as [Fi Fx]. inversion Fx as [|? ? Nx _]; subst.
  assert (SF : split_char "/" (id ++ lit ".ics") = i ++ [x ++ lit ".ics"]) by (apply split_last; [cbn; intuition discriminate|exact SP]).
  assert (J : path_join (if trail then abs_path D ++ lit "/" else abs_path D) (file_name (Some id)) = abs_path D ++ "/"%char :: id ++ lit ".ics" \/ (trail = false /\ D = [])).
  { unfold path_join. rewrite starts_slash. unfold file_name. destruct id as [|c id]; [congruence|]. cbn [app absolute]. cbn [absolute] in A. rewrite A.
    destruct trail.
    - left. assert (G : exists a b, abs_path D ++ lit "/" = a :: b) by (destruct D; eexists; eexists; reflexivity). destruct G as (a & b & G).
      rewrite G. replace (ends_with (a :: b) "/") with true.
      2:{ rewrite <- G. unfold ends_with. rewrite rev_app_distr. reflexivity. }
      rewrite <- G, <- app_assoc. reflexivity.
    - destruct D as [|n D]; [right; auto|]. left.
      assert (G : ends_with (abs_path (n :: D)) "/" = false).
      { destruct (@exists_last _ (n :: D)) as (D' & l & EL); [discriminate|]. rewrite EL in *. apply Forall_app in FD as [_ FD]. inversion FD as [|? ? (L1 & _ & _ & L2) _]; subst.
        rewrite abs_path_app. cbn [abs_path flat_map]. rewrite app_nil_r. unfold ends_with. rewrite rev_app_distr.
        destruct (@exists_last _ l L1) as (l' & c' & ->). cbn [rev]. rewrite rev_app_distr. cbn.
        destruct (Ascii.eqb_spec c' "/") as [->|]; [|reflexivity]. exfalso. apply L2, in_or_app. right. left. reflexivity. }
      destruct (abs_path (n :: D)) as [|a b] eqn:EA; [discriminate|]. rewrite G. reflexivity. }
  destruct J as [J|J]; [left|right; exact J].
  unfold tz_path. rewrite J. set (q := abs_path D ++ "/"%char :: id ++ lit ".ics").
  assert (Q : q = abs_path (D ++ i ++ [x ++ lit ".ics"])).
  { unfold q. rewrite abs_path_app. f_equal. rewrite abs_path_join by (destruct i; discriminate). f_equal.
    rewrite <- SF. clear. induction (id ++ lit ".ics") as [|c s IH]; [reflexivity|]. cbn [split_char].
    destruct (Ascii.eqb_spec "/" c) as [<-|NC].
    - destruct (split_char "/" s) as [|h t] eqn:E; [destruct s as [|b s']; cbn in E; [discriminate|]; destruct (Ascii.eqb "/" b); [discriminate|]; destruct (split_char "/" s'); discriminate|].
      cbn [join_char app]. rewrite IH. reflexivity.
    - destruct (split_char "/" s) as [|h t] eqn:E; [destruct s as [|b s']; cbn in E; [discriminate|]; destruct (Ascii.eqb "/" b); [discriminate|]; destruct (split_char "/" s'); discriminate|].
      rewrite IH at 1. destruct t; reflexivity. }
  assert (FN : Forall name (D ++ i ++ [x ++ lit ".ics"])).
  { apply Forall_app; split; [exact FD|]. apply Forall_app; split; [exact Fi|]. constructor; [apply ics_name; apply Nx|constructor]. }
  set (L := D ++ i ++ [x ++ lit ".ics"]) in *.
  assert (NL : L <> []) by (unfold L; destruct D; destruct i; discriminate).
  assert (M : initial_slashes q = 1%nat).
  { rewrite Q. destruct L as [|l L']; [congruence|]. inversion FN as [|? ? (L1 & _ & _ & L2) _]; subst. destruct l as [|c l]; [congruence|].
    unfold initial_slashes. cbn [abs_path flat_map app lit list_ascii_of_string startswith]. rewrite Ascii.eqb_refl.
    cbn [andb]. destruct (Ascii.eqb_spec "/" c) as [<-|]; [exfalso; apply L2; left; reflexivity|]. reflexivity. }
  rewrite normpath_abs by (rewrite Q; destruct L; [congruence|reflexivity]). rewrite M. cbn [repeat app].
  assert (NW : norm_comps true [] (split_char "/" q) = L).
  { transitivity (walk [] (norm_comps true [] (split_char "/" q))); [rewrite walk_names by (apply norm_names; [apply split_pieces|constructor]); reflexivity|].
    rewrite norm_walk by (auto || constructor). cbn [rev walk]. rewrite Q, abs_path_split by (apply name_slash; exact FN).
    change (walk [] ([] :: L)) with (walk [] L). rewrite walk_names by exact FN. reflexivity. }
  rewrite NW, Q. rewrite abs_path_join by exact NL. reflexivity.
Qed.
