(** The expansion of rules with BY parts. *)
From Coq Require Import Lia ZifyBool ZifyNat Sorting.Sorted.
From Verif Require Import PyBase DateTimeModel PeriodModel RecurModel RecurExpand RecurComplexSpec.

Section Loop.
Variable tzo : tzid -> Z -> Z -> Z -> Z -> Z -> Z -> bool -> bool -> Z.
Variables (r : rule) (start : dt) (range : period) (until : option dt) (max : option Z).

Definition ge_start (it : dt) : bool := no (dt_lt tzo it start).
Definition eq_start (it : dt) : bool := yes (dt_eq tzo start it).
(** What is taken from a list of candidates when prev has been taken before. *)
Definition pick (prev set : list dt) : list dt :=
  if rUseCount r then match prev with [] => drop_while eq_start (filter ge_start set) | _ => filter ge_start set end
  else filter ge_start set.
Lemma drop_app {A} (p : A -> bool) a b : drop_while p (a ++ b) = match drop_while p a with [] => drop_while p b | l => l ++ b end.
Proof. induction a as [|x a IH]; cbn; [destruct (drop_while p b); reflexivity|]. destruct (p x); [exact IH|reflexivity]. Qed.
Lemma pick_app prev a b : pick prev (a ++ b) = pick prev a ++ pick (prev ++ pick prev a) b.
Proof.
  unfold pick. rewrite filter_app. destruct (rUseCount r); [|reflexivity].
  destruct prev as [|x prev]; cbn [app]; [|reflexivity]. rewrite drop_app.
  destruct (drop_while eq_start (filter ge_start a)); [reflexivity|]. reflexivity.
Qed.
Lemma pick_nil prev : pick prev [] = [].
Proof. unfold pick. cbn. destruct (rUseCount r), prev; reflexivity. Qed.

(** Every candidate at or after the start in this list was inside the limits. *)
Definition inside (it : dt) : Prop :=
  ge_start it = true -> isDateAfterPeriod tzo range it = Ok false /\ forall u, until = Some u -> dt_gt tzo it u = Ok false.
Definition ctr_ok (ctr : Z) (items : list dt) : Prop :=
  if rUseCount r then ctr = 1 + Z.of_nat (List.length items) /\ ctr < rCount r else ctr = 0.

(** Why the loop over the sets stopped with full. *)
Definition stopped (items rest : list dt) (full : bool) : Prop :=
  match rest with
  | it :: _ => ge_start it = true /\
      if full then isDateAfterPeriod tzo range it = Ok false /\ exists u, until = Some u /\ dt_gt tzo it u = Ok true
      else isDateAfterPeriod tzo range it = Ok true
  | [] => False
  end \/ (full = true /\ rUseCount r = true /\ items <> [] /\ rCount r = 1 + Z.of_nat (List.length items)).

Lemma len1 {A} (l : list A) x : Z.of_nat (List.length (l ++ [x])) = Z.of_nat (List.length l) + 1.
Proof. rewrite app_length. cbn. lia. Qed.

Lemma set_loop_spec : forall set ctr items, ctr_ok ctr items ->
  match set_loop tzo r start range until max set ctr items with
  | inr (ctr', items') => ctr_ok ctr' items' /\ items' = items ++ pick items set /\ Forall inside set
  | inl (items', res) => exists s1 s2, set = s1 ++ s2 /\ items' = items ++ pick items s1 /\ Forall inside s1 /\
      match res with Ok full => stopped items' s2 full | Raise _ => True end
  end.
Proof.
  induction set as [|it set IH]; intros ctr items C; cbn [set_loop].
  - rewrite pick_nil, app_nil_r. auto.
  - assert (Here : forall res, match res with Ok full => stopped items (it :: set) full | Raise _ => True end ->
      exists s1 s2, it :: set = s1 ++ s2 /\ items = items ++ pick items s1 /\ Forall inside s1 /\ match res with Ok full => stopped items s2 full | Raise _ => True end).
    { intros res H. exists [], (it :: set). rewrite pick_nil, app_nil_r. auto. }
    assert (Skip : pick items [it] = [] -> inside it ->
      match set_loop tzo r start range until max set ctr items with
      | inr (ctr', items') => ctr_ok ctr' items' /\ items' = items ++ pick items (it :: set) /\ Forall inside (it :: set)
      | inl (items', res) => exists s1 s2, it :: set = s1 ++ s2 /\ items' = items ++ pick items s1 /\ Forall inside s1 /\
         match res with Ok full => stopped items' s2 full | Raise _ => True end
      end).
    { intros P I. specialize (IH ctr items C). destruct (set_loop tzo r start range until max set ctr items) as [[items' res]|[ctr' items']].
      - destruct IH as (s1 & s2 & -> & -> & F & S). exists (it :: s1), s2. split; [reflexivity|].
        change (it :: s1) with ([it] ++ s1). rewrite pick_app, P, app_nil_r. cbn [app]. auto.
      - destruct IH as (C' & -> & F). change (it :: set) with ([it] ++ set). rewrite pick_app, P, app_nil_r. cbn [app]. auto. }
    destruct (dt_lt tzo it start) as [[|]|ex] eqn:L.
    + apply Skip. { unfold pick, ge_start. cbn. rewrite L. cbn. destruct (rUseCount r), items; reflexivity. } unfold inside, ge_start. rewrite L. discriminate.
    + assert (G : ge_start it = true) by (unfold ge_start; rewrite L; reflexivity).
      destruct (isDateAfterPeriod tzo range it) as [[|]|ex] eqn:A.
      * apply (Here (Ok false)). left. auto.
      * destruct (match until with None => Ok false | Some u => dt_gt tzo it u end) as [[|]|ex] eqn:U.
        -- apply (Here (Ok true)). left. split; [exact G|]. split; [exact A|]. destruct until as [u|]; [eauto|discriminate].
        -- assert (I : inside it). { intros _. split; [exact A|]. intros u ->. exact U. }
           assert (Take : pick items [it] = [it] ->
             let items2 := items ++ [it] in
             match
               (if too_many max items2 then inl (items2, Raise TooManyInstancesError)
                else if rUseCount r then
                  let ctr := ctr + 1 in
                  if rCount r <=? ctr then inl (items2, Ok true) else set_loop tzo r start range until max set ctr items2
                else set_loop tzo r start range until max set ctr items2)
             with
             | inr (ctr', items') => ctr_ok ctr' items' /\ items' = items ++ pick items (it :: set) /\ Forall inside (it :: set)
             | inl (items', res) => exists s1 s2, it :: set = s1 ++ s2 /\ items' = items ++ pick items s1 /\ Forall inside s1 /\
                match res with Ok full => stopped items' s2 full | Raise _ => True end
             end).
           { intros P items2.
             assert (Now : forall res, match res with Ok full => stopped items2 set full | Raise _ => True end ->
               exists s1 s2, it :: set = s1 ++ s2 /\ items2 = items ++ pick items s1 /\ Forall inside s1 /\ match res with Ok full => stopped items2 s2 full | Raise _ => True end).
             { intros res H. exists [it], set. rewrite P. auto. }
             destruct (too_many max items2); [apply (Now (Raise TooManyInstancesError)); exact Logic.I|].
             assert (Go : forall ctr', ctr_ok ctr' items2 ->
               match set_loop tzo r start range until max set ctr' items2 with
               | inr (ctr', items') => ctr_ok ctr' items' /\ items' = items ++ pick items (it :: set) /\ Forall inside (it :: set)
               | inl (items', res) => exists s1 s2, it :: set = s1 ++ s2 /\ items' = items ++ pick items s1 /\ Forall inside s1 /\
                 match res with Ok full => stopped items' s2 full | Raise _ => True end
               end).
             { intros ctr' C'. specialize (IH ctr' items2 C'). destruct (set_loop tzo r start range until max set ctr' items2) as [[items' res]|[ctr2 items']].
               - destruct IH as (s1 & s2 & -> & -> & F & S). exists (it :: s1), s2. split; [reflexivity|].
                 change (it :: s1) with ([it] ++ s1). rewrite pick_app, P. unfold items2 in *. rewrite <- app_assoc in *. cbn [app] in *. auto.
               - destruct IH as (C2 & -> & F). change (it :: set) with ([it] ++ set). rewrite pick_app, P. unfold items2 in *. rewrite <- app_assoc in *. cbn [app] in *. auto. }
             unfold ctr_ok in C. destruct (rUseCount r) eqn:UC.
             - cbv zeta. destruct (rCount r <=? ctr + 1) eqn:K.
               + apply (Now (Ok true)). right. unfold items2. rewrite len1. repeat split; auto; [|lia]. destruct items; discriminate.
               + apply Go. unfold ctr_ok. rewrite UC. unfold items2. rewrite len1. lia.
             - apply Go. unfold ctr_ok. rewrite UC. exact C. }
           unfold ctr_ok in C. destruct (ctr =? 1) eqn:K.
           ++ destruct (dt_eq tzo start it) as [[|]|ex] eqn:Q.
              ** apply Skip; [|exact I]. destruct (rUseCount r) eqn:UC; [|lia]. destruct items; [|cbn [List.length] in C; lia].
                 unfold pick. rewrite UC. cbn. rewrite G. unfold eq_start. cbn. rewrite Q. reflexivity.
              ** apply Take. unfold pick. cbn. rewrite G. destruct (rUseCount r); [|reflexivity]. destruct items; [|reflexivity].
                 unfold eq_start. cbn. rewrite Q. reflexivity.
              ** apply (Here (Raise ex)); exact Logic.I.
           ++ apply Take. unfold pick. cbn. rewrite G. destruct (rUseCount r); [|reflexivity]. destruct items; [|reflexivity]. cbn in C. lia.
        -- apply (Here (Raise ex)); exact Logic.I.
      * apply (Here (Raise ex)); exact Logic.I.
    + apply (Here (Raise ex)); exact Logic.I.
Qed.

(** The sets of the intervals from k on that were generated. *)
Fixpoint sets_from (it : dt) (sets : list (list dt)) : Prop :=
  match sets with
  | [] => True
  | s :: t => generate_set tzo r it = Ok s /\ sets_from (recur it (rFreq r) (rInterval r) true) t
  end.
Definition last_start (it : dt) (n : nat) : dt := Nat.iter n (fun d => recur d (rFreq r) (rInterval r) true) it.
Lemma iter_in (f : dt -> dt) n x : Nat.iter n f (f x) = f (Nat.iter n f x).
Proof. induction n as [|n IH]; [reflexivity|]. cbn. f_equal. exact IH. Qed.

Lemma complex_loop_spec : forall fuel it ctr items items' res, ctr_ok ctr items ->
  complex_loop tzo fuel r start range until max it ctr items = Some (items', res) ->
  exists sets seen rest, sets_from it sets /\ List.concat sets = seen ++ rest /\ items' = items ++ pick items seen /\ Forall inside seen /\
    match res with
    | Ok full => stopped items' rest full \/
        (full = false /\ rest = [] /\ sets <> [] /\ isDateAfterPeriod tzo range (last_start it (List.length sets - 1)) = Ok true)
    | Raise _ => True
    end.
Proof.
  induction fuel as [|fuel IH]; intros it ctr items items' res C H; [discriminate|]. cbn [complex_loop] in H.
  destruct (generate_set tzo r it) as [set|ex] eqn:Gs.
  2: { injection H as <- <-. exists [], [], []. cbn. rewrite pick_nil, app_nil_r. auto. }
  pose proof (set_loop_spec set ctr items C) as S. destruct (set_loop tzo r start range until max set ctr items) as [[it1 res1]|[ctr1 it1]].
  - injection H as -> ->. destruct S as (s1 & s2 & -> & -> & F & S). exists [s1 ++ s2], s1, s2. cbn [sets_from List.concat]. rewrite app_nil_r.
    repeat split; auto. destruct res; auto.
  - destruct S as (C1 & -> & F). destruct (isDateAfterPeriod tzo range it) as [[|]|ex] eqn:A.
    + injection H as <- <-. exists [set], set, []. cbn [sets_from List.concat]. repeat split; auto. right. repeat split; auto. discriminate.
    + apply IH in H; [|exact C1]. destruct H as (sets & seen & rest & Sf & Cc & -> & Fi & R).
      exists (set :: sets), (set ++ seen), rest. cbn [sets_from List.concat]. rewrite Cc, app_assoc. split; [auto|]. split; [reflexivity|].
      split; [rewrite pick_app, app_assoc; reflexivity|]. split; [apply Forall_app; auto|].
      destruct res as [full|]; [|exact Logic.I]. destruct R as [R|(-> & -> & Ne & R)]; [left; exact R|right]. repeat split; auto; [discriminate|].
      cbn [List.length]. destruct sets as [|s sets]; [congruence|]. cbn [List.length] in *. unfold last_start in *.
      replace (S (S (Datatypes.length sets)) - 1)%nat with (S (Datatypes.length sets)) by lia. cbn [Nat.iter nat_rect].
      replace (S (Datatypes.length sets) - 1)%nat with (Datatypes.length sets) in R by lia. pose proof (iter_in (fun d => recur d (rFreq r) (rInterval r) true) (Datatypes.length sets) it) as E. cbv beta in E. rewrite E in R. exact R.
    + injection H as <- <-. exists [set], set, []. cbn [sets_from List.concat]. auto.
Qed.
End Loop.
