(** C95: strindexfind, strnindexfind and loadPrivateValue, which nothing in the library calls. *)
From Coq Require Import Lia.
From Verif Require Import PyBase PyProofs PropertyModel ComponentModel UnusedModel UnusedSpec UnusedProofs.

(** strindexfind: the place of the text in upper case; the default if the list ends before it; an exception if it does not end. *)
Theorem C95_find : forall s ss default, s <> [] -> ss <> [] -> let is := fun x => upper s = x in
  (exists i, first_at is ss i /\ strindexfind (Some s) (Some ss) default = Ok i) \/
  (ends_before is ss /\ strindexfind (Some s) (Some ss) default = Ok default) \/
  (nowhere is ss /\ strindexfind (Some s) (Some ss) default = Raise IndexError).
Proof. intros [|c t] [|x r] default H H'; try congruence. exact (loop_cases _ _ default (equal_iff (upper (c :: t))) (x :: r) 0). Qed.
Print Assumptions C95_find.

(** strnindexfind: the same for the first entry with which the text in upper case begins. *)
Theorem C95_prefix : forall s ss default, s <> [] -> ss <> [] -> let is := fun x => begins (upper s) x in
  (exists i, first_at is ss i /\ strnindexfind (Some s) (Some ss) default = Ok i) \/
  (ends_before is ss /\ strnindexfind (Some s) (Some ss) default = Ok default) \/
  (nowhere is ss /\ strnindexfind (Some s) (Some ss) default = Raise IndexError).
Proof. intros [|c t] [|x r] default H H'; try congruence. exact (loop_cases _ _ default (begins_iff (upper (c :: t))) (x :: r) 0). Qed.
Print Assumptions C95_prefix.

(** Without a text or without a list, both answer with the default. *)
Theorem C95_default : forall s ss default, s = None \/ s = Some [] \/ ss = None \/ ss = Some [] -> strindexfind s ss default = Ok default /\ strnindexfind s ss default = Ok default.
Proof. intros s ss default [-> |[-> |[-> | ->]]]; [split; reflexivity|split; reflexivity|destruct s as [[|c t]|]; split; reflexivity|destruct s as [[|c t]|]; split; reflexivity]. Qed.
Print Assumptions C95_default.

(** loadPrivateValue: the text of the property, which is taken out of the dictionary with all of its name if there is one; other properties stay. *)
Theorem C95_private : forall name ps, NoDup (map fst ps) ->
  fst (loadPrivateValue name ps) = loadString name ps /\
  (loadString name ps <> None -> hasProperty name (snd (loadPrivateValue name ps)) = false) /\
  (loadString name ps = None -> snd (loadPrivateValue name ps) = ps) /\
  forall n, n <> name -> getProperties n (snd (loadPrivateValue name ps)) = getProperties n ps.
Proof.
  intros name ps N. unfold loadPrivateValue. destruct (loadString name ps); cbn [fst snd]; split; try reflexivity; (split; [intros H; try congruence; apply remove_gone, N|split; [intros H; congruence || reflexivity|intros n D; try reflexivity; apply remove_others, D]]).
Qed.
Print Assumptions C95_private.

(** ** Examples *)
Definition colours : list (option bytes) := [Some (lit "RED"); Some (lit "GREEN"); Some (lit "GREENISH"); None].
Example C95_find_ex : strindexfind (Some (lit "green")) (Some colours) (-1) = Ok 1 /\ strindexfind (Some (lit "blue")) (Some colours) (-1) = Ok (-1) /\
  strindexfind (Some (lit "blue")) (Some (removelast colours)) (-1) = Raise IndexError /\ strindexfind (Some (lit "red")) (Some (removelast colours)) (-1) = Ok 0.
Proof. repeat split; vm_compute; reflexivity. Qed.
Example C95_prefix_ex : strnindexfind (Some (lit "greenish")) (Some colours) (-1) = Ok 1 /\ strnindexfind (Some (lit "gre")) (Some colours) (-1) = Ok (-1) /\
  strnindexfind (Some (lit "blue")) (Some (removelast colours)) (-1) = Raise IndexError.
Proof. repeat split; vm_compute; reflexivity. Qed.
Example C95_default_ex : strindexfind (Some []) (Some (removelast colours)) 7 = Ok 7 /\ strnindexfind (Some (lit "red")) (Some []) 7 = Ok 7.
Proof. split; reflexivity. Qed.
Definition secret : props := [(lit "X-KEY", [mkProp (lit "X-KEY") [] (Some (Single (VText (lit "1")))); mkProp (lit "x-key") [] (Some (Single (VText (lit "2"))))]);
  (lit "UID", [mkProp (lit "UID") [] (Some (Single (VText (lit "3"))))])].
Example C95_private_ex : NoDup (map fst secret) /\ loadPrivateValue (lit "X-KEY") secret = (Some (lit "1"), skipn 1 secret) /\ loadPrivateValue (lit "X-OTHER") secret = (None, secret).
Proof. split; [constructor; [intros [E|[]]; discriminate E|constructor; [intros []|constructor]]|]. split; vm_compute; reflexivity. Qed.

(** ** What they do not do *)
(** The default is not the answer for every text that is not in the list. *)
Theorem C95_missing_refuted : exists s ss, ~ In (Some (upper s)) ss /\ forall default, strindexfind (Some s) (Some ss) default = Raise IndexError.
Proof. exists (lit "blue"), [Some (lit "RED")]. split; [cbn; intros [E|[]]; discriminate E|]. intros default. reflexivity. Qed.
Print Assumptions C95_missing_refuted.
(** Entries that are not in upper case are never found. *)
Theorem C95_case_refuted : exists s ss, In (Some s) ss /\ forall default, strindexfind (Some s) (Some ss) default = Ok default.
Proof. exists (lit "red"), [Some (lit "red"); None]. split; [left; reflexivity|]. intros default. reflexivity. Qed.
Print Assumptions C95_case_refuted.
