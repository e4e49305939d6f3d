(** C90: setting the value of properties with registered names. *)
From Verif Require Import PyBase ParserCtx LineModel DateTimeModel PropertyModel PropertySpec RegMakeModel RegMakeSpec RegSetModel RegSetSpec.
From Verif Require LineProofs RegisterProofs RegisterProofs2 RegSetProofs SetValueProofs PropComponent PropRegister PropRegMake.
Notation fl0 := PropComponent.fl0.
Notation note_call := PropRegMake.note_call.

(** A value of the type that VALUE, the library or the first call gives is taken; the parameters stay. *)
Theorem C90_set : forall calls ctx z p v, name_ok (pName p) -> params_ok (pParams p) -> tzid_of (pParams p) z -> reg_fits calls ctx z p v ->
  exists q w v', reg_setValue (after_calls calls) p v = SetTo q v' /\ pName q = pName p /\ pParams q = pParams p /\ pValue q = Some w /\ took z v w /\
    (z = None \/ ~ reg_typed calls (pName p) (pParams p) T_DATETIME -> v' = v).
Proof.
  intros calls ctx z p v N P Z F. destruct (RegSetProofs.reg_set_ok calls ctx fl0 p v z N P Z F) as (q & w & v' & E & A & B & C & T & _ & U). exists q, w, v'. tauto.
Qed.
Print Assumptions C90_set.
Definition noted : prop := mkProp (lit "X-Note") [] None.
Lemma noted_fits : name_ok (pName noted) /\ params_ok (pParams noted) /\ tzid_of (pParams noted) None /\ reg_fits [note_call] default_ctx None noted (PyStr (lit "one, two")).
Proof.
  split; [split; [discriminate|cbn; intuition discriminate]|]. split; [split; constructor|]. split; [apply PropertySpec.tz_none; reflexivity|].
  split; [intros [H|H]; vm_compute in H; discriminate H|]. exists T_TEXT. split; [apply rt_default; [intros n v l r t H; discriminate H|apply PropRegMake.note_default]|].
  split; [intros _; eexists; apply PropRegMake.note_default|]. right. split; [vm_compute; intuition discriminate|exact I].
Qed.
Example C90_set_ex : reg_fits [note_call] default_ctx None noted (PyStr (lit "one, two")) /\
  reg_setValue (after_calls [note_call]) noted (PyStr (lit "one, two")) = SetTo (mkProp (lit "X-Note") [] (Some (Single (VText (lit "one, two"))))) (PyStr (lit "one, two")).
Proof. split; [apply noted_fits|]. vm_compute. reflexivity. Qed.
(** The line of the property is then read as a property with that name, the other parameters and that value. *)
Theorem C90_written : forall calls ctx fl z p v, name_ok (pName p) -> params_ok (pParams p) -> tzid_of (pParams p) z -> reg_fits calls ctx z p v ->
  exists q v' text r w w', reg_setValue (after_calls calls) p v = SetTo q v' /\ reg_line (after_calls calls) fl q = Ok text /\ reg_parse (after_calls calls) ctx fl text = Ok r /\
    pName r = pName p /\ (forall k, k <> lit "VALUE" -> Forall2 same_param (lookup k (pParams p)) (lookup k (pParams r))) /\
    took z v w /\ pValue r = Some w' /\ same_value w w'.
Proof.
  intros calls ctx fl z p v N P Z F. destruct (RegSetProofs.reg_set_ok calls ctx fl p v z N P Z F) as (q & w & v' & E & A & B & C & T & O & _).
  destruct (RegisterProofs2.reg_round calls ctx fl q O) as (text & r & L & R & (SN & SP & SV) & _). rewrite C in SV. destruct (pValue r) as [w'|] eqn:V; [|destruct SV].
  exists q, v', text, r, w, w'. rewrite <- B, <- A. repeat (split; [assumption || congruence|]). assumption.
Qed.
Print Assumptions C90_written.
(** The text that cannot be read back without the call (C84_unknown_refuted). *)
Example C90_written_ex : reg_fits [note_call] default_ctx None noted (PyStr (lit "one, two")) /\
  exists q v r, reg_setValue (after_calls [note_call]) noted (PyStr (lit "one, two")) = SetTo q v /\ reg_line (after_calls [note_call]) fl0 q = Ok (lit "X-Note:one\, two") /\
    reg_parse (after_calls [note_call]) default_ctx fl0 (lit "X-Note:one\, two") = Ok r /\ pValue r = Some (Single (VText (lit "one, two"))).
Proof.
  split; [apply noted_fits|]. do 3 eexists. split; [vm_compute; reflexivity|]. split; [vm_compute; reflexivity|]. split; [vm_compute; reflexivity|]. reflexivity.
Qed.
(** Properties of other names are set as without the calls. *)
Theorem C90_others : forall calls p v, untouched calls (pName p) -> reg_setValue (after_calls calls) p v = setValue p v.
Proof. exact RegSetProofs.reg_set_untouched. Qed.
Print Assumptions C90_others.
Example C90_others_ex : untouched [note_call] (lit "X-Count") /\ exists q, setValue (mkProp (lit "X-Count") [] None) (PyStr (lit "12")) = SetTo q (PyStr (lit "12")).
Proof. split; [repeat constructor; vm_compute; discriminate|]. eexists. vm_compute. reflexivity. Qed.
(** For names with a default that holds texts, setting a str gives the value that the constructor gives. *)
Theorem C90_as_made : forall calls zero name s t, default_of calls (upper name) t -> In t [T_TEXT; T_BINARY; T_CALADDRESS; T_URI; T_UNKNOWN; T_BOOLEAN; T_TIME] -> ~ listed name ->
  exists p q, reg_make (after_calls calls) zero name (PyStr s) None = Ok p /\ reg_setValue (after_calls calls) (mkProp name [] None) (PyStr s) = SetTo q (PyStr s) /\ pValue q = pValue p.
Proof.
  intros calls zero name s t D T L. apply RegisterProofs.default_table in D. unfold reg_setValue, rs_type. cbn [reg_make pName pParams]. unfold rm_text. rewrite D. cbv zeta.
  rewrite (SetValueProofs.multi_not _ L). cbn [assoc]. exists (rm_value (after_calls calls) name (Single (text_item zero t s))), (mkProp name [] (Some (Single (text_item zero t s)))). split; [reflexivity|].
  destruct T as [<-|[<-|[<-|[<-|[<-|[<-|[<-|[]]]]]]]]; (split; [reflexivity|reflexivity]).
Qed.
Print Assumptions C90_as_made.
Example C90_as_made_ex : default_of [note_call] (upper (lit "x-note")) T_TEXT /\ ~ listed (lit "x-note").
Proof. split; [apply PropRegMake.note_default|]. vm_compute. intuition discriminate. Qed.

(** ** What does not hold *)
(** For names without a default it does not: the constructor makes a value of unknown type, setValue a text. *)
Theorem C90_as_made_refuted : exists name s p q, (forall t, ~ default_of [] (upper name) t) /\ reg_make (after_calls []) 0 name (PyStr s) None = Ok p /\
  reg_setValue (after_calls []) (mkProp name [] None) (PyStr s) = SetTo q (PyStr s) /\
  reg_line (after_calls []) fl0 p = Ok (lit "X-NOTE:a,b") /\ reg_line (after_calls []) fl0 q = Ok (lit "X-NOTE:a\,b").
Proof.
  exists (lit "X-NOTE"), (lit "a,b"). do 2 eexists. split; [intros t D; apply RegisterProofs.default_table in D; vm_compute in D; discriminate D|].
  split; [vm_compute; reflexivity|]. split; [vm_compute; reflexivity|]. split; vm_compute; reflexivity.
Qed.
Print Assumptions C90_as_made_refuted.
