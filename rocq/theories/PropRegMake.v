(** C89: properties with registered names made from Python values. *)
From Verif Require Import PyBase ParserCtx LineModel DateTimeModel PropertyModel PropertySpec RegMakeModel RegMakeSpec.
From Verif Require RegisterProofs RegisterProofs2 RegMakeProofs PropComponent PropRegister.
Notation fl0 := PropComponent.fl0.

(** A value that suits the property is written and read back as the value that was given. *)
Theorem C89_made : forall calls ctx fl zero name v vt, reg_suits calls ctx name v vt ->
  exists p text q w, reg_make (after_calls calls) zero name v vt = Ok p /\ reg_line (after_calls calls) fl p = Ok text /\ reg_parse (after_calls calls) ctx fl text = Ok q /\
    pName q = name /\ pValue q = Some w /\ gives v w.
Proof.
  intros calls ctx fl zero name v vt S. destruct (RegMakeProofs.reg_make_ok calls ctx fl zero name v vt S) as (p & w & E & O & N & V & G).
  destruct (RegisterProofs2.reg_round calls ctx fl p O) as (text & q & L & P & (SN & _ & SV) & _). exists p, text, q. rewrite V in SV.
  destruct (pValue q) as [w'|]; [|destruct SV]. exists w'. repeat (split; [assumption || congruence|]). apply G. exact SV.
Qed.
Print Assumptions C89_made.
Definition note_call : registration := mkCall ICalendar (lit "X-NOTE") T_TEXT false.
Lemma note_default calls : default_of (note_call :: calls) (lit "X-NOTE") T_TEXT.
Proof. apply (do_call _ _ [] _ false calls); [apply PropRegister.ordinary; vm_compute; reflexivity|reflexivity|constructor]. Qed.
Definition made_line (calls : list registration) (name : bytes) (v : pyvalue) : res bytes := do p <- reg_make (after_calls calls) 0 name v None; reg_line (after_calls calls) fl0 p.
Example C89_made_ex : reg_suits [note_call] default_ctx (lit "X-Note") (PyStr (lit "a,b")) None /\ made_line [note_call] (lit "X-Note") (PyStr (lit "a,b")) = Ok (lit "X-Note:a\,b") /\
  made_line [] (lit "X-Note") (PyStr (lit "a,b")) = Ok (lit "X-Note:a,b").
Proof.
  split; [|split; vm_compute; reflexivity]. split; [split; [discriminate|cbn; intuition discriminate]|]. split; [vm_compute; intuition discriminate|].
  split; [intros [H|H]; vm_compute in H; discriminate H|]. exists T_TEXT. split; [apply tg_default, note_default|]. exists T_TEXT. apply note_default.
Qed.
(** A str gets the type given, else the default of the name, else none; of a type that holds no text it becomes the first value of the type. *)
Theorem C89_text : forall calls zero name s vt t, text_gets calls name vt t ->
  exists p, reg_make (after_calls calls) zero name (PyStr s) vt = Ok p /\ pName p = name /\ pValue p = Some (Single (text_item zero t s)).
Proof. intros calls zero name s vt t H. eexists. split; [cbn [reg_make]; rewrite (RegMakeProofs.text_made calls zero name vt s t H); reflexivity|]. split; reflexivity. Qed.
Print Assumptions C89_text.
Example C89_text_ex : text_gets [note_call] (lit "x-note") None T_TEXT /\ text_gets [note_call] (lit "x-note") (Some T_URI) T_URI /\ text_gets [] (lit "x-note") None T_UNKNOWN.
Proof.
  split; [apply tg_default, note_default|]. split; [constructor|]. apply tg_none. intros t D. apply RegisterProofs.default_table in D. vm_compute in D. discriminate D.
Qed.
(** The calls have no influence on other values, only on the VALUE parameter. *)
Theorem C89_values : forall calls zero name v vt, is_str v = false ->
  match reg_make (after_calls calls) zero name v vt, make zero name v vt with
  | Ok p, Ok q => pName p = pName q /\ pValue p = pValue q /\ forall k, k <> lit "VALUE" -> lookup k (pParams p) = lookup k (pParams q)
  | Raise e, Raise e' => e = e'
  | _, _ => False
  end.
Proof. exact RegMakeProofs.reg_make_values. Qed.
Print Assumptions C89_values.
Example C89_values_ex : let v := PyDateTime (newDate 2020 1 31 false TzNone) in is_str v = false /\
  made_line PropRegister.two_calls (lit "X-DAY") v = Ok (lit "X-DAY;VALUE=DATE:20200131") /\ made_line [mkCall ICalendar (lit "X-DAY") T_DATE false] (lit "X-DAY") v = Ok (lit "X-DAY:20200131").
Proof. split; [reflexivity|]. split; vm_compute; reflexivity. Qed.
(** The VALUE parameter of the new property names its type if that has to be written, and is not there for values of the default type otherwise. *)
Theorem C89_value_parameter : forall calls zero name v vt p w, ~ special name -> reg_make (after_calls calls) zero name v vt = Ok p -> pValue p = Some w ->
  (says_type calls name w -> exists n, value_param n (value_type w) /\ lookup (lit "VALUE") (pParams p) = [(lit "VALUE", [n])]) /\
  (default_of calls (upper name) (value_type w) -> ~ always calls (upper name) -> lookup (lit "VALUE") (pParams p) = []).
Proof. exact RegMakeProofs.reg_make_param. Qed.
Print Assumptions C89_value_parameter.
Example C89_value_parameter_ex : let w := Single (VInteger 12) in ~ special (lit "X-DAY") /\
  (exists p, reg_make (after_calls PropRegister.two_calls) 0 (lit "X-DAY") (PyInt 12) None = Ok p /\ pValue p = Some w /\ lookup (lit "VALUE") (pParams p) = [(lit "VALUE", [lit "INTEGER"])]) /\
  says_type PropRegister.two_calls (lit "X-DAY") w.
Proof.
  split; [intros [H|H]; vm_compute in H; discriminate H|]. split; [eexists; split; [vm_compute; reflexivity|split; reflexivity]|].
  split; [exists (lit "INTEGER"); constructor|]. left. exists T_DATE. split; [exact PropRegister.day_default|]. left. discriminate.
Qed.
(** Properties of other names are made as without the calls. *)
Theorem C89_others : forall calls zero name v vt, untouched calls name -> reg_make (after_calls calls) zero name v vt = make zero name v vt.
Proof. exact RegMakeProofs.reg_make_untouched. Qed.
Print Assumptions C89_others.
Example C89_others_ex : untouched [note_call] (lit "X-DAY") /\ made_line [note_call] (lit "X-DAY") (PyInt 12) = Ok (lit "X-DAY;VALUE=INTEGER:12").
Proof. split; [repeat constructor; vm_compute; discriminate|]. vm_compute. reflexivity. Qed.

(** ** What does not hold *)
(** Registering a name keeps the texts that properties of that name are made from: they are lost if the type holds no text. *)
Theorem C89_text_lost_refuted : exists calls name s, (exists t, default_of calls (upper name) t) /\
  made_line [] name (PyStr s) = Ok (lit "X-COUNT:12") /\ made_line calls name (PyStr s) = Ok (lit "X-COUNT:0").
Proof. exists PropRegister.two_calls, (lit "X-COUNT"), (lit "12"). split; [eexists; exact PropRegister.count_default|]. split; vm_compute; reflexivity. Qed.
Print Assumptions C89_text_lost_refuted.
