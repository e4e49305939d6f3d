(** Model of functions that nothing in the library calls: strindexfind and strnindexfind (/repo/src/pycalendar/stringutils.py:68-89) and ComponentBase.loadPrivateValue
    (/repo/src/pycalendar/componentbase.py:639-645).  Definitions only.

    Simplifications.  Texts are bytes; the lists have texts and None.  The names of properties are in upper case already. *)
From Verif Require Import PyBase ComponentModel.

(** stringutils.py:72-75, 84-87: the loop, where [hit] is the test. *)
Fixpoint index_loop (hit : bytes -> bool) (i : Z) (ss : list (option bytes)) (default : Z) : res Z :=
  match ss with
  | [] => Raise IndexError
  | None :: _ | Some [] :: _ => Ok default
  | Some x :: r => if hit x then Ok i else index_loop hit (i + 1) r default
  end.
(** stringutils.py:68-77. *)
Definition strindexfind (s : option bytes) (ss : option (list (option bytes))) (default : Z) : res Z :=
  match s, ss with
  | Some (c :: t), Some (x :: r) => index_loop (fun e => beq (upper (c :: t)) e) 0 (x :: r) default
  | _, _ => Ok default
  end.
(** stringutils.py:80-89. *)
Definition strnindexfind (s : option bytes) (ss : option (list (option bytes))) (default : Z) : res Z :=
  match s, ss with
  | Some (c :: t), Some (x :: r) => index_loop (fun e => startswith (upper (c :: t)) e) 0 (x :: r) default
  | _, _ => Ok default
  end.
(** componentbase.py:639-645: the result and the properties afterwards. *)
Definition loadPrivateValue (name : bytes) (ps : props) : option bytes * props :=
  match loadString name ps with
  | Some v => (Some v, removeProperties name ps)
  | None => (None, ps)
  end.
