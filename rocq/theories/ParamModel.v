(** The parameters of a property, edited: property.py:122-145 and parameter.py:30-75.  Each Parameter object and
    each list given to a call is one that no other call has been given (the objects are kept, not copied). *)
From Verif Require Export PyBase LineModel PropertyModel.

(** mParameters[key] = l, for a dict in order of insertion. *)
Fixpoint put_param (key : bytes) (l : list param) (ps : params) : params :=
  match ps with
  | [] => [(key, l)]
  | (k, m) :: r => if beq k key then (k, l) :: r else (k, m) :: put_param key l r
  end.
(** property.py:138: addParameter. *)
Definition addParameter (a : param) (ps : params) : params := add_param (upper (fst a)) a ps.
(** property.py:141: replaceParameter. *)
Definition replaceParameter (a : param) (ps : params) : params := put_param (upper (fst a)) [a] ps.
(** property.py:143-145: removeParameters. *)
Definition removeParameters (n : bytes) (ps : params) : params := del_param (upper n) ps.
(** property.py:125-126: setParameters, with a dict whose items are l in that order. *)
Definition setParameters (l : params) : params := fold_left (fun ps kv => put_param (upper (fst kv)) (snd kv) ps) l [].
(** property.py:128-129: hasParameter. *)
Definition hasParameter (n : bytes) (ps : params) : bool := match assoc (upper n) ps with Some _ => true | None => false end.
(** property.py:131-135: the object mParameters[attr.upper()][0]. *)
Definition first_param (n : bytes) (ps : params) : res param :=
  match assoc (upper n) ps with
  | None => Raise KeyError
  | Some [] => Raise IndexError
  | Some (a :: _) => Ok a
  end.
(** property.py:131-132 with parameter.py:61-62. *)
Definition getParameterValue (n : bytes) (ps : params) : res bytes :=
  do a <- first_param n ps; match snd a with v :: _ => Ok v | [] => Raise IndexError end.
(** property.py:134-135 with parameter.py:64-65. *)
Definition getParameterValues (n : bytes) (ps : params) : res (list bytes) := do a <- first_param n ps; Ok (snd a).

(** list.remove(v), parameter.py:74. *)
Fixpoint remove_first (v : bytes) (l : list bytes) : res (list bytes) :=
  match l with
  | [] => Raise ValueError
  | x :: r => if beq x v then Ok r else do r' <- remove_first v r; Ok (x :: r')
  end.
(** The object mParameters[attr.upper()][0] changed by f: it is the one that the dict holds. *)
Definition on_first (n : bytes) (f : param -> res param) (ps : params) : res params :=
  do a <- first_param n ps; do b <- f a;
  Ok (match assoc (upper n) ps with Some (_ :: r) => put_param (upper n) (b :: r) ps | _ => ps end).

(** The calls on a property, and on the first parameter that it has under a name: parameter.py:58-59, 67-68, 70-71, 73-75. *)
Inductive pedit : Set :=
| AddP (a : param) | ReplaceP (a : param) | RemoveP (n : bytes) | SetP (l : params)
| SetName (n m : bytes) | SetValues (n : bytes) (l : list bytes) | AddValue (n v : bytes) | RemoveValue (n v : bytes).
Definition pedit_run (e : pedit) (ps : params) : res params :=
  match e with
  | AddP a => Ok (addParameter a ps)
  | ReplaceP a => Ok (replaceParameter a ps)
  | RemoveP n => Ok (removeParameters n ps)
  | SetP l => Ok (setParameters l)
  | SetName n m => on_first n (fun a => Ok (m, snd a)) ps
  | SetValues n l => on_first n (fun a => Ok (fst a, l)) ps
  | AddValue n v => on_first n (fun a => Ok (fst a, snd a ++ [v])) ps
  | RemoveValue n v => on_first n (fun a => do l <- remove_first v (snd a); Ok (fst a, l)) ps
  end.
(** A list of calls; one that raises an exception changes nothing and is passed over. *)
Definition pedits (es : list pedit) (ps : params) : params :=
  fold_left (fun ps e => match pedit_run e ps with Ok qs => qs | Raise _ => ps end) es ps.
(** The property after the calls. *)
Definition edited (es : list pedit) (p : prop) : prop := mkProp (pName p) (pedits es (pParams p)) (pValue p).
