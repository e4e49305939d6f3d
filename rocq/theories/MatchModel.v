(** Matching by equality: componentbase.py:177-181 (removeProperty) and icalendar/recurrenceset.py:72-98 (equalsRules). *)
From Verif Require Export PyBase RecurModel PropertyModel ComponentModel.

Section Match.
Variable tzo : tzid -> Z -> Z -> Z -> Z -> Z -> Z -> bool -> bool -> Z.
Variable fl : floats.

(** mProperties[key] = l for a key that is there. *)
Fixpoint put_props (key : bytes) (l : list prop) (ps : props) : props :=
  match ps with
  | [] => []
  | (k, m) :: r => if beq k key then (k, l) :: r else (k, m) :: put_props key l r
  end.
(** list.remove(prop), componentbase.py:179: the first element that is the object itself or that is equal to it.  obj is the place of
    the object itself in the list, if it is there; i counts the places. *)
Fixpoint take_out (obj : option nat) (p : prop) (i : nat) (l : list prop) : res (list prop) :=
  match l with
  | [] => Raise ValueError
  | x :: r =>
    if match obj with Some j => Nat.eqb i j | None => false end then Ok r
    else do b <- prop_eq tzo fl x p;
         if b then Ok r else do r' <- take_out obj p (S i) r; Ok (x :: r')
  end.
(** componentbase.py:177-181. *)
Definition removeProperty (obj : option nat) (p : prop) (ps : props) : res props :=
  let key := upper (pName p) in
  match assoc key ps with
  | None => Ok ps
  | Some l =>
    do l' <- take_out obj p 0 l;
    Ok (match l' with [] => removeProperties key ps | _ => put_props key l' ps end)
  end.

(** temp2.remove(r2), recurrenceset.py:91, when r2 is the element after those of pre and before those of t. *)
Fixpoint remove_rule (r2 : rule) (pre t : list rule) : res (list rule) :=
  match pre with
  | [] => Ok t
  | x :: r => do b <- rule_equals tzo x r2; if b then Ok (r ++ r2 :: t) else do r' <- remove_rule r2 r t; Ok (x :: r')
  end.
(** recurrenceset.py:87-93: the rules left when one equal to r1 has been found; pre are those passed. *)
Fixpoint find_rule (r1 : rule) (pre l : list rule) : res (option (list rule)) :=
  match l with
  | [] => Ok None
  | r2 :: t =>
    do b <- rule_equals tzo r1 r2;
    if b then do m <- remove_rule r2 pre t; Ok (Some m) else find_rule r1 (pre ++ [r2]) t
  end.
(** recurrenceset.py:85-98. *)
Fixpoint match_rules (l temp : list rule) : res bool :=
  match l with
  | [] => Ok true
  | r1 :: r => do m <- find_rule r1 [] temp; match m with Some t => match_rules r t | None => Ok false end
  end.
(** recurrenceset.py:72-98. *)
Definition equalsRules (a b : list rule) : res bool :=
  if negb (Nat.eqb (List.length a) (List.length b)) then Ok false
  else match a with [] => Ok true | _ => match_rules a b end.
End Match.
