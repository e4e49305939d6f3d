(** What C85 says: parameters by name. *)
From Verif Require Export ParamModel PropertySpec.

(** The parameters under each key. *)
Definition view : Set := bytes -> list param.
Definition at_key (k : bytes) (l : list param) (f : view) : view := fun k' => if beq k' k then l else f k'.
(** The list without the first v. *)
Fixpoint without (v : bytes) (l : list bytes) : list bytes :=
  match l with [] => [] | x :: r => if beq x v then r else x :: without v r end.
Definition first_changed (f : param -> param) (l : list param) : list param :=
  match l with [] => [] | a :: r => f a :: r end.
(** What each call does to them: names are the same in upper and lower case. *)
Definition effect (f : view) (e : pedit) : view :=
  match e with
  | AddP a => at_key (upper (fst a)) (f (upper (fst a)) ++ [a]) f
  | ReplaceP a => at_key (upper (fst a)) [a] f
  | RemoveP n => at_key (upper n) [] f
  | SetP l => fun k => match find (fun kv => beq (upper (fst kv)) k) l with Some kv => snd kv | None => [] end
  | SetName n m => at_key (upper n) (first_changed (fun a => (m, snd a)) (f (upper n))) f
  | SetValues n l => at_key (upper n) (first_changed (fun a => (fst a, l)) (f (upper n))) f
  | AddValue n v => at_key (upper n) (first_changed (fun a => (fst a, snd a ++ [v])) (f (upper n))) f
  | RemoveValue n v => at_key (upper n) (first_changed (fun a => (fst a, without v (snd a))) (f (upper n))) f
  end.
(** A dict given to setParameters: keys that differ in more than case, and no empty lists. *)
Definition sound (e : pedit) : Prop :=
  match e with SetP l => NoDup (map (fun kv => upper (fst kv)) l) /\ Forall (fun kv => snd kv <> []) l | _ => True end.
(** The dict of a property. *)
Definition dict_ok (ps : params) : Prop := NoDup (map fst ps) /\ Forall (fun kv => snd kv <> []) ps.
(** The name that a call is about. *)
Definition about (k : bytes) (e : pedit) : Prop :=
  match e with
  | AddP a | ReplaceP a => upper (fst a) = k
  | RemoveP n | SetName n _ | SetValues n _ | AddValue n _ | RemoveValue n _ => upper n = k
  | SetP _ => False
  end.
