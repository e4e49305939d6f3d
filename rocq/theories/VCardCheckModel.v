(** Model of validation and of duplicates of vCards: /repo/src/pycalendar/componentbase.py:56-66, 199-262, containerbase.py:64-76, validation.py:33-43,
    vcard/validation.py, the tables of vcard/card.py:39-55.  Cards are those of VCardModel.v.  Definitions only. *)
From Verif Require Export VCardModel ValidateModel.

(** card.py:39-53; propertyCardinality_1_Fix_Empty is empty (componentbase.py:32). *)
Definition card_1 : list bytes := [lit "VERSION"; lit "N"].
Definition card_0_1 : list bytes := [lit "BDAY"; lit "PRODID"; lit "REV"; lit "UID"].
Definition card_1_More : list bytes := [lit "FN"].
(** componentbase.py:174-175. *)
Definition card_count (name : bytes) (ps : cprops) : nat := List.length (card_get (upper name) ps).
(** "[%s] ..." % (self.getType(), ...), card.py:60-61. *)
Definition card_msg (text name : bytes) : bytes := lit "[" ++ lit "VCARD" ++ lit "] " ++ text ++ lit ": " ++ name.
(** componentbase.py:233-237, 252-256, 258-262. *)
Definition card_check_1 (ps : cprops) : list bytes :=
  map (card_msg (lit "Missing or too many required property")) (filter (fun n => negb (card_count n ps =? 1)%nat) card_1).
Definition card_check_0_1 (ps : cprops) : list bytes :=
  map (card_msg (lit "Too many properties present")) (filter (fun n => (1 <? card_count n ps)%nat) card_0_1).
Definition card_check_1_More (ps : cprops) : list bytes :=
  map (card_msg (lit "Missing required property")) (filter (fun n => negb (0 <? card_count n ps)%nat) card_1_More).
(** validation.py:36-43: the values of the classes that are derived from PlainTextValue; None has no lower(). *)
Definition card_stringValue (text : bytes) (v : option cvalue) : res bool :=
  match v with
  | Some (CSingle (CItem (VText t))) => Ok (beq (lower t) (lower text))
  | Some (CSingle (CItem (VPlain _ o))) | Some (CSingle (CItem (VUri o))) =>
    match o with Some t => Ok (beq (lower t) (lower text)) | None => Raise AttributeError end
  | _ => Ok false
  end.
(** vcard/validation.py:20-23. *)
Definition card_value_checks : list (bytes * (option cvalue -> res bool)) :=
  [(lit "VERSION", card_stringValue (lit "3.0")); (lit "PROFILE", card_stringValue (lit "VCARD"))].
(** componentbase.py:215-223. *)
Fixpoint card_check_values (l : list cprop) : res (list bytes) :=
  match l with
  | [] => Ok []
  | p :: r =>
    match assoc (upper (cpName p)) card_value_checks with
    | None => card_check_values r
    | Some f => do b <- f (cpValue p); do u <- card_check_values r;
                Ok (if b then u else card_msg (lit "Property value incorrect") (upper (cpName p)) :: u)
    end
  end.

(** The order in which mProperties.values() gives the lists (componentbase.py:216). *)
Section WithOrder.
Variable order : list (list cprop) -> list (list cprop).

(** componentbase.py:199-231 for a card, which has no components: nothing can be fixed and nothing is changed. *)
Definition card_report (doFix : bool) (ps : cprops) : res report :=
  do u <- card_check_values (List.concat (order (map snd ps)));
  Ok ([], card_check_1 ps ++ card_check_0_1 ps ++ card_check_1_More ps ++ u).
(** containerbase.py:64-76; the text of the exception is left out. *)
Definition card_validate (doFix doRaise : bool) (ps : cprops) : res report :=
  do r <- card_report doFix ps;
  if doRaise && negb (match snd r with [] => true | _ => false end) then Raise ValidationError else Ok r.
End WithOrder.

(** componentbase.py:56-66, containerbase.py:55-56, card.py:57-58: the default properties of the new card are dropped. *)
Definition card_duplicate (ps : cprops) : res cprops :=
  map_r (fun kl => do l <- map_r cprop_duplicate (snd kl); Ok (fst kl, l)) ps.
