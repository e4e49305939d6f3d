(** Property.setValue with registered names: property.py:552-573 with the table of registerDefaultValue.  Definitions only. *)
From Verif Require Export SetValueModel RegisterModel.

Section Registry.
Variable g : registry.
(** property.py:557-561, as SetValueModel.set_type. *)
Definition rs_type (name : bytes) (ps : params) : res vtype :=
  let dflt := match assoc (upper name) (gTypes g) with Some t => t | None => T_TEXT end in
  match assoc (lit "VALUE") ps with
  | None => Ok dflt
  | Some l => do v <- first_value l; Ok (match assoc v value_types with Some t => t | None => dflt end)
  end.
(** property.py:552-573, as SetValueModel.setValue. *)
Definition reg_setValue (p : prop) (v : pyvalue) : setting :=
  let has w := mkProp (pName p) (pParams p) w in
  match rs_type (pName p) (pParams p) with
  | Raise e => Failed (has None) e
  | Ok t =>
    let post w := match postCreateValue t (pParams p) w with
                  | Ok w' => SetTo (has (Some w')) (left_with v w')
                  | Raise e => Failed (has (Some w)) e
                  end in
    if is_multi (pName p) then
      match v with
      | PyOther => Mistyped
      | _ => match elements v with
             | None => Failed (has (Some (Multi t []))) TypeError
             | Some l => match set_items t l with Some m => post (Multi t m) | None => Mistyped end
             end
      end
    else match set_item t v with Some i => post (Single i) | None => Mistyped end
  end.
End Registry.
