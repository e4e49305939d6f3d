(** Reading the JSON form of properties with registered names: what of property.py:422-472 reads the table of registerDefaultValue.  Writing JSON
    (474-502) does not read it: JsonModel.prop_writeJSON.  Definitions only. *)
From Verif Require Export RegisterModel JsonModel.

Section Read.
Variable g : registry.
Variable ctx : pctx.
Variable fl : floats.
Variable nm : jnums.
(** property.py:432-469, as JsonModel.prop_read. *)
Definition reg_read (j : json) : res prop :=
  match j with
  | JArr (jname :: jparams :: jtype :: values) =>
    do n <- jencode jname;
    let name := upper n in
    do ps <- params_parseJSON nm jparams;
    do tn <- match jtype with JText s => Ok s | _ => Raise AttributeError end;
    do tu <- uupper tn;
    let value_type := match assoc tu value_types with Some t => t | None => T_UNKNOWN end in
    let default_type := match assoc (upper name) (gTypes g) with Some t => t | None => T_UNKNOWN end in
    let ps := if veqb default_type value_type then ps else add_param (lit "VALUE") (lit "VALUE", [upper tn]) ps in
    do t <- reg_type g name ps;
    do v <- (if is_multi name then do l <- map_r (item_parseJSON ctx fl nm t) values; Ok (Multi t l)
             else match values with
                  | j :: _ => do i <- item_parseJSON ctx fl nm t j; Ok (Single i)
                  | [] => Raise IndexError
                  end);
    do v <- postCreateValue t ps v;
    Ok (mkProp name ps (Some v))
  | _ => Raise TypeError
  end.
(** property.py:422-472. *)
Definition reg_parseJSON (j : json) : res prop :=
  match reg_read j with
  | Raise RuntimeError => Raise RuntimeError
  | Raise _ => Raise InvalidProperty
  | x => x
  end.
End Read.
