(** What the theorems about setting the value of properties with registered names are stated with. *)
From Verif Require Import RegSetModel.
From Verif Require Export RegisterSpec SetValueSpec.

(** As SetValueSpec.fits, with the registered names; fits_one and fits_list are from there. *)
Definition reg_fits (calls : list registration) (ctx : pctx) (z : option bytes) (p : prop) (v : pyvalue) : Prop :=
  ~ structured_name (pName p) /\
  exists t, reg_typed calls (pName p) (pParams p) t /\ (t = T_TEXT -> exists d, default_of calls (upper (pName p)) d) /\
    (listed (pName p) /\ SetValueSpec.fits_list ctx z t v \/ ~ listed (pName p) /\ fits_one ctx z t v).
