(** Vocabulary for statements about formats that are given by name. *)
From Verif Require Import PyBase JsonModel JsonSpec.

(** JSON text that is written for j is read as j, up to the order of the members of objects. *)
Definition json_kept (loads : bytes -> option json) (dumps : json -> res bytes) (j : json) : Prop :=
  exists s j', dumps j = Ok s /\ loads s = Some j' /\ reordered j j'.
(** The names of the two formats of a class: its media type for text, or none at all; and its media type for JSON. *)
Definition text_name (media : string) (f : option bytes) : Prop := f = None \/ f = Some (lit media).
Definition json_name_of (media : string) (f : option bytes) : Prop := f = Some (lit media).
Definition other_name (text_media json_media : string) (f : option bytes) : Prop := ~ text_name text_media f /\ ~ json_name_of json_media f.
