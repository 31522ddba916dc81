(** Reading the second part of property C52. *)
From Coq Require Import List.
From Verif.Model Require Import Idf.

(** Field [g] follows field [f]. *)
Definition next_in {T} (l : list (idf_field T)) (f g : idf_field T) : Prop :=
  exists pre post, l = (pre ++ f :: g :: post)%list.
