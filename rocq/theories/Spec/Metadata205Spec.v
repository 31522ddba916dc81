(** Specifications for the metadata of 205 representations (C88). *)
From Coq Require Import ZArith String.
From Verif.Model Require Import Metadata205.

(** Two metadata dictionaries that differ at most in the time of generation. *)
Definition same_but_time (a b : doc_meta) : Prop :=
  dm_schema a = dm_schema b /\ dm_description a = dm_description b /\ dm_id a = dm_id b
  /\ dm_version a = dm_version b /\ dm_source a = dm_source b /\ dm_notes a = dm_notes b.

(** ... or in the time and the identifier. *)
Definition same_but_time_and_id (a b : doc_meta) : Prop :=
  dm_schema a = dm_schema b /\ dm_description a = dm_description b
  /\ dm_version a = dm_version b /\ dm_source a = dm_source b /\ dm_notes a = dm_notes b.

(** What the user chose, as opposed to what generation fills in. *)
Definition user_entries_kept (m m' : metadata) : Prop :=
  md_source m' = md_source m /\ md_notes m' = md_notes m /\ md_version m' = md_version m
  /\ (md_description m <> ""%string -> md_description m' = md_description m)
  /\ (forall z, md_seed m = Some z -> md_seed m' = Some z).
