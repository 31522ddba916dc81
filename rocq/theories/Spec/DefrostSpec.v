(** Specifications for defrost (C09, C10). *)
From Coq Require Import Reals.
From Verif.Base Require Import Num Res.
From Verif.Model Require Import Conditions Defrost.
Local Open Scope R_scope.

(** The outdoor temperatures at which defrost can take place. *)
Definition defrost_window (d : defrost R) (odb : R) : Prop :=
  df_strategy d <> DSNone
  /\ odb < df_high_temperature d
  /\ (forall low, df_low_temperature d = Some low -> low < odb).

(** Times are in seconds: 90 min = 5400 s, 720 min = 43200 s. *)
Definition min90 : R := 5400.
Definition min720 : R := 43200.
