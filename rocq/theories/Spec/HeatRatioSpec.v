(** Vocabulary of C100: ratios of integrated to steady-state heating. *)
From Coq Require Import Reals.
From Verif.Base Require Import Num Res.
From Verif.Model Require Import Conditions Fan Unit DXUnit.
Local Open Scope R_scope.

(** Whichever of the four ratios can be computed is 1. *)
Definition all_ratios_one sol M (u : dxunit R) k := forall r,
  (gross_heating_capacity_ratio M u k = Ok r -> r = 1) /\ (net_heating_capacity_ratio sol M u k = Ok r -> r = 1)
  /\ (gross_heating_power_ratio M u k = Ok r -> r = 1) /\ (net_heating_power_ratio sol M u k = Ok r -> r = 1).

(** Net capacity at 35 F on the straight line from 17 F to 47 F. *)
Definition clear35 (q17 q47 : R) : R := q17 + (35 - 17) / (47 - 17) * (q47 - q17).
