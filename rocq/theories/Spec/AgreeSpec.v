(** Specification for C110: units that agree in what a rating may depend on. *)
From Coq Require Import Reals.
From Verif.Base Require Import Num Res.
From Verif.Model Require Import Units Psychrometrics Conditions Defrost Fan Unit.

(** The attributes cooling may depend on: charge, staging, cycling, the cooling tables, coil
    data, fan and its rated pressure, stored conditions and the data of a RESNET model. *)
Definition cooling_alike (u u' : dxunit R) : Prop :=
  u_charge u' = u_charge u /\ u_staging u' = u_staging u /\ u_cycling u' = u_cycling u
  /\ u_c u' = u_c u /\ u_shr u' = u_shr u /\ u_bf u' = u_bf u /\ u_ntu u' = u_ntu u
  /\ u_fan u' = u_fan u /\ u_full_esp u' = u_full_esp u /\ u_conds u' = u_conds u /\ u_rn u' = u_rn u.

(** Those heating may depend on. *)
Definition heating_alike (u u' : dxunit R) : Prop :=
  u_charge u' = u_charge u /\ u_staging u' = u_staging u /\ u_cycling u' = u_cycling u
  /\ u_standard u' = u_standard u /\ u_heating_off u' = u_heating_off u
  /\ u_heating_on u' = u_heating_on u /\ u_defrost u' = u_defrost u
  /\ u_h u' = u_h u /\ u_fan u' = u_fan u /\ u_full_esp u' = u_full_esp u /\ u_conds u' = u_conds u /\ u_rn u' = u_rn u.
