(** Specification for C109: units that differ in their defrost control settings. *)
From Coq Require Import Reals List.
From Verif.Base Require Import Num Res.
From Verif.Model Require Import Units Psychrometrics Conditions Defrost Fan Unit NREL BaseModel Title24 Resnet DXUnit.
Import ListNotations.
Local Open Scope R_scope.

(** [u] after assigning control, test period and longest time between defrosts (seconds)
    of [u.defrost]. *)
Definition controlled (k : defrost_control) (period longest : R) (s : dxunit R) : dxunit R :=
  let d := u_defrost s in
  mkUnit (u_kwargs s) (u_seer s) (u_eer s) (u_hspf s) (u_hcop s) (u_cycling s)
    (u_ducted s) (u_cooling_off s)
    (mkDefrost (df_time_fraction d) (df_resistive_power d) k (df_strategy d)
       (df_high_temperature d) (df_low_temperature d) period longest)
    (u_crank_setpoint s)
    (u_standard s) (u_charge s) (u_staging s) (u_heating_off s)
    (u_heating_on s) (u_c s) (u_h s) (u_shr s) (u_bf s) (u_ntu s)
    (u_full_esp s) (u_fan s) (u_crank s) (u_conds s) (u_rn s).

(** The AHRI 210/240 credit, times in minutes. *)
Definition credit_of (period longest : R) : R :=
  1 + 0.03 * (1 - (Rmax period 90 - 90) / (Rmin longest 720 - 90)).

(** The models other than NREL's. *)
Definition not_nrel (psy : psychro R) (sol : solvers R) (M : dxmodel R) : Prop :=
  In M [BaseDXModel; ConstantDXModel; CarrierDefrostModel; Title24DXModel sol; RESNETDXModel psy sol].
