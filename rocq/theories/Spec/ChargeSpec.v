(** Specification for C105: units that differ in their refrigerant charge. *)
From Coq Require Import Reals.
From Verif.Base Require Import Num Res.
From Verif.Model Require Import Units Psychrometrics Conditions Defrost Fan Unit.
Local Open Scope R_scope.

(** [u] after [u.refrigerant_charge_deviation = f]; [f] is the deviation from the
    correct charge, a fraction of it (negative: undercharged). *)
Definition charged (f : R) (s : dxunit R) : dxunit R :=
  mkUnit (u_kwargs s) (u_seer s) (u_eer s) (u_hspf s) (u_hcop s) (u_cycling s)
    (u_ducted s) (u_cooling_off s) (u_defrost s) (u_crank_setpoint s)
    (u_standard s) f (u_staging s) (u_heating_off s)
    (u_heating_on s) (u_c s) (u_h s) (u_shr s) (u_bf s) (u_ntu s)
    (u_full_esp s) (u_fan s) (u_crank s) (u_conds s) (u_rn s).

(** Rated airflow, and indoor and outdoor dry bulb temperatures (C) in the given ranges. *)
Definition weather (c : cond R) (i0 i1 o0 o1 : R) : Prop :=
  c_mass_airflow_ratio c = Some 1
  /\ i0 <= ps_db (c_indoor c) - 273.15 <= i1 /\ o0 <= ps_db (c_outdoor c) - 273.15 <= o1.
