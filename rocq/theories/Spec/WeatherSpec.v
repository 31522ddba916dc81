(** Specification for C106: conditions that differ in one respect. *)
From Coq Require Import Reals List.
From Verif.Base Require Import Num Res.
From Verif.Model Require Import Units Psychrometrics Conditions Defrost Fan Unit NREL BaseModel Resnet.
Local Open Scope R_scope.

(** A correctly charged unit whose performance is that of the NREL curves: with the NREL
    model, or the RESNET model without tables. *)
Definition by_curves (psy : psychro R) (sol : solvers R) (M : dxmodel R) (u : dxunit R) : Prop :=
  u_charge u = 0
  /\ (M = NRELDXModel psy sol \/ M = RESNETDXModel psy sol /\ rn_net (u_rn u) = None).

(** Fahrenheit *)
Definition F_of (t : R) : R := t * 1.8 - 459.67.
Definition out_F (c : cond R) : R := F_of (ps_db (c_outdoor c)).
Definition in_F (c : cond R) : R := F_of (ps_db (c_indoor c)).

(** Speed [i] of that side of the unit has a positive rated gross capacity and COP. *)
Definition rated_at (s : side R) (i : nat) (q cop : R) : Prop :=
  nth_error (sd_gross_cap s) i = Some (Some q) /\ 0 < q
  /\ nth_error (sd_gross_cop s) i = Some (Some cop) /\ 0 < cop.

(** Alike for cooling but for the outdoor temperature and the airflow: the same speed and
    indoor wet bulb temperature, airflow ratios [r] and [r']. *)
Definition same_indoors (c c' : cond R) (r r' : R) : Prop :=
  c_speed c = c_speed c' /\ ps_wb (c_indoor c) = ps_wb (c_indoor c') /\ ps_wb (c_indoor c) <> None
  /\ c_mass_airflow_ratio c = Some r /\ c_mass_airflow_ratio c' = Some r'.
