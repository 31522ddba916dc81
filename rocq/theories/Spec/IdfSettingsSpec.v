(** The fan and coil settings of an EnergyPlus export (C80, C81). *)
From Coq Require Import QArith Reals List String.
From Verif.Base Require Import Num Res.
From Verif.Model Require Import Units Util Psychrometrics Conditions Defrost Fan Tabular Unit
  DXUnit Idf.
From Verif.Spec Require Import UnitSpec FanSpec IdfSpec IdfPerfSpec.
Import ListNotations.
Local Open Scope string_scope.
Local Open Scope R_scope.

(** A size: left to EnergyPlus, or the value itself. *)
Definition size_field (autosize : bool) (x : R) : idf_value R :=
  if autosize then VText "Autosize" else VNum 2 x.

(** The fan's speeds from the smallest to the largest free airflow. *)
Definition slowest_to_fastest (sol : solvers R) (f : fan R) (order : list nat) : Prop :=
  exists q, (forall i, (i < f_n f)%nat -> airflow sol f i (Some 0) = Ok (q i)) /\
    orders_by q (f_n f) order.

Definition coil_class (m : mode) : string := "Coil:" ++ mode_name m ++ ":DX:VariableSpeed".

(** The rated condition of full speed, and what a coil is sized by there. *)
Definition size_condition (m : mode) (u : dxunit R) : option (cond R) :=
  match m with Cooling => rc_A_full (u_conds u) | Heating => rc_H1_full (u_conds u) end.
Definition coil_capacity (M : dxmodel R) (m : mode) (u : dxunit R) (c : cond R) : res R :=
  match m with
  | Cooling => gross_total_cooling_capacity M u (Some c)
  | Heating => gross_steady_state_heating_capacity M u (Some c)
  end.
Definition capacity_field (m : mode) : string :=
  match m with
  | Cooling => "Gross Rated Total Cooling Capacity at Selected Nominal Speed Level"
  | Heating => "Gross Rated Heating Capacity at Selected Nominal Speed Level"
  end.

(** Gross cooling COP at full speed with 70/60 °F air indoors and 60/48 °F outdoors. *)
Definition cop_at_60 (psy : psychro R) (M : dxmodel R) (u : dxunit R) (cop : R) : Prop :=
  exists i o c, PsychState psy (deg_F 70) atm [("wetbulb", deg_F 60)] = Ok i /\
    PsychState psy (deg_F 60) atm [("wetbulb", deg_F 48)] = Ok o /\
    make_condition psy Cooling u 0 (Some i) (Some o) = Ok c /\
    gross_total_cooling_cop M u (Some c) = Ok cop.
