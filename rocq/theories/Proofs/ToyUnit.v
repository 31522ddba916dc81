(** Concrete units and conditions for the examples beside the theorems. *)
From Coq Require Import Reals Lra List.
From Verif.Base Require Import Num Res Tac.
From Verif.Model Require Import Units Psychrometrics Conditions Defrost Fan Tabular Unit.
From Verif.Props Require Import P_Psych.
Import ListNotations.
Local Open Scope R_scope.

Definition toy_side (net gross w ncop npow gpow gcop flow : list R) : side R :=
  let n := length net in
  mkSide n 0 None 0 None net (map Some gross) (map Some w) (map Some ncop)
    (map Some npow) (map Some gpow) (map Some gcop) (map Some flow)
    (map (fun _ => Some 50) net)
    (Some (map Some (seq 0 n))) (Some (map Some (seq 0 n))) None [] 0.25.

(** A constant-efficacy fan with flows 1 and 1/2 m3/s, 300 W/(m3/s). *)
Definition toy_fan : fan R :=
  mkFan ConstantEfficacyFan 125 (EffList [300; 300]) 2 [1; 0.5] [1; 0.5] 125 0
    [] [] [] [] [] 0 [] None None None.

Definition toy_conds : rconds R :=
  mkConds None None None None None None None None None None None None None None
    None None None.

Definition toy_defrost (ctl : defrost_control) (st : defrost_strategy) : defrost R :=
  mkDefrost default_time_fraction 500 ctl st 278 None 5400 43200.

Definition toy_rn : resnet_data R := mkRn None None None None None None None.

(** A single-speed unit: 10 kW, gross 10.3 kW, fan 300 W. *)
Definition toy_unit (charge : R) (d : defrost R) : dxunit R :=
  mkUnit [] (Some 14) (Some 12) (Some 8) None BETWEEN_LOW_FULL true 325 d 283
    AHRI_210_240_2023 charge SINGLE_STAGE 240 None
    (toy_side [10000] [10300] [300] [4] [2500] [2200] [103 / 22] [1])
    (toy_side [10000] [9700] [300] [4] [2500] [2200] [97 / 22] [1])
    [None] [None] [None] (Some 125) (Some toy_fan) (Some 0) toy_conds toy_rn.

(** Indoor and outdoor dry bulb, indoor wet bulb (K), mass airflow ratio. *)
Definition toy_cond (idb iwb odb r : R) : cond R :=
  mkCond (psych_wetbulb odb 101325 odb) (psych_wetbulb idb 101325 iwb) 0 true (Some 125)
    (Some 0%nat) (Some 10000) (Some 1) (Some 1) (Some 1.2) (Some r) (Some (r * 1.2))
    (Some r) (Some r) (Some (r / 10000)) (Some (125 * (r * r))).

Ltac toy := cbn [toy_unit toy_cond toy_side u_c u_h u_charge u_defrost c_speed c_indoor
  c_outdoor c_mass_airflow_ratio sd_gross_cap sd_gross_cop sd_net_cap sd_fan_power
  ps_wb ps_db psych_wetbulb map nth_error].
