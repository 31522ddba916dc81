(** Runs for property C73. *)
From Coq Require Import Floats List Bool String.
From Verif.Base Require Import Num Res FloatNum.
From Verif.Model Require Import Units Psychrometrics Conditions Fan Tabular Unit Resnet DXUnit RatingSolver.
From Verif.Validate Require Import FloatLib TestValues FanPressures.
Import ListNotations.
Set Warnings "-inexact-float".
Local Open Scope float_scope.

(** Numbers of a unit beside those it was made from: cooling capacity, EER, heating capacity. *)
Definition beside (r : res (dxunit float)) :=
  let vs (x : option float) (y : res float) := compare_pressure x (match y with Ok v => Some v | Err _ => None end) in
  match r with
  | Ok u => [vs (nth (sd_full (u_c u)) (map Some (sd_net_cap (u_c u))) None) (net_total_cooling_capacity fsol fM u None);
             vs (u_eer u) (eer fsol fM u None);
             vs (nth (sd_full (u_h u)) (map Some (sd_net_cap (u_h u))) None) (net_steady_state_heating_capacity fsol fM u None)]
  | Err _ => []
  end.
(** The two-stage unit of the tests moves less air in heating than in cooling, its variable-speed
    unit more at the boost speed than at full speed. *)
Example C73_missed_in_runs :
  beside two_speed = [Some Eq; Some Eq; Some Lt] /\ beside vchp = [Some Lt; Some Lt; Some Gt].
Proof. vm_compute. split; reflexivity. Qed.
