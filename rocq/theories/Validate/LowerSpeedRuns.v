(** Runs for property C83. *)
From Coq Require Import Floats List Bool String.
From Verif.Base Require Import Num Res FloatNum.
From Verif.Model Require Import Units Psychrometrics Defrost Fan Tabular Unit Resnet DXUnit RatingSolver.
From Verif.Validate Require Import FloatLib TestValues.
Import ListNotations.
Set Warnings "-inexact-float".
Local Open Scope float_scope.

(** A two-stage unit given two capacities in each list is built; given one, IndexError is raised. *)
Definition two_stage_of (cc hc : list float) :=
  let d := args (Some TWO_STAGE) AHRI_210_240_2023 (Some 17) (Some 12) (Some 10) [] in
  DXUnit fpsy fsol fM
    (mkArgs (a_staging d) (Many cc) (a_gross_ccop d) (Some (Many [4; 4.5])) (a_cflow d)
      (a_cd_c d) (a_cooling_off d) (Some (Many hc)) (a_gross_hcop d) (Some (Many [4; 4.2]))
      (a_hflow d) (a_cd_h d) (a_heating_off d) (a_heating_on d) (a_defrost d)
      (a_fan d) (a_hfan_speed d) (a_cfan_speed d) (a_rated_hfan_speed d)
      (a_rated_cfan_speed d) (a_crank d) (a_crank_setpoint d) (a_charge d)
      (a_cycling d) (a_cfull d) (a_cint d) (a_hfull d) (a_hint d) (a_ducted d)
      (a_standard d) (a_seer d) (a_eer d) (a_hspf d) (a_kwargs d)).
Example C83_two_stage_runs :
  match two_stage_of [10000; 7000] [9000; 6000] with
  | Ok u => u_staging u = TWO_STAGE /\ List.length (sd_gross_cap (u_c u)) = 2%nat
  | Err _ => False
  end
  /\ match two_stage_of [10000] [9000] with Ok _ => False | Err e => e = IndexError end.
Proof. vm_compute. repeat split. Qed.
