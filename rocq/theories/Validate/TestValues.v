(** The model run on floats, compared with the values asserted by
    /repo/test.  This is evidence that the definitions in Model/ transcribe the
    code; no property theorem uses it. *)
From Coq Require Import Floats QArith List String.
From Verif.Base Require Import Num Res FloatNum.
From Verif.Model Require Import Units Psychrometrics Defrost Fan Tabular Unit Resnet
  DXUnit RatingSolver.
From Verif.Validate Require Import FloatLib.
Import ListNotations.
Set Warnings "-inexact-float".
Local Open Scope float_scope.

Definition fpsy := float_psychro.
Definition fsol := float_solvers.
Definition fM := RESNETDXModel fpsy fsol.

(** [x == approx(y, tol)] of pytest (relative tolerance, and 1e-12 absolute). *)
Definition approx (y tol x : float) : bool :=
  (fabs (x - y) <=? tol * fabs y) || (fabs (x - y) <=? 1e-12).
Definition rapprox (y tol : float) (x : res float) : bool :=
  match x with Ok x => approx y tol x | Err _ => false end.
Definition oapprox (y tol : float) (x : option (option float)) : bool :=
  match x with Some (Some x) => approx y tol x | _ => false end.
Definition on_ok {A} (r : res A) (f : A -> bool) : bool :=
  match r with Ok a => f a | Err _ => false end.
Definition rnth {A} (l : list (option A)) (i : nat) : res A :=
  match nth_error l i with Some (Some x) => Ok x | _ => Err IndexError end.
Definition same (tol : float) (x y : res float) : bool :=
  match y with Ok y => rapprox y tol x | Err _ => false end.

Definition solver_defaults (st : staging_type) (s h : float) (v : ahri_version)
    : solver_inputs :=
  mkInputs st s h None (fr_ton 3) None 0.63 None (fr_F 125) (fr_F 40) v.

Definition args (st : option staging_type) (v : ahri_version) (s e h : option float)
    (kw : list (string * kwval float)) : dxargs float :=
  let d : dxargs float := default_args in
  mkArgs st (a_ccap d) (a_gross_ccop d) (a_net_ccop d) (a_cflow d) (a_cd_c d)
    (a_cooling_off d) (a_hcap d) (a_gross_hcop d) (a_net_hcop d) (a_hflow d)
    (a_cd_h d) (a_heating_off d) (a_heating_on d) (a_defrost d)
    (a_fan d) (a_hfan_speed d) (a_cfan_speed d) (a_rated_hfan_speed d)
    (a_rated_cfan_speed d) (a_crank d) (a_crank_setpoint d) (a_charge d)
    (a_cycling d) (a_cfull d) (a_cint d) (a_hfull d) (a_hint d) (a_ducted d)
    v s e h kw.

Definition one_speed : res (dxunit float) := Eval vm_compute in
  make_rating_unit fpsy fsol (solver_defaults SINGLE_STAGE 13 8 AHRI_210_240_2017).

(** test_resdx.py:27-53 *)
Example test_1_speed_regression :
  on_ok one_speed (fun u =>
    same 0.01 (gross_total_cooling_capacity fM u None) (rnth (sd_gross_cap (u_c u)) 0)
    && same 0.0001 (cooling_fan_power fsol u None) (rnth (sd_fan_power (u_c u)) 0)
    && same 0.01 (net_total_cooling_capacity fsol fM u None)
         (geti (sd_net_cap (u_c u)) 0)
    && rapprox 13 0.0001 (seer fsol fM u)
    && rapprox 8 0.0001 (hspf fsol fM u 4)
    && rapprox 3.312 0.001 (rnth (sd_net_cop (u_c u)) 0)
    && rapprox 3.121 0.001 (rnth (sd_net_cop (u_h u)) 0))%bool = true.
Proof. vm_compute. reflexivity. Qed.

(** test_resdx.py:56-74 *)
Example test_1_speed_refrigerant_charge_regression :
  on_ok one_speed (fun u => let u := wu_charge (-0.25) u in
    rapprox 11.16 0.01 (seer fsol fM u) && rapprox 7.05 0.01 (hspf fsol fM u 4))%bool
  = true.
Proof. vm_compute. reflexivity. Qed.

(** test_resdx.py:77-94 *)
Example test_1_speed_2023_regression :
  on_ok one_speed (fun u =>
    let u := fst (set_rating_standard fpsy AHRI_210_240_2023 u) in
    rapprox 12.999 0.001 (seer fsol fM u) && rapprox 7.172 0.001 (hspf fsol fM u 4))%bool
  = true.
Proof. vm_compute. reflexivity. Qed.

(** test_resdx.py:95-121 *)
Definition version_unit (v : ahri_version) : res (dxunit float) :=
  let d := args None v (Some 13) (Some (13 / 1.2)) (Some 8) [] in
  DXUnit fpsy fsol fM
    (mkArgs (a_staging d) (a_ccap d) (a_gross_ccop d) (Some (Scalar 3.312)) (a_cflow d)
      (a_cd_c d) (a_cooling_off d) (a_hcap d) (a_gross_hcop d) (Some (Scalar 3.121))
      (a_hflow d) (a_cd_h d) (a_heating_off d) (a_heating_on d) (a_defrost d)
      (a_fan d) (a_hfan_speed d) (a_cfan_speed d) (a_rated_hfan_speed d)
      (a_rated_cfan_speed d) (a_crank d) (a_crank_setpoint d) (a_charge d)
      (a_cycling d) (a_cfull d) (a_cint d) (a_hfull d) (a_hint d) (a_ducted d)
      (a_standard d) (a_seer d) (a_eer d) (a_hspf d) (a_kwargs d)).
Example test_1_speed_rating_version :
  on_ok (version_unit AHRI_210_240_2017) (fun u1 =>
  on_ok (version_unit AHRI_210_240_2023) (fun u2 =>
    same 0.001 (rnth (sd_airflow (u_c u1)) 0) (rnth (sd_airflow (u_c u2)) 0)
    && on_ok (seer fsol fM u1) (fun s1 =>
       on_ok (seer fsol fM u2) (fun s2 => s2 <=? s1))
    && on_ok (hspf fsol fM u1 4) (fun h1 =>
       on_ok (hspf fsol fM u2 4) (fun h2 => h2 <? h1)))%bool) = true.
Proof. vm_compute. reflexivity. Qed.

Definition two_speed : res (dxunit float) := Eval vm_compute in
  make_rating_unit fpsy fsol (solver_defaults TWO_STAGE 17 10 AHRI_210_240_2017).

(** test_resdx.py:129-155 *)
Example test_2_speed_regression :
  on_ok two_speed (fun u =>
    same 0.01 (gross_total_cooling_capacity fM u None) (rnth (sd_gross_cap (u_c u)) 0)
    && rapprox 17 0.01 (seer fsol fM u)
    && rapprox 3.980 0.001 (rnth (sd_net_cop (u_c u)) 0)
    && rapprox 4.284 0.001 (rnth (sd_net_cop (u_c u)) 1)
    && rapprox 10 0.01 (hspf fsol fM u 4)
    && rapprox 3.424 0.001 (rnth (sd_net_cop (u_h u)) 0)
    && rapprox 4.029 0.001 (rnth (sd_net_cop (u_h u)) 1))%bool = true.
Proof. vm_compute. reflexivity. Qed.

Definition vchp : res (dxunit float) := Eval vm_compute in
  DXUnit fpsy fsol fM
    (args (Some VARIABLE_SPEED) AHRI_210_240_2023 (Some 21.3) (Some 13.4) (Some 11.7) []).

(** test_resdx.py:158-189 *)
Example test_neep_statistical_vchp_regression :
  on_ok vchp (fun u =>
    same 0.01 (net_total_cooling_capacity fsol fM u None)
      (geti (sd_net_cap (u_c u)) (sd_full (u_c u)))
    && rapprox (fr_Btu_Wh 13.4) 0.01 (net_total_cooling_cop fsol fM u None)
    && same 0.01 (net_steady_state_heating_capacity fsol fM u None)
         (geti (sd_net_cap (u_h u)) (sd_full (u_h u)))
    && rapprox 19.44 0.01 (seer fsol fM u)
    && rapprox 13.4 0.01 (eer fsol fM u None)
    && rapprox 9.910 0.01 (hspf fsol fM u 4))%bool = true.
Proof. vm_compute. reflexivity. Qed.

Definition neep_table : res (perf float) := Eval vm_compute in
  snd (make_neep_model_data None (fr_F 125) (fr_F 0)
    (mkNeep [[Some 3428; None; Some 20098]; [Some 3100; Some 14000; Some 18200]]
       [[Some 0.19; None; Some 1.8]; [Some 0.21; Some 1.08; Some 2.0]]
       [[Some 2080; None; Some 14100]; [Some 2150; Some 12100; Some 16400];
        [Some 4800; Some 18000; Some 20900]]
       [[Some 0.24; None; Some 1.57]; [Some 0.2; Some 1.6; Some 2.01];
        [Some 0.2; Some 1.6; Some 2.01]])).

Definition neep_unit : res (dxunit float) := Eval vm_compute in
  let! p := neep_table in
  DXUnit fpsy fsol fM
    (args None AHRI_210_240_2017 None None None [("tabular_data"%string, KTable p)]).

(** test_resdx.py:192-249 *)
Example test_neep_vchp_regression :
  on_ok neep_unit (fun u =>
    same 0.01 (net_total_cooling_capacity fsol fM u None)
      (geti (sd_net_cap (u_c u)) (sd_full (u_c u)))
    && same 0.01 (net_total_cooling_cop fsol fM u None)
         (rnth (sd_net_cop (u_c u)) (sd_full (u_c u)))
    && same 0.01 (net_integrated_heating_capacity fsol fM u None)
         (geti (sd_net_cap (u_h u)) (sd_full (u_h u)))
    && same 0.01 (net_integrated_heating_cop fsol fM u None)
         (rnth (sd_net_cop (u_h u)) (sd_full (u_h u)))
    && rapprox 16.83 0.0001 (seer fsol fM u)
    && rapprox 12.965 0.0001 (eer fsol fM u None)
    && rapprox 11.088 0.0001 (hspf fsol fM u 4)
    && rapprox 20.071 0.0001 (hspf fsol fM u 2))%bool = true.
Proof. vm_compute. reflexivity. Qed.

(** test_neep_data.py:8-23 *)
Example test_make_neep_statistical_model_data :
  on_ok (make_neep_statistical_model_data (fr_ton 5) 19 11 (fr_ton 5)
           (Some (fr_ton 5 * 0.7)) 8 (fr_F 125) (fr_F (-20)) None None None)
    (fun p => rapprox (fr_ton 5) 0.0001 (cooling_capacity p 2 (fr_F 95))
      && rapprox (fr_Btu_Wh 11) 0.0001 (cooling_cop p 2 (fr_F 95))
      && rapprox (fr_ton 5) 0.0001 (heating_capacity p 2 (fr_F 47)))%bool = true.
Proof. vm_compute. reflexivity. Qed.

(** test_fan.py:6-35.  The test's exact equalities hold to 1e-9 here (bisection
    instead of Brent's method, rounding of unit conversions). *)
Example test_psc_fan :
  on_ok (make_psc_fan (map fr_cfm [1179; 1003; 740]) (fr_inH2O 0.5)
           (fr_W_per_cfm 0.33))
    (fun f =>
      rapprox (fr_rpm 1040) 1e-9 (rotational_speed fsol f 0 (Some 0))
      && rapprox (fr_cfm 1179) 1e-9 (airflow fsol f 0 (Some (fr_inH2O 0.5)))
      && rapprox 248.04 0.01 (power fsol f 2 (Some (fr_inH2O 0.3)))
      && rapprox 0 1e-9 (airflow fsol f 0 (Some (fr_inH2O 1)))
      && rapprox (fr_cfm 1179) 1e-9 (airflow fsol f 0 None)
      && rapprox (fr_cfm 1061.045) 0.01 (airflow fsol f 1 None)
      && (let (g, r) := add_speed (fr_cfm 1179) (Some (fr_inH2O 0.15)) f in
          on_ok r (fun _ => rapprox (fr_cfm 1179) 1e-9
                              (airflow fsol g (pred (f_n g)) (Some (fr_inH2O 0.15))))))%bool
  = true.
Proof. vm_compute. reflexivity. Qed.

(** test_fan.py:38-73 *)
Example test_ecm_fan :
  on_ok (make_ecm_fan
           (map fr_cfm [2405; 2200; 1987; 1760; 1537; 1310; 1169; 1099])
           (fr_inH2O 0.5) (fr_W_per_cfm 0.3665) (Some 1000))
    (fun f =>
      rapprox (fr_cfm 2405) 1e-9 (airflow fsol f 0 (Some 0))
      && rapprox (fr_rpm 1100) 1e-9 (rotational_speed fsol f 0 (Some (fr_inH2O 0.5)))
      && rapprox 1000 1e-9 (power fsol f 0 (Some (fr_inH2O 0.8)))
      && rapprox 474.119 0.01 (power fsol f 2 (Some (fr_inH2O 0.3)))
      && rapprox (fr_cfm 2405) 1e-9 (airflow fsol f 0 None)
      && rapprox (fr_cfm 2200) 1e-9 (airflow fsol f 1 None)
      && rapprox 881.43 0.01 (power fsol f 0 None)
      && rapprox 102.08 0.01 (power fsol f 6 None))%bool = true.
Proof. vm_compute. reflexivity. Qed.

(** test_fan.py:76-92 *)
Example test_eere_fans :
  forallb (fun k => on_ok (make_eere_fan k (map fr_cfm [1179; 1003; 740]) 0)
                      (fun f => rapprox (fr_cfm 1179) 1e-9 (airflow fsol f 0 (Some 0))))
    [EEREBaselinePSC; EEREImprovedPSC; EEREPSCWithControls;
     EEREBPMSingleStageConstantTorque; EEREBPMMultiStageConstantTorque;
     EEREBPMMultiStageConstantAirflow; EEREBPMMultiStageBackwardCurved] = true.
Proof. vm_compute. reflexivity. Qed.

(** test_fan.py:95-125 *)
Definition fan_airflows : list float :=
  map (fun v => fr_cfm (v * 100 + 1)) [10; 9; 8; 7; 6; 5; 4; 3; 2; 1; 0].
Definition ratio (f : fan float) (i : nat) (esp : option float) : res float :=
  let! a := efficacy fsol f i esp in
  let! b := efficacy fsol f 0 esp in pydiv a b.
Example test_resnet_fans :
  on_ok (make_resnet_psc_fan fan_airflows) (fun p =>
  on_ok (make_resnet_bpm_fan fan_airflows) (fun b =>
    rapprox (fr_W_per_cfm 0.414) 1e-9 (efficacy fsol p 0 None)
    && rapprox (1 - 0.3) 0.01 (ratio p 10 None)
    && rapprox (fr_W_per_cfm 0.281) 1e-5 (efficacy fsol b 0 (Some (fr_inH2O 0.5)))
    && rapprox (fr_W_per_cfm 0.171) 1e-5 (efficacy fsol b 0 (Some 0))
    && forallb (fun i =>
         on_ok (ratio b i (Some 0)) (fun x =>
         on_ok (ratio b i None) (fun y =>
         on_ok (ratio p i None) (fun z => (x <=? y) && (y <=? z)))))
         (seq 0 11))%bool)
  = true.
Proof. vm_compute. reflexivity. Qed.

(** Not a test of /repo: the units built for a SEER of 17, HSPF of 10 and EER of
    10.5.  The two-stage one returns its EER; the variable-speed one (BPM motor by
    default) misses it, see C73 in DESIGN.md. *)
Definition rated_10_5 (st : staging_type) : res (dxunit float) :=
  make_rating_unit fpsy fsol
    (mkInputs st 17 10 (Some 10.5) (fr_ton 3) None 0.63 None (fr_F 125) (fr_F 40)
       AHRI_210_240_2023).
Example eer_of_two_stage_unit :
  on_ok (rated_10_5 TWO_STAGE) (fun u => rapprox 10.5 1e-9 (eer fsol fM u None)) = true.
Proof. vm_compute. reflexivity. Qed.
Example eer_of_variable_speed_unit :
  on_ok (rated_10_5 VARIABLE_SPEED) (fun u =>
    rapprox 17 1e-9 (seer fsol fM u) && rapprox 10 1e-9 (hspf fsol fM u 4)
    && rapprox 10.5298 1e-5 (eer fsol fM u None))%bool = true.
Proof. vm_compute. reflexivity. Qed.
