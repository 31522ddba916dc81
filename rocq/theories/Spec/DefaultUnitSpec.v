(** What C102 says a unit is to which no arguments were given. *)
From Coq Require Import Reals QArith List.
From Verif.Base Require Import Num Res.
From Verif.Model Require Import Units Psychrometrics Conditions Defrost Tabular Unit DXUnit.
From Verif.Spec Require Import NrelSpec UnitSpec SettingsSpec DefaultSpec.
Import ListNotations.
Local Open Scope R_scope.

(** Three tons of refrigeration in watts. *)
Definition three_tons : R := 36000 * (1055.056 / 3600).

(** One speed each for cooling and heating, three tons of rated net capacity each, gross
    COPs of 3.72 and 3.82. *)
Definition single_speed_3_tons (u : dxunit R) : Prop :=
  u_staging u = SINGLE_STAGE
  /\ (forall m, sd_n (side_of m u) = 1%nat /\ sd_full (side_of m u) = 0%nat
        /\ sd_low (side_of m u) = None /\ sd_boost (side_of m u) = None
        /\ sd_net_cap (side_of m u) = [three_tons])
  /\ entry (sd_gross_cop (u_c u)) 0 3.72 /\ entry (sd_gross_cop (u_h u)) 0 3.82.

(** Its settings. *)
Definition usual_settings (u : dxunit R) : Prop :=
  u_seer u = None /\ u_eer u = None /\ u_hspf u = None /\ u_kwargs u = []
  /\ u_cycling u = BETWEEN_LOW_FULL /\ u_ducted u = true /\ u_standard u = AHRI_210_240_2023
  /\ u_charge u = 0 /\ usual_defrost (u_defrost u)
  /\ u_cooling_off u = deg_F 125 /\ u_heating_off u = deg_F 0 /\ u_heating_on u = Some (deg_F 0)
  /\ u_crank_setpoint u = deg_F 50 /\ u_crank u = Some 30.

(** The ratings a RESNET table is made from. *)
Definition rated_well_enough (a : dxargs R) (st : staging_type) : Prop :=
  (a_eer a <> None \/ a_seer a <> None)
  /\ (st = SINGLE_STAGE -> a_seer a <> None)
  /\ (a_hspf a <> None \/ exists x, a_net_hcop a = Some (Scalar x)).
