(** The rating tests of AHRI 210/240 (C70). *)
From Coq Require Import Reals List.
From Verif.Base Require Import Num Res.
From Verif.Model Require Import Units Psychrometrics Conditions Defrost Tabular Unit.
From Verif.Spec Require Import NrelSpec UnitSpec.
Import ListNotations.
Local Open Scope R_scope.

Inductive test :=
  A_full | B_full | H1_full | H2_full | H3_full | H4_full
| A_int | E_int | H2_int
| A_boost
| A_low | B_low | F_low | H0_low | H1_low | H2_low | H3_low.

(** The attribute of the unit that holds the test's condition. *)
Definition stored (t : test) (k : rconds R) : option (cond R) :=
  match t with
  | A_full => rc_A_full k | B_full => rc_B_full k | H1_full => rc_H1_full k
  | H2_full => rc_H2_full k | H3_full => rc_H3_full k | H4_full => rc_H4_full k
  | A_int => rc_A_int k | E_int => rc_E_int k | H2_int => rc_H2_int k
  | A_boost => rc_A_boost k
  | A_low => rc_A_low k | B_low => rc_B_low k | F_low => rc_F_low k
  | H0_low => rc_H0_low k | H1_low => rc_H1_low k | H2_low => rc_H2_low k
  | H3_low => rc_H3_low k
  end.

Definition test_mode (t : test) : mode :=
  match t with
  | A_full | B_full | A_int | E_int | A_boost | A_low | B_low | F_low => Cooling
  | _ => Heating
  end.

(** Outdoor dry and wet bulb, degrees Fahrenheit. *)
Definition outdoor_air (t : test) : R * R :=
  match t with
  | A_full | A_int | A_boost | A_low => (95, 75)
  | B_full | B_low => (82, 65)
  | E_int => (87, 69)
  | F_low => (67, 53.5)
  | H0_low => (62, 56.5)
  | H1_full | H1_low => (47, 43)
  | H2_full | H2_int | H2_low => (35, 33)
  | H3_full | H3_low => (17, 15)
  | H4_full => (5, 3)
  end.
Definition indoor_air (t : test) : R * R :=
  match test_mode t with Cooling => (80, 67) | Heating => (70, 60) end.

(** The tests of a unit: by its staging type, and the boost speed where there is one. *)
Definition tests (u : dxunit R) : list test :=
  let s := u_staging u in
  [A_full; B_full; H1_full; H2_full; H3_full; H4_full]
  ++ match s with VARIABLE_SPEED => [A_int; E_int; H2_int] | _ => [] end
  ++ match s with
     | SINGLE_STAGE => []
     | _ => (match sd_boost (u_c u) with Some _ => [A_boost] | None => [] end)
            ++ [A_low; B_low; F_low; H0_low; H1_low; H2_low; H3_low]
     end.

(** The unit's speed for the test: full, intermediate, boost or low load (the slowest). *)
Definition test_speed (t : test) (u : dxunit R) : option nat :=
  let s := side_of (test_mode t) u in
  match t with
  | A_full | B_full | H1_full | H2_full | H3_full | H4_full => Some (sd_full s)
  | A_int | E_int | H2_int => Some (sd_int s)
  | A_boost => sd_boost s
  | _ => sd_low s
  end.

(** Moist air at sea level with the given dry and wet bulb (F). *)
Definition air (tw : R * R) (s : psych_state R) : Prop :=
  ps_db s = deg_F (fst tw) /\ ps_wb s = Some (deg_F (snd tw)) /\ ps_p s = 101325.

(** [c] is the condition of test [t]: its outdoor and indoor air, the compressor and fan
    speed, the rated airflow and capacity of that compressor speed, run at the rated
    flow, against the full-flow pressure times the squared ratio of flow to full flow. *)
Definition condition_of (t : test) (u : dxunit R) (c : cond R) : Prop :=
  let s := side_of (test_mode t) u in
  exists speed q a full p f,
    test_speed t u = Some speed /\ c_speed c = speed
    /\ air (outdoor_air t) (c_outdoor c) /\ air (indoor_air t) (c_indoor c)
    /\ nth_error (sd_net_cap s) speed = Some q /\ c_rated_net_capacity c = Some q
    /\ entry (sd_airflow s) speed a /\ c_rated_standard_volumetric_airflow c = Some a
    /\ entry (sd_airflow s) 0 full
    /\ c_mass_airflow_ratio c = Some 1
    /\ u_full_esp u = Some p
    /\ c_external_static_pressure c = Some (p * (a / full * (a / full)))
    /\ (exists l, sd_rated_fan_speed s = Some l /\ nth_error l speed = Some f)
    /\ c_fan_speed c = f.
