(** Properties C90 and C91: optional ratings of a RESNET unit, and what [make_rating_unit] was
    asked for. *)
From Coq Require Import Reals Lra Lia List String.
From Verif.Base Require Import Num Res Tac.
From Verif.Model Require Import Units Util Psychrometrics Conditions Defrost Fan Tabular Unit Resnet DXUnit RatingSolver.
From Verif.Spec Require Import NrelSpec TabularSpec UnitSpec UnitModels RatedSpec TestSpec ReportSpec SettingsSpec OptionSpec.
From Verif.Proofs Require Import UnitsR ToyBuild ToyResnetTable ToyResnet ToyResnet2 Secant SingleTable RatedTable RatedEer OptionProofs OptionUnit.
Import ListNotations.
Local Open Scope R_scope.

(** C90: at 17 F and full speed the heating capacity is [rated_net_heating_capacity_17] where
    it is given, else a fixed part of the rated heating capacity. *)
Theorem C90_capacity_17 : forall psy sol a (u : dxunit R) q h q17,
  DXUnit psy sol (RESNETDXModel psy sol) a = Ok u -> rated_unit a (u_staging u) q h ->
  (u_staging u = VARIABLE_SPEED -> u_heating_off u < fr_F 5) ->
  capacity_17 a (u_staging u) h q17 ->
  exists c, rc_H3_full (u_conds u) = Some c
    /\ (fan_at_rated_pressure u Heating c ->
        forall v, net_steady_state_heating_capacity sol (RESNETDXModel psy sol) u (Some c) = Ok v -> v = q17).
Proof. exact capacity_17_met. Qed.
Print Assumptions C90_capacity_17.

(** At 82 F and the lowest speed the cooling COP is [rated_net_total_cooling_cop_82_min]. *)
Theorem C90_low_speed_cop : forall psy sol a (u : dxunit R) q h x,
  DXUnit psy sol (RESNETDXModel psy sol) a = Ok u -> rated_unit a (u_staging u) q h -> plain_speeds a ->
  (u_staging u = VARIABLE_SPEED -> u_heating_off u < fr_F 5) ->
  u_staging u <> SINGLE_STAGE -> option_given a "rated_net_total_cooling_cop_82_min" x ->
  (forall r, option_given a "min_net_total_cooling_capacity_ratio_95" r -> r <> 0) ->
  exists c, rc_B_low (u_conds u) = Some c
    /\ (fan_at_rated_pressure u Cooling c ->
        forall v, net_total_cooling_cop sol (RESNETDXModel psy sol) u (Some c) = Ok v -> v = x).
Proof. exact low_cop_met. Qed.
Print Assumptions C90_low_speed_cop.

(** At 95 F the lowest speed has [min_net_total_cooling_capacity_ratio_95] times the capacity of
    the highest speed of a variable-speed unit. *)
Theorem C90_low_speed_capacity : forall psy sol a (u : dxunit R) q h r,
  DXUnit psy sol (RESNETDXModel psy sol) a = Ok u -> rated_unit a (u_staging u) q h -> plain_speeds a ->
  u_staging u = VARIABLE_SPEED -> u_heating_off u < fr_F 5 ->
  option_given a "min_net_total_cooling_capacity_ratio_95" r ->
  exists cl cb, rc_A_low (u_conds u) = Some cl /\ rc_A_boost (u_conds u) = Some cb
    /\ (fan_at_rated_pressure u Cooling cl -> fan_at_rated_pressure u Cooling cb ->
        forall vl vb, net_total_cooling_capacity sol (RESNETDXModel psy sol) u (Some cl) = Ok vl ->
          net_total_cooling_capacity sol (RESNETDXModel psy sol) u (Some cb) = Ok vb -> vl = r * vb).
Proof. exact low_capacity_met. Qed.
Print Assumptions C90_low_speed_capacity.

(** A single-stage unit of 10 kW that was given 6.5 kW at 17 F. *)
Example C90_nonvacuous : exists u : dxunit R,
  DXUnit lin_psy rt_sol (RESNETDXModel lin_psy rt_sol) (toy_args 8 3.5) = Ok u
  /\ rated_unit (toy_args 8 3.5) (u_staging u) 10000 10000
  /\ u_staging u = SINGLE_STAGE /\ plain_speeds (toy_args 8 3.5)
  /\ capacity_17 (toy_args 8 3.5) (u_staging u) 10000 6500
  /\ exists c, rc_H3_full (u_conds u) = Some c /\ fan_at_rated_pressure u Heating c.
Proof.
  destruct (toy_table 3.5 8) as (net & N & _ & Cl); [lra|].
  destruct (toy_built 8 3.5 net) as (g & P & s & b & n & E & _ & B & W & _); [lra|exact N|exact Cl|].
  eexists. split; [exact E|].
  split; [repeat split; [lra|lra|exact lit0_R]|].
  split; [reflexivity|].
  split; [repeat split; [eexists; reflexivity|discriminate]|].
  split; [left; unfold option_given; cbn; f_equal; lra|].
  eexists. split; [reflexivity|left; reflexivity].
Qed.

(** C91: a unit made by [make_rating_unit] has the settings asked for, *)
Theorem C91_settings : forall psy sol (r : solver_inputs) (u : dxunit R),
  make_rating_unit psy sol r = Ok u ->
  u_staging u = ri_staging r /\ u_standard u = ri_standard r
  /\ u_seer u = Some (ri_seer r) /\ u_hspf u = Some (ri_hspf r)
  /\ (forall e, ri_eer r = Some e -> u_eer u = Some e)
  /\ u_cooling_off u = ri_t_max r
  /\ u_heating_off u = given_or (ri_t_min r) (match ri_staging r with VARIABLE_SPEED => deg_F (-20) | _ => deg_F 0 end)
  /\ df_high_temperature (u_defrost u) = ri_t_defrost r /\ df_strategy (u_defrost u) = DSReverseCycle.
Proof. exact asked_settings. Qed.
Print Assumptions C91_settings.

(** and its capacities and EER are the ones asked for. *)
Theorem C91_values : forall psy sol (r : solver_inputs) (u : dxunit R),
  make_rating_unit psy sol r = Ok u -> ri_q95 r <> 0 -> asked_heating r <> 0 ->
  (ri_staging r = VARIABLE_SPEED -> forall t, ri_t_min r = Some t -> t < deg_F 5) ->
  exists ca ch c17, rc_A_full (u_conds u) = Some ca /\ rc_H1_full (u_conds u) = Some ch
    /\ rc_H3_full (u_conds u) = Some c17
    /\ (fan_at_rated_pressure u Cooling ca ->
        (forall v, net_total_cooling_capacity sol (RESNETDXModel psy sol) u None = Ok v -> v = ri_q95 r)
        /\ (forall e v, ri_eer r = Some e -> eer sol (RESNETDXModel psy sol) u None = Ok v -> v = e))
    /\ (fan_at_rated_pressure u Heating ch ->
        forall v, net_steady_state_heating_capacity sol (RESNETDXModel psy sol) u None = Ok v -> v = asked_heating r)
    /\ (fan_at_rated_pressure u Heating c17 ->
        forall v, net_steady_state_heating_capacity sol (RESNETDXModel psy sol) u (Some c17) = Ok v ->
          v = given_or (ri_q47 r) (ri_q95 r) * ri_qm17 r).
Proof. exact asked_values. Qed.
Print Assumptions C91_values.

(** [qm17] is the ratio of the capacities at 17 F and 47 F if the capacity at 47 F was given.
    If it was not, [qm17] multiplies the cooling capacity, and the ratio is another one. *)
Theorem C91_maintenance : forall psy sol (r : solver_inputs) (u : dxunit R),
  make_rating_unit psy sol r = Ok u -> ri_q95 r <> 0 -> asked_heating r <> 0 ->
  (ri_staging r = VARIABLE_SPEED -> forall t, ri_t_min r = Some t -> t < deg_F 5) ->
  exists c47 c17, rc_H1_full (u_conds u) = Some c47 /\ rc_H3_full (u_conds u) = Some c17
    /\ (fan_at_rated_pressure u Heating c47 -> fan_at_rated_pressure u Heating c17 ->
        forall v47 v17, net_steady_state_heating_capacity sol (RESNETDXModel psy sol) u (Some c47) = Ok v47 ->
          net_steady_state_heating_capacity sol (RESNETDXModel psy sol) u (Some c17) = Ok v17 ->
          (ri_q47 r <> None -> v17 = ri_qm17 r * v47)
          /\ (ri_q47 r = None -> ri_qm17 r <> 0 -> ri_q95 r <> asked_heating r -> v17 <> ri_qm17 r * v47)).
Proof. exact maintenance. Qed.
Print Assumptions C91_maintenance.

(** The single-stage unit again, as the rating solver makes it. *)
Example C91_nonvacuous : exists hs u,
  make_rating_unit lin_psy rt_sol (toy_inputs hs) = Ok u
  /\ ri_q95 (toy_inputs hs) = 10000 /\ ri_q47 (toy_inputs hs) = Some 10000
  /\ asked_heating (toy_inputs hs) = 10000 /\ ri_qm17 (toy_inputs hs) = 0.65
  /\ rn_motor (u_rn u) = Some MotorPSC.
Proof.
  destruct toy_rating_unit_psc as (hs & u & E & Mo). exists hs, u. repeat split; assumption.
Qed.
