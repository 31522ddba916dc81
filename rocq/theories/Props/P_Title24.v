(** Properties C76 and C77: cooling with the Title 24 model, and its heating power
    (title24.py). *)
From Coq Require Import Reals Lra List String.
From Verif.Base Require Import Num Res Tac.
From Verif.Model Require Import Units Psychrometrics Conditions Defrost Fan Tabular Unit
  BaseModel Title24 DXUnit.
From Verif.Spec Require Import NrelSpec ModelSpec RatingSpec Title24Spec.
From Verif.Proofs Require Import ToyUnit T24Cooling T24Heating ToyT24.
Import ListNotations.
Local Open Scope R_scope.

(** * C76 *)
Theorem C76_total_capacity : forall sol u c wb odb idb v q, t24_point c wb odb idb v ->
  entry (sd_gross_cap (u_c u)) (c_speed c) q ->
  exists f, t24_cap wb odb idb v f
    /\ (0 <= f * q -> gross_total_cooling_capacity (Title24DXModel sol) u (Some c) = Ok (f * q))
    /\ (f * q < 0 ->
        gross_total_cooling_capacity (Title24DXModel sol) u (Some c) = Err PyException).
Proof. exact total24. Qed.
Print Assumptions C76_total_capacity.

Theorem C76_sensible_share : forall sol u c wb odb idb v s, t24_point c wb odb idb v ->
  gross_sensible_cooling_capacity (Title24DXModel sol) u (Some c) = Ok s ->
  exists q, gross_total_cooling_capacity (Title24DXModel sol) u (Some c) = Ok q
    /\ s = t24_shr wb odb idb v * q /\ s <= q.
Proof. exact sensible24. Qed.
Print Assumptions C76_sensible_share.

Theorem C76_efficiency : forall sol u c wb odb idb v k, t24_point c wb odb idb v ->
  gross_total_cooling_cop (Title24DXModel sol) u (Some c) = Ok k ->
  gross_total_cooling_capacity (Title24DXModel sol) u (Some c) <> Ok 0 ->
  exists q w s r f, nth_error (sd_net_cap (u_c u)) (c_speed c) = Some q
    /\ entry (sd_fan_power (u_c u)) (c_speed c) w
    /\ seasonal_known u wb odb idb v q w s /\ rated_known u (c_speed c) wb odb idb v q w r
    /\ efficiency_factor u f /\ k = t24_efficiency odb s r * f.
Proof. exact cop24. Qed.
Print Assumptions C76_efficiency.

Theorem C76_seer_irrelevant_when_hot : forall sol u c x,
  95 <= degF (ps_db (c_outdoor c)) ->
  gross_cooling_power (Title24DXModel sol) (wu_seer x u) (Some c)
  = gross_cooling_power (Title24DXModel sol) u (Some c).
Proof. exact seer_free. Qed.
Print Assumptions C76_seer_irrelevant_when_hot.

Theorem C76_cop_irrelevant_when_mild : forall sol u c l,
  degF (ps_db (c_outdoor c)) <= 82 ->
  gross_cooling_power (Title24DXModel sol) (wu_c (ws_net_cop l (u_c u)) u) (Some c)
  = gross_cooling_power (Title24DXModel sol) u (Some c).
Proof. exact eer_free. Qed.
Print Assumptions C76_cop_irrelevant_when_mild.

Theorem C76_rating_point : forall sol u c q g w cop f, t24_point c 67 95 80 400 ->
  nth_error (sd_net_cap (u_c u)) (c_speed c) = Some q ->
  entry (sd_gross_cap (u_c u)) (c_speed c) g -> 0 < g ->
  entry (sd_fan_power (u_c u)) (c_speed c) w ->
  entry (sd_net_cop (u_c u)) (c_speed c) cop -> cop <> 0 ->
  efficiency_factor u f -> 0 < f ->
  0 < q / cop - w / 3.413 ->
  gross_total_cooling_capacity (Title24DXModel sol) u (Some c) = Ok g
  /\ gross_sensible_cooling_capacity (Title24DXModel sol) u (Some c) = Ok (0.7174748 * g)
  /\ gross_cooling_power (Title24DXModel sol) u (Some c) = Ok ((q / cop - w / 3.413) / f).
Proof. exact rating24. Qed.
Print Assumptions C76_rating_point.

(** The net power at the rating condition is more than net capacity over rated COP: the fan
    power (W) was divided by 3.413 (title24.py:254). *)
Theorem C76_net_power_at_rating : forall sol u c q w cop, t24_point c 67 95 80 400 ->
  nth_error (sd_net_cap (u_c u)) (c_speed c) = Some q -> 0 < q ->
  entry (sd_fan_power (u_c u)) (c_speed c) w -> 0 <= w ->
  entry (sd_gross_cap (u_c u)) (c_speed c) (q + w) ->
  entry (sd_net_cop (u_c u)) (c_speed c) cop -> cop <> 0 ->
  not_supplied u "input_cooling_efficiency_multiplier" ->
  w / 3.413 < q / cop ->
  cooling_fan_power sol u (Some c) = Ok w ->
  net_total_cooling_capacity sol (Title24DXModel sol) u (Some c) = Ok q
  /\ net_cooling_power sol (Title24DXModel sol) u (Some c)
     = Ok (q / cop + w * (1 - 1 / 3.413))
  /\ net_total_cooling_cop sol (Title24DXModel sol) u (Some c)
     = Ok (q / (q / cop + w * (1 - 1 / 3.413))).
Proof. exact rated_cop24. Qed.
Print Assumptions C76_net_power_at_rating.

(** So a unit does not return its rated COP at the rating condition. *)
Theorem C76_rated_cop_refuted : forall sol, exists u c q w cop k,
  t24_point c 67 95 80 400 /\ nth_error (sd_net_cap (u_c u)) (c_speed c) = Some q
  /\ entry (sd_gross_cap (u_c u)) (c_speed c) (q + w)
  /\ entry (sd_fan_power (u_c u)) (c_speed c) w
  /\ entry (sd_net_cop (u_c u)) (c_speed c) cop
  /\ efficiency_factor u 1
  /\ cooling_fan_power sol u (Some c) = Ok w
  /\ net_total_cooling_cop sol (Title24DXModel sol) u (Some c) = Ok k /\ k < cop.
Proof. exact cooler_cop. Qed.
Print Assumptions C76_rated_cop_refuted.

(** A 10 kW unit, COP 4, SEER 14, 300 W fan, at 88 F and at 95 F outside. *)
Example C76_nonvacuous : forall sol,
  t24_point (cooler_cond 88) 67 88 80 400 /\ t24_point (cooler_cond 95) 67 95 80 400
  /\ efficiency_factor cooler 1
  /\ (exists k, gross_total_cooling_cop (Title24DXModel sol) cooler (Some (cooler_cond 88)) = Ok k
      /\ gross_total_cooling_capacity (Title24DXModel sol) cooler (Some (cooler_cond 88)) <> Ok 0)
  /\ gross_total_cooling_capacity (Title24DXModel sol) cooler (Some (cooler_cond 95)) = Ok 10300
  /\ gross_cooling_power (Title24DXModel sol) cooler (Some (cooler_cond 95))
     = Ok ((10000 / 4 - 300 / 3.413) / 1).
Proof.
  intros sol. split; [apply cooler_point|]. split; [apply cooler_point|]. split; [apply cooler_factor|].
  split; [apply cooler_88|].
  destruct (rating24 sol cooler (cooler_cond 95) 10000 10300 300 4 1 (cooler_point 95) eq_refl eq_refl
    ltac:(lra) eq_refl eq_refl ltac:(lra) cooler_factor ltac:(lra) ltac:(lra)) as (A & _ & B). auto.
Qed.

(** * C77 *)
Theorem C77_steady_power : forall sol tol u c p, newton_finds_roots tol sol ->
  gross_steady_state_heating_power (Title24DXModel sol) u (Some c) = Ok p ->
  exists k17 h target q17 q47 k47 w,
    hspf_if u (c_speed c) k17 h /\ u_hspf u = Some target /\ Rabs (h - target) <= tol
    /\ anchor17 u (c_speed c) q17 /\ anchor47 u (c_speed c) q47
    /\ entry (sd_net_cop (u_h u)) (c_speed c) k47
    /\ entry (sd_fan_power (u_h u)) (c_speed c) w
    /\ p = clear_line (q17 / k17) (q47 / k47) (degF (ps_db (c_outdoor c))) - w.
Proof. exact steady24. Qed.
Print Assumptions C77_steady_power.

Theorem C77_integrated_power : forall sol tol u c p, newton_finds_roots tol sol ->
  gross_integrated_heating_power (Title24DXModel sol) u (Some c) = Ok p ->
  exists f k17 last rest h target q17 q35 q47 k47 e35 w,
    is_hspf_error u (c_speed c) f
    /\ run_prober_pure f (newton sol 3) = Ok k17 /\ rev (trials f (newton sol 3)) = last :: rest
    /\ hspf_if u (c_speed c) k17 h /\ u_hspf u = Some target /\ Rabs (h - target) <= tol
    /\ anchor17 u (c_speed c) q17 /\ anchor35 u (c_speed c) q35 /\ anchor47 u (c_speed c) q47
    /\ entry (sd_net_cop (u_h u)) (c_speed c) k47
    /\ entry (sd_fan_power (u_h u)) (c_speed c) w
    /\ input35 u (c_speed c) q17 q35 (q17 / last) (q47 / k47) e35
    /\ p = (if in_defrost (u_defrost u) c
            then frosted_line (q17 / k17) e35 (q47 / k47) (degF (ps_db (c_outdoor c)))
            else clear_line (q17 / k17) (q47 / k47) (degF (ps_db (c_outdoor c)))) - w.
Proof. exact integrated24. Qed.
Print Assumptions C77_integrated_power.

Theorem C77_power_at_35 : forall sol u c17 c47 c35 p17 p47 p35 w,
  c_speed c17 = c_speed c35 -> c_speed c47 = c_speed c35 ->
  degF (ps_db (c_outdoor c17)) = 17 -> degF (ps_db (c_outdoor c47)) = 47 ->
  degF (ps_db (c_outdoor c35)) = 35 -> in_defrost (u_defrost u) c35 = true ->
  not_supplied u "cop35" ->
  entry (sd_fan_power (u_h u)) (c_speed c35) w ->
  gross_steady_state_heating_power (Title24DXModel sol) u (Some c17) = Ok p17 ->
  gross_steady_state_heating_power (Title24DXModel sol) u (Some c47) = Ok p47 ->
  gross_integrated_heating_power (Title24DXModel sol) u (Some c35) = Ok p35 ->
  exists f k17 last rest q17, is_hspf_error u (c_speed c35) f
    /\ run_prober_pure f (newton sol 3) = Ok k17 /\ rev (trials f (newton sol 3)) = last :: rest
    /\ anchor17 u (c_speed c35) q17
    /\ p35 = (0.4 * (p17 + w) + 0.6 * (p47 + w) + 0.4 * (q17 / last - q17 / k17))
             * match df_strategy (u_defrost u) with DSNone => 1 | _ => 0.985 end - w.
Proof. exact powers24. Qed.
Print Assumptions C77_power_at_35.

Theorem C77_power_at_35_if_last_trial : forall sol u c17 c47 c35 p17 p47 p35 w,
  answers_last_trial sol ->
  c_speed c17 = c_speed c35 -> c_speed c47 = c_speed c35 ->
  degF (ps_db (c_outdoor c17)) = 17 -> degF (ps_db (c_outdoor c47)) = 47 ->
  degF (ps_db (c_outdoor c35)) = 35 -> in_defrost (u_defrost u) c35 = true ->
  not_supplied u "cop35" ->
  entry (sd_fan_power (u_h u)) (c_speed c35) w ->
  gross_steady_state_heating_power (Title24DXModel sol) u (Some c17) = Ok p17 ->
  gross_steady_state_heating_power (Title24DXModel sol) u (Some c47) = Ok p47 ->
  gross_integrated_heating_power (Title24DXModel sol) u (Some c35) = Ok p35 ->
  expected_at_35 u p17 p47 w p35.
Proof. exact powers24_last. Qed.
Print Assumptions C77_power_at_35_if_last_trial.

(** Without that assumption it need not hold, however exact the root: the COP stored for 35 F
    is that of the last trial (title24.py:386, 471-488). *)
Theorem C77_power_at_35_refuted : ~ forall sol u c17 c47 c35 p17 p47 p35 w,
  newton_finds_roots 0 sol ->
  c_speed c17 = c_speed c35 -> c_speed c47 = c_speed c35 ->
  degF (ps_db (c_outdoor c17)) = 17 -> degF (ps_db (c_outdoor c47)) = 47 ->
  degF (ps_db (c_outdoor c35)) = 35 -> in_defrost (u_defrost u) c35 = true ->
  not_supplied u "cop35" ->
  entry (sd_fan_power (u_h u)) (c_speed c35) w ->
  gross_steady_state_heating_power (Title24DXModel sol) u (Some c17) = Ok p17 ->
  gross_steady_state_heating_power (Title24DXModel sol) u (Some c47) = Ok p47 ->
  gross_integrated_heating_power (Title24DXModel sol) u (Some c35) = Ok p35 ->
  expected_at_35 u p17 p47 w p35.
Proof. exact power_at_35_wrong. Qed.
Print Assumptions C77_power_at_35_refuted.

(** A unit with an HSPF that belongs to a COP of 3 at 17 F. *)
Example C77_nonvacuous :
  newton_finds_roots 0 prompt_sol /\ answers_last_trial prompt_sol
  /\ in_defrost (u_defrost t24_heater) (heater_cond 35) = true
  /\ not_supplied t24_heater "cop35"
  /\ (forall f, degF (ps_db (c_outdoor (heater_cond f))) = f)
  /\ forall f, (exists p, gross_steady_state_heating_power (Title24DXModel prompt_sol) t24_heater
                            (Some (heater_cond f)) = Ok p)
     /\ exists p, gross_integrated_heating_power (Title24DXModel prompt_sol) t24_heater
                    (Some (heater_cond f)) = Ok p.
Proof.
  split; [exact prompt_sound|]. split; [exact prompt_last|]. split; [exact heater_defrost|].
  split; [exact heater_no_cop35|]. split; [exact heater_temp|].
  intros f. exact (heater_runs false (heater_cond f) eq_refl).
Qed.
