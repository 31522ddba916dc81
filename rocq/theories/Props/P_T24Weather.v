(** Property C114: Title 24 cooling against weather and airflow (models/title24.py). *)
From Coq Require Import Reals Lra List String.
From Verif.Base Require Import Num Res Tac.
From Verif.Model Require Import Units Psychrometrics Conditions Defrost Fan Tabular Unit
  BaseModel Title24 DXUnit.
From Verif.Spec Require Import NrelSpec ModelSpec Title24Spec T24WeatherSpec.
From Verif.Proofs Require Import ToyUnit T24Cooling ToyT24 T24Weather T24WeatherExample.
Import ListNotations.
Local Open Scope R_scope.

(** A moister or cooler room, cooler weather and less air never raise the sensible share. *)
Theorem C114_sensible_share : forall sol u c c' wb odb idb v wb' odb' idb' v' s s' q q',
  t24_point c wb odb idb v -> t24_point c' wb' odb' idb' v' ->
  wb <= wb' <= 99 -> odb' <= odb -> idb' <= idb -> 0 <= v' <= v ->
  gross_total_cooling_capacity (Title24DXModel sol) u (Some c) = Ok q -> 0 < q ->
  gross_total_cooling_capacity (Title24DXModel sol) u (Some c') = Ok q' -> 0 < q' ->
  gross_sensible_cooling_capacity (Title24DXModel sol) u (Some c) = Ok s ->
  gross_sensible_cooling_capacity (Title24DXModel sol) u (Some c') = Ok s' ->
  s' / q' <= s / q.
Proof. exact dry_spell. Qed.
Print Assumptions C114_sensible_share.

Example C114_sensible_nonvacuous : forall sol, exists s s' q q',
  gross_total_cooling_capacity (Title24DXModel sol) cooler (Some (air24 62 105 80 400)) = Ok q
  /\ 0 < q
  /\ gross_total_cooling_capacity (Title24DXModel sol) cooler (Some (air24 67 95 75 350)) = Ok q'
  /\ 0 < q'
  /\ gross_sensible_cooling_capacity (Title24DXModel sol) cooler (Some (air24 62 105 80 400)) = Ok s
  /\ gross_sensible_cooling_capacity (Title24DXModel sol) cooler (Some (air24 67 95 75 350)) = Ok s'.
Proof.
  intros sol.
  assert (Q := cooler_cap_wet sol 62 105 80 400 ltac:(lra) ltac:(wet)). cbv zeta in Q. specialize (Q ltac:(lra)).
  assert (Q' := cooler_cap_wet sol 67 95 75 350 ltac:(lra) ltac:(wet)). cbv zeta in Q'. specialize (Q' ltac:(lra)).
  do 4 eexists. split; [exact Q|]. split; [lra|]. split; [exact Q'|]. split; [lra|].
  split; (apply cooler_sensible; [lra| |eassumption]); unfold t24_shr; apply Rmin_glb; lra.
Qed.

(** While the coil stays wet, or stays dry, hotter weather means less capacity. *)
Theorem C114_hotter_less_capacity : forall sol u c c' g q q',
  c_speed c' = c_speed c -> entry (sd_gross_cap (u_c u)) (c_speed c) g -> 0 < g ->
  gross_total_cooling_capacity (Title24DXModel sol) u (Some c) = Ok q ->
  gross_total_cooling_capacity (Title24DXModel sol) u (Some c') = Ok q' ->
  forall wb idb v odb odb',
  t24_point c wb odb idb v -> t24_point c' wb odb' idb v ->
  30 <= wb -> 0 <= idb -> 0 <= v -> odb < odb' ->
  same_coil wb odb idb v wb odb' idb v -> q' < q.
Proof. exact hotter_less. Qed.
Print Assumptions C114_hotter_less_capacity.

Example C114_hotter_nonvacuous : forall sol, exists q q',
  same_coil 67 95 80 400 67 105 80 400
  /\ gross_total_cooling_capacity (Title24DXModel sol) cooler (Some (air24 67 95 80 400)) = Ok q
  /\ gross_total_cooling_capacity (Title24DXModel sol) cooler (Some (air24 67 105 80 400)) = Ok q'.
Proof.
  intros sol. assert (A : t24_wet 67 95 80 400) by wet. assert (B : t24_wet 67 105 80 400) by wet.
  do 2 eexists. split; [left; auto|].
  split; apply (cooler_cap_wet sol); try lra; assumption.
Qed.

(** Where it falls dry the capacity jumps: at 60 F wet bulb, 80 F and 400 cfm per ton every unit
    has more capacity at 96.5 F than at 96 F. *)
Theorem C114_hotter_less_capacity_always_refuted : forall sol u c c' g q q',
  c_speed c' = c_speed c -> entry (sd_gross_cap (u_c u)) (c_speed c) g -> 0 < g ->
  t24_point c 60 96 80 400 -> t24_point c' 60 96.5 80 400 ->
  gross_total_cooling_capacity (Title24DXModel sol) u (Some c) = Ok q ->
  gross_total_cooling_capacity (Title24DXModel sol) u (Some c') = Ok q' -> q < q'.
Proof. exact jump. Qed.
Print Assumptions C114_hotter_less_capacity_always_refuted.

Example C114_jump_nonvacuous : forall sol, exists q q',
  gross_total_cooling_capacity (Title24DXModel sol) cooler (Some (air24 60 96 80 400)) = Ok q
  /\ gross_total_cooling_capacity (Title24DXModel sol) cooler (Some (air24 60 96.5 80 400)) = Ok q'.
Proof.
  intros sol. do 2 eexists.
  split; [apply (cooler_cap_wet sol); [lra|wet|lra]|apply (cooler_cap_dry sol); [lra|dry|lra]].
Qed.

(** More moisture in the room: more capacity from a wet coil, no difference to a dry one. *)
Theorem C114_moister_more_capacity : forall sol u c c' g q q',
  c_speed c' = c_speed c -> entry (sd_gross_cap (u_c u)) (c_speed c) g -> 0 < g ->
  gross_total_cooling_capacity (Title24DXModel sol) u (Some c) = Ok q ->
  gross_total_cooling_capacity (Title24DXModel sol) u (Some c') = Ok q' ->
  forall wb wb' odb idb v,
  t24_point c wb odb idb v -> t24_point c' wb' odb idb v ->
  40 <= wb < wb' -> odb <= 130 -> 0 <= v ->
  t24_wet wb odb idb v -> t24_wet wb' odb idb v -> q < q'.
Proof. exact moister_more. Qed.
Print Assumptions C114_moister_more_capacity.

Theorem C114_dry_coil : forall sol u c c' g q q',
  c_speed c' = c_speed c -> entry (sd_gross_cap (u_c u)) (c_speed c) g ->
  gross_total_cooling_capacity (Title24DXModel sol) u (Some c) = Ok q ->
  gross_total_cooling_capacity (Title24DXModel sol) u (Some c') = Ok q' ->
  forall wb wb' odb idb v,
  t24_point c wb odb idb v -> t24_point c' wb' odb idb v ->
  ~ t24_wet wb odb idb v -> ~ t24_wet wb' odb idb v -> q' = q.
Proof. exact dry_same. Qed.
Print Assumptions C114_dry_coil.

(** More air, up to 400 cfm per ton, more capacity. *)
Theorem C114_more_air_more_capacity : forall sol u c c' g q q',
  c_speed c' = c_speed c -> entry (sd_gross_cap (u_c u)) (c_speed c) g -> 0 < g ->
  gross_total_cooling_capacity (Title24DXModel sol) u (Some c) = Ok q ->
  gross_total_cooling_capacity (Title24DXModel sol) u (Some c') = Ok q' ->
  forall wb odb idb v v',
  t24_point c wb odb idb v -> t24_point c' wb odb idb v' ->
  55 <= wb -> odb <= 125 -> 70 <= idb -> 0 < v < v' -> v' <= 400 ->
  same_coil wb odb idb v wb odb idb v' -> q < q'.
Proof. exact more_air. Qed.
Print Assumptions C114_more_air_more_capacity.

Example C114_capacity_nonvacuous : forall sol, exists q1 q2 q3 q4 q5,
  t24_wet 67 95 80 350 /\ t24_wet 70 95 80 350 /\ t24_wet 67 95 80 400
  /\ ~ t24_wet 50 95 80 350 /\ ~ t24_wet 55 95 80 350
  /\ gross_total_cooling_capacity (Title24DXModel sol) cooler (Some (air24 67 95 80 350)) = Ok q1
  /\ gross_total_cooling_capacity (Title24DXModel sol) cooler (Some (air24 70 95 80 350)) = Ok q2
  /\ gross_total_cooling_capacity (Title24DXModel sol) cooler (Some (air24 67 95 80 400)) = Ok q3
  /\ gross_total_cooling_capacity (Title24DXModel sol) cooler (Some (air24 50 95 80 350)) = Ok q4
  /\ gross_total_cooling_capacity (Title24DXModel sol) cooler (Some (air24 55 95 80 350)) = Ok q5.
Proof.
  intros sol.
  assert (A : t24_wet 67 95 80 350) by wet. assert (B : t24_wet 70 95 80 350) by wet.
  assert (C : t24_wet 67 95 80 400) by wet. assert (D : ~ t24_wet 50 95 80 350) by dry.
  assert (E : ~ t24_wet 55 95 80 350) by dry.
  do 5 eexists. do 5 (split; [assumption|]).
  do 3 (split; [apply (cooler_cap_wet sol); [lra|assumption|lra]|]).
  split; apply (cooler_cap_dry sol); try lra; assumption.
Qed.

(** From 95 F the efficiency falls as it gets hotter. *)
Theorem C114_hotter_less_efficient : forall sol u c c' wb odb odb' idb v q g w cop f k k',
  t24_point c wb odb idb v -> t24_point c' wb odb' idb v -> c_speed c' = c_speed c ->
  95 <= odb < odb' -> wb <= 80 -> idb <= 200 -> v <= 600 ->
  same_coil wb odb idb v wb odb' idb v -> rated24 u (c_speed c) q g w cop f ->
  (forall x, gross_total_cooling_capacity (Title24DXModel sol) u (Some c) = Ok x -> 0 < x) ->
  (forall x, gross_total_cooling_capacity (Title24DXModel sol) u (Some c') = Ok x -> 0 < x) ->
  gross_total_cooling_cop (Title24DXModel sol) u (Some c) = Ok k ->
  gross_total_cooling_cop (Title24DXModel sol) u (Some c') = Ok k' -> k' < k.
Proof. exact cop_falls. Qed.
Print Assumptions C114_hotter_less_efficient.

Example C114_efficiency_nonvacuous : forall sol, rated24 cooler 0 10000 10300 300 4 1
  /\ same_coil 67 95 80 400 67 115 80 400
  /\ forall o, o = 95 \/ o = 115 -> exists k q,
     gross_total_cooling_cop (Title24DXModel sol) cooler (Some (air24 67 o 80 400)) = Ok k
     /\ gross_total_cooling_capacity (Title24DXModel sol) cooler (Some (air24 67 o 80 400)) = Ok q
     /\ 0 < q.
Proof.
  intros sol. split; [exact cooler_rated|]. split; [left; split; wet|].
  intros o O. destruct (cooler_hot_cop sol o) as (k & K & q & Q); [destruct O; lra|]. eauto.
Qed.

(** The power: up to 82 F the power curve times the power implied by the SEER, from 95 F the
    power curve times the capacity curve times the power implied by the rated COP. *)
Theorem C114_power_mild : forall sol u c wb odb idb v q g w f seer fc fm,
  t24_point c wb odb idb v -> odb <= 82 ->
  nth_error (sd_net_cap (u_c u)) (c_speed c) = Some q -> 0 < q ->
  entry (sd_gross_cap (u_c u)) (c_speed c) g -> 0 < g ->
  entry (sd_fan_power (u_c u)) (c_speed c) w -> 0 <= w ->
  efficiency_factor u f -> 0 < f -> u_seer u = Some seer -> 0 < seer ->
  w < 1.09 * q / as_cop seer ->
  t24_cap wb odb idb v fc -> 0 < fc -> t24_pow_mild wb odb idb v fm -> 0 < fm ->
  gross_cooling_power (Title24DXModel sol) u (Some c)
  = Ok (fm * g * (1.09 * q / as_cop seer - w) / (1.09 * q + w) / f).
Proof. exact power_mild. Qed.
Print Assumptions C114_power_mild.

Theorem C114_power_hot : forall sol u c wb odb idb v q g w cop f fc fp,
  t24_point c wb odb idb v -> 95 <= odb -> rated24 u (c_speed c) q g w cop f ->
  t24_cap wb odb idb v fc -> 0 < fc -> t24_pow_hot wb odb idb v fp -> 0 < fp ->
  gross_cooling_power (Title24DXModel sol) u (Some c)
  = Ok (fc * fp * (q / cop - w / 3.413) / f).
Proof. exact power_hot. Qed.
Print Assumptions C114_power_hot.

Example C114_power_nonvacuous :
  (exists fc fm, t24_cap 67 75 80 400 fc /\ 0 < fc /\ t24_pow_mild 67 75 80 400 fm /\ 0 < fm)
  /\ (exists fc fp, t24_cap 67 115 80 400 fc /\ 0 < fc /\ t24_pow_hot 67 115 80 400 fp /\ 0 < fp)
  /\ u_seer cooler = Some 14 /\ 300 < 1.09 * 10000 / as_cop 14
  /\ rated24 cooler 0 10000 10300 300 4 1.
Proof.
  assert (W : t24_wet 67 75 80 400) by wet.
  split.
  - do 2 eexists. split; [split; intros X; [reflexivity|contradiction]|]. split; [lra|].
    split; [split; intros X; [reflexivity|contradiction]|]. lra.
  - split.
    + exists (1.656298 - 0.0069084 * 115), (0.231678 + 0.0080876 * 115).
      split; [apply cap67; lra|]. split; [lra|]. split; [apply hot67; lra|lra].
    + split; [reflexivity|]. split; [unfold as_cop; lra|exact cooler_rated].
Qed.

(** So the power does not rise with outdoor temperature: with the indoor air of the rating test it
    rises from 95 to 105 F and falls from 106 F. *)
Theorem C114_hotter_more_power_refuted : forall sol u c c' odb odb' q g w cop f,
  t24_point c 67 odb 80 400 -> t24_point c' 67 odb' 80 400 -> c_speed c' = c_speed c ->
  95 <= odb < odb' -> odb' <= 200 -> rated24 u (c_speed c) q g w cop f ->
  exists p p', gross_cooling_power (Title24DXModel sol) u (Some c) = Ok p
    /\ gross_cooling_power (Title24DXModel sol) u (Some c') = Ok p'
    /\ (odb' <= 105 -> p < p') /\ (106 <= odb -> p' < p).
Proof. exact power_peaks. Qed.
Print Assumptions C114_hotter_more_power_refuted.

Example C114_peak_nonvacuous : t24_point (air24 67 106 80 400) 67 106 80 400
  /\ t24_point (air24 67 115 80 400) 67 115 80 400 /\ rated24 cooler 0 10000 10300 300 4 1.
Proof. split; [|split]; [apply air24_point; lra|apply air24_point; lra|exact cooler_rated]. Qed.
