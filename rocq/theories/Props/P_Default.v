(** Properties C78 and C79: the fan and the capacities a unit gets by default, and the units of
    the constant model (base_model.py, constant_model.py, title24.py, dx_unit.py). *)
From Coq Require Import Reals Lra List String.
From Verif.Base Require Import Num Res Tac.
From Verif.Model Require Import Units Psychrometrics Conditions Defrost Fan Tabular Unit
  BaseModel Title24 DXUnit.
From Verif.Spec Require Import NrelSpec UnitModels SeasonSpec DefaultSpec.
From Verif.Proofs Require Import UnitProofs2 DefaultFan2 ConstantUnit ToyBuild ToyT24Unit ToyDefault.
Import ListNotations.
Local Open Scope R_scope.

(** * C78 *)
Theorem C78_default_fan : forall psy sol M a u, base_fan_model M -> a_fan a = None ->
  DXUnit psy sol M a = Ok u ->
  forall m i q, nth_error (sd_net_cap (side_of m u)) i = Some q ->
  served sol u m i (match m with Cooling => i | Heating => (sd_n (u_c u) + i)%nat end)
    (q * per_ton 375) (q * per_ton 375 * per_cfm 0.365).
Proof. exact default_fan. Qed.
Print Assumptions C78_default_fan.

Theorem C78_title24_default_fan : forall psy sol a u, a_fan a = None ->
  DXUnit psy sol (Title24DXModel sol) a = Ok u ->
  exists q, sd_n (u_c u) = 1%nat /\ sd_n (u_h u) = 1%nat /\ sd_net_cap (u_c u) = [q]
    /\ served sol u Cooling 0 0 (q * per_ton 350) (q * (500 / 12000))
    /\ served sol u Heating 0 1 (q * per_ton 350) (q * (500 / 12000)).
Proof. exact t24_default_fan. Qed.
Print Assumptions C78_title24_default_fan.

Theorem C78_gross_capacity : forall psy sol M a u, plain_model sol M ->
  DXUnit psy sol M a = Ok u ->
  forall m i q w, nth_error (sd_net_cap (side_of m u)) i = Some q ->
  entry (sd_fan_power (side_of m u)) i w ->
  entry (sd_gross_cap (side_of m u)) i (gross_of_net m q w).
Proof. exact gross_capacity. Qed.
Print Assumptions C78_gross_capacity.

Theorem C78_default_heating_capacity : forall psy sol M a u, plain_model sol M ->
  a_hcap a = None -> DXUnit psy sol M a = Ok u ->
  exists q, nth_error (sd_net_cap (u_c u)) 0 = Some q
    /\ sd_net_cap (u_h u) = repeat q (sd_n (u_h u)).
Proof. exact default_heating. Qed.
Print Assumptions C78_default_heating_capacity.

(** A fan given to the constructor never leads to a unit. *)
Theorem C78_given_fan_refuted : forall psy sol M a f, plain_model sol M -> a_fan a = Some f ->
  forall u, DXUnit psy sol M a <> Ok u.
Proof. exact given_fan_rejected. Qed.
Print Assumptions C78_given_fan_refuted.

Example C78_default_fan_example :
  exists u f, DXUnit lin_psy lin_sol ConstantDXModel two_args = Ok u
    /\ u_fan u = Some f
    /\ power lin_sol f 3 (Some 100) = Ok (6000 * per_ton 375 * per_cfm 0.365)
    /\ entry (sd_gross_cap (u_h u)) 1 (6000 - 6000 * per_ton 375 * per_cfm 0.365).
Proof.
  destruct two_runs as (u & c & d & B & Q & _ & H & _).
  assert (M1 : base_fan_model ConstantDXModel) by (right; left; reflexivity).
  pose proof (two_speeds u B) as N.
  pose proof (C78_default_fan lin_psy lin_sol _ two_args u M1 eq_refl B Heating 1 6000 H) as S.
  destruct S as (_ & W & _ & _ & f & F & P). rewrite N in P.
  exists u, f. split; [exact B|]. split; [exact F|]. split; [apply (P (Some 100))|].
  exact (C78_gross_capacity lin_psy lin_sol _ two_args u
    ltac:(right; left; reflexivity) B Heating 1 6000 _ H W).
Qed.

Example C78_title24_example :
  exists u, DXUnit flat_psy low_sol (Title24DXModel low_sol) (t24_args 12000 9000) = Ok u
    /\ entry (sd_fan_power (u_h u)) 0 500.
Proof.
  destruct (t24_constructed 12000 9000 ltac:(lra) ltac:(lra) ltac:(lra)) as (u & B).
  exists u. split; [exact B|].
  destruct (C78_title24_default_fan flat_psy low_sol (t24_args 12000 9000) u eq_refl B)
    as (q & _ & _ & E & _ & _ & W & _).
  rewrite (proj1 (proj2 (proj2 (plain_capacities_given flat_psy low_sol _ _ u
    ltac:(do 3 right; left; reflexivity) B)))) in E. injection E as <-.
  replace 500 with (12000 * (500 / 12000)) by lra. exact W.
Qed.

Example C78_default_heating_example :
  exists u, DXUnit lin_psy lin_sol ConstantDXModel (no_heating 5000) = Ok u
    /\ exists q, nth_error (sd_net_cap (u_c u)) 0 = Some q
       /\ sd_net_cap (u_h u) = repeat q (sd_n (u_h u)).
Proof.
  destruct (no_heating_builds 5000 ltac:(lra)) as (u & B). exists u. split; [exact B|].
  exact (C78_default_heating_capacity lin_psy lin_sol _ (no_heating 5000) u ltac:(right; left; reflexivity)
    eq_refl B).
Qed.

(** The same arguments with and without the unit's own fan. *)
Example C78_given_fan_example :
  exists u f, DXUnit lin_psy lin_sol ConstantDXModel two_args = Ok u /\ u_fan u = Some f
    /\ forall v, DXUnit lin_psy lin_sol ConstantDXModel (with_fan f two_args) <> Ok v.
Proof.
  destruct C78_default_fan_example as (u & f & B & F & _).
  exists u, f. split; [exact B|]. split; [exact F|].
  exact (C78_given_fan_refuted lin_psy lin_sol _ (with_fan f two_args) f
    ltac:(right; left; reflexivity) eq_refl).
Qed.

(** * C79 *)
Theorem C79_cooling : forall psy sol a u i q g c,
  DXUnit psy sol ConstantDXModel a = Ok u ->
  nth_error (sd_net_cap (u_c u)) i = Some q -> entry (sd_gross_cop (u_c u)) i g ->
  0 < q -> 0 < g -> runs u Cooling i c ->
  exists w, w = q * per_ton 375 * per_cfm 0.365
    /\ cooling_fan_power sol u (Some c) = Ok w
    /\ gross_total_cooling_capacity ConstantDXModel u (Some c) = Ok (q + w)
    /\ net_total_cooling_capacity sol ConstantDXModel u (Some c) = Ok q
    /\ gross_shr ConstantDXModel u (Some c) = Ok 0.7
    /\ gross_sensible_cooling_capacity ConstantDXModel u (Some c) = Ok (0.7 * (q + w))
    /\ gross_cooling_power ConstantDXModel u (Some c) = Ok ((q + w) / g)
    /\ net_cooling_power sol ConstantDXModel u (Some c) = Ok ((q + w) / g + w).
Proof. exact constant_cooling. Qed.
Print Assumptions C79_cooling.

Theorem C79_heating : forall psy sol a u i q g c,
  DXUnit psy sol ConstantDXModel a = Ok u ->
  nth_error (sd_net_cap (u_h u)) i = Some q -> entry (sd_gross_cop (u_h u)) i g ->
  g <> 0 -> runs u Heating i c ->
  exists w, w = q * per_ton 375 * per_cfm 0.365
    /\ heating_fan_power sol u (Some c) = Ok w
    /\ gross_steady_state_heating_capacity ConstantDXModel u (Some c) = Ok (q - w)
    /\ gross_integrated_heating_capacity ConstantDXModel u (Some c) = Ok (q - w)
    /\ net_steady_state_heating_capacity sol ConstantDXModel u (Some c) = Ok q
    /\ net_integrated_heating_capacity sol ConstantDXModel u (Some c) = Ok q
    /\ net_steady_state_heating_power sol ConstantDXModel u (Some c) = Ok ((q - w) / g + w)
    /\ net_integrated_heating_power sol ConstantDXModel u (Some c) = Ok ((q - w) / g + w).
Proof. exact constant_heating. Qed.
Print Assumptions C79_heating.

Theorem C79_cooling_cop : forall psy sol a u i q g n c,
  DXUnit psy sol ConstantDXModel a = Ok u -> cop_given Cooling a ->
  nth_error (sd_net_cap (u_c u)) i = Some q -> entry (sd_gross_cop (u_c u)) i g ->
  entry (sd_net_cop (u_c u)) i n -> 0 < q -> 0 < g -> runs u Cooling i c ->
  net_total_cooling_cop sol ConstantDXModel u (Some c) = Ok n.
Proof. exact constant_net_cop. Qed.
Print Assumptions C79_cooling_cop.

Theorem C79_heating_cop : forall psy sol a u i q g n c,
  DXUnit psy sol ConstantDXModel a = Ok u -> cop_given Heating a ->
  nth_error (sd_net_cap (u_h u)) i = Some q -> entry (sd_gross_cop (u_h u)) i g ->
  entry (sd_net_cop (u_h u)) i n -> q <> 0 -> g <> 0 -> runs u Heating i c ->
  net_steady_state_heating_cop sol ConstantDXModel u (Some c) = Ok n
  /\ net_integrated_heating_cop sol ConstantDXModel u (Some c) = Ok n.
Proof. exact constant_heating_cop. Qed.
Print Assumptions C79_heating_cop.

Theorem C79_eer_seer : forall psy sol a u q g n,
  DXUnit psy sol ConstantDXModel a = Ok u -> cop_given Cooling a ->
  nth_error (sd_net_cap (u_c u)) (sd_full (u_c u)) = Some q -> 0 < q ->
  entry (sd_gross_cop (u_c u)) (sd_full (u_c u)) g -> 0 < g ->
  entry (sd_net_cop (u_c u)) (sd_full (u_c u)) n ->
  eer sol ConstantDXModel u None = Ok (Btu_Wh n)
  /\ (u_staging u = SINGLE_STAGE ->
      seer sol ConstantDXModel u = Ok (Btu_Wh ((1 - sd_cd (u_c u) / 2) * n))).
Proof. exact constant_eer. Qed.
Print Assumptions C79_eer_seer.

(** The low speed of a two-stage unit. *)
Example C79_example :
  exists u c d n m, DXUnit lin_psy lin_sol ConstantDXModel two_args = Ok u
    /\ net_total_cooling_capacity lin_sol ConstantDXModel u (Some c) = Ok 7000
    /\ net_total_cooling_cop lin_sol ConstantDXModel u (Some c) = Ok n
    /\ net_integrated_heating_capacity lin_sol ConstantDXModel u (Some d) = Ok 6000
    /\ net_integrated_heating_cop lin_sol ConstantDXModel u (Some d) = Ok m.
Proof.
  destruct two_runs as (u & c & d & B & Q & G & H & K & R1 & R2 & (n & N) & m & M).
  exists u, c, d, n, m. split; [exact B|].
  assert (G1 : forall k, cop_given k two_args) by (intros []; left; eexists; reflexivity).
  destruct (C79_cooling lin_psy lin_sol _ u 1 7000 4 c B Q G ltac:(lra) ltac:(lra) R1)
    as (w & _ & _ & _ & E1 & _).
  destruct (C79_heating lin_psy lin_sol _ u 1 6000 3 d B H K ltac:(lra) R2)
    as (w' & _ & _ & _ & _ & _ & E2 & _).
  split; [exact E1|]. split.
  { exact (C79_cooling_cop lin_psy lin_sol _ u 1 7000 4 n c B (G1 Cooling) Q G N ltac:(lra)
      ltac:(lra) R1). }
  split; [exact E2|].
  exact (proj2 (C79_heating_cop lin_psy lin_sol _ u 1 6000 3 m d B (G1 Heating) H K M ltac:(lra)
      ltac:(lra) R2)).
Qed.

Example C79_seer_example :
  exists u n, DXUnit lin_psy lin_sol ConstantDXModel one_args = Ok u
    /\ eer lin_sol ConstantDXModel u None = Ok (Btu_Wh n)
    /\ seer lin_sol ConstantDXModel u = Ok (Btu_Wh ((1 - sd_cd (u_c u) / 2) * n)).
Proof.
  destruct one_rated as (u & n & B & Q & G & N & S). exists u, n. split; [exact B|].
  destruct (C79_eer_seer lin_psy lin_sol _ u 10000 4 n B ltac:(left; eexists; reflexivity) Q
    ltac:(lra) G ltac:(lra) N) as (E1 & E2). split; [exact E1|]. exact (E2 S).
Qed.
