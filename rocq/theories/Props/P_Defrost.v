(** Properties C09-C10: defrost (defrost.py). *)
From Coq Require Import Reals Lra List.
From Verif.Base Require Import Num Res Tac.
From Verif.Model Require Import Units Psychrometrics Conditions Defrost.
From Verif.Spec Require Import DefrostSpec.
From Verif.Proofs Require Import DefrostProofs.
Import ListNotations.
Local Open Scope R_scope.

Theorem C09_in_defrost_exactly_in_window : forall d c,
  in_defrost d c = true <-> defrost_window d (ps_db (c_outdoor c)).
Proof. exact in_defrost_iff. Qed.
Print Assumptions C09_in_defrost_exactly_in_window.

Definition defrost_ex (ctl : defrost_control) (period max_time : R) : defrost R :=
  mkDefrost default_time_fraction 0 ctl DSReverseCycle 277 (Some 250) period max_time.

Example C09_nonvacuous : defrost_window (defrost_ex DCTimed 5400 43200) 260
  /\ ~ defrost_window (defrost_ex DCTimed 5400 43200) 277
  /\ ~ defrost_window (defrost_ex DCTimed 5400 43200) 250.
Proof.
  unfold defrost_window, defrost_ex; simpl.
  split; [|split].
  - split; [discriminate|]. split; [lra|]. intros l E. injection E as <-. lra.
  - intros (_ & H & _). lra.
  - intros (_ & _ & H). specialize (H _ eq_refl). lra.
Qed.

Theorem C10_credit_is_one_without_demand_control : forall d,
  df_control d <> DCDemand -> demand_credit (T:=R) d = Ok 1.
Proof. exact demand_credit_not_demand. Qed.
Print Assumptions C10_credit_is_one_without_demand_control.

Theorem C10_credit_bounds : forall d,
  df_control d = DCDemand -> min90 < df_max_time d ->
  df_period d <= df_max_time d -> df_period d <= min720 ->
  exists x, demand_credit d = Ok x /\ 1 <= x <= 1.03
    /\ (df_period d <= min90 -> x = 1.03)
    /\ (df_period d = Rmin (df_max_time d) min720 -> x = 1).
Proof. exact demand_credit_bounds. Qed.
Print Assumptions C10_credit_bounds.

Theorem C10_credit_never_increases_with_period : forall d d' x x',
  df_control d = DCDemand -> df_control d' = DCDemand ->
  df_max_time d = df_max_time d' -> min90 < df_max_time d ->
  df_period d <= df_period d' ->
  demand_credit d = Ok x -> demand_credit d' = Ok x' -> x' <= x.
Proof. exact demand_credit_antitone. Qed.
Print Assumptions C10_credit_never_increases_with_period.

Theorem C10_max_time_90_minutes_raises : forall d,
  df_control d = DCDemand -> df_max_time d = min90 ->
  demand_credit d = Err ZeroDivisionError.
Proof. exact demand_credit_zero_div. Qed.
Print Assumptions C10_max_time_90_minutes_raises.

Theorem C10_short_max_time_exceeds_bound_refuted : forall d,
  df_control d = DCDemand -> df_max_time d < min90 -> min90 < df_period d ->
  exists x, demand_credit d = Ok x /\ 1.03 < x.
Proof. exact demand_credit_above. Qed.
Print Assumptions C10_short_max_time_exceeds_bound_refuted.

Theorem C10_long_period_below_one_refuted : forall d,
  df_control d = DCDemand -> min90 < df_max_time d ->
  Rmin (df_max_time d) min720 < df_period d ->
  exists x, demand_credit d = Ok x /\ x < 1.
Proof. exact demand_credit_below. Qed.
Print Assumptions C10_long_period_below_one_refuted.

Example C10_nonvacuous :
  let d := defrost_ex DCDemand 10000 43200 in
  df_control d = DCDemand /\ min90 < df_max_time d
  /\ df_period d <= df_max_time d /\ df_period d <= min720.
Proof. unfold min90, min720; simpl. repeat split; lra. Qed.

Theorem C10_resistive_strategy_needs_power : forall tf rp ctl strat hi lo per mx d,
  Defrost (T:=R) tf rp ctl strat hi lo per mx = Ok d ->
  df_strategy d = DSResistive -> 0 < df_resistive_power d.
Proof. exact Defrost_resistive. Qed.
Print Assumptions C10_resistive_strategy_needs_power.
