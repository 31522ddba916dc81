(** Conditions for the examples of C114. *)
From Coq Require Import Reals Lra List String.
From Verif.Base Require Import Num Res Tac.
From Verif.Model Require Import Units Psychrometrics Conditions Defrost Fan Tabular Unit
  BaseModel Title24 DXUnit.
From Verif.Spec Require Import NrelSpec ModelSpec Title24Spec T24WeatherSpec.
From Verif.Proofs Require Import NrelProofs ToyUnit T24Cooling ToyT24 T24Weather.
Import ListNotations.
Local Open Scope R_scope.

(** Wet bulb, outdoor and indoor dry bulb in degrees Fahrenheit, airflow in cfm per ton. *)
Definition air24 (wb odb idb v : R) : cond R :=
  mkCond (psych_wetbulb ((odb + 459.67) * 5 / 9) 101325 290)
    (psych_wetbulb ((idb + 459.67) * 5 / 9) 101325 ((wb + 459.67) * 5 / 9)) 0 true (Some 125)
    (Some 0%nat) (Some 10000) (Some 1) (Some 1) (Some 1.2) (Some 1) (Some 1.2)
    (Some 1) (Some 1)
    (Some (v * (0.028316846592 / 60) / (12000 * (1055.056 / 3600)))) (Some 125).
Lemma air24_point wb odb idb v : v <> 0 -> t24_point (air24 wb odb idb v) wb odb idb v.
Proof.
  intros V. eexists _, _. split; [reflexivity|]. split; [reflexivity|]. split; [exact V|].
  unfold degF, cfm_per_ton. cbn. repeat split; try lra; field; lra.
Qed.

Lemma cooler_rated : rated24 cooler 0 10000 10300 300 4 1.
Proof.
  unfold rated24. repeat (split; [first [reflexivity | apply cooler_factor | lra]|]). lra.
Qed.

(** The cooler has a capacity wherever the curve is positive. *)
Lemma cooler_cap sol wb odb idb v f : v <> 0 -> t24_cap wb odb idb v f -> 0 <= f ->
  gross_total_cooling_capacity (M24 sol) cooler (Some (air24 wb odb idb v)) = Ok (f * 10300).
Proof.
  intros V F F0.
  destruct (total24 sol cooler (air24 wb odb idb v) _ _ _ _ 10300 (air24_point wb odb idb v V) eq_refl)
    as (x & X & T & _).
  assert (x = f).
  { destruct F as [A B], X as [A' B']. destruct (wet_dec wb odb idb v) as [[_ Y]|[_ Y]].
    - rewrite (A Y), (A' Y). reflexivity.
    - rewrite (B Y), (B' Y). reflexivity. }
  subst x. apply T. lra.
Qed.
Lemma cooler_cap_wet sol wb odb idb v : v <> 0 -> t24_wet wb odb idb v ->
  let f := 0.38156715 + 0.0096459 * wb + 0.0025369 * odb + 0.0001715 * v - 0.0000959 * wb * odb
       + 0.00000818 * wb * v - 0.00000755 * odb * v + 0.0001057 * wb ^ 2 - 53.5423 / v in
  0 <= f ->
  gross_total_cooling_capacity (M24 sol) cooler (Some (air24 wb odb idb v)) = Ok (f * 10300).
Proof.
  intros V W f F0. apply cooler_cap; [exact V| |exact F0].
  split; intros X; [reflexivity|contradiction].
Qed.
Lemma cooler_cap_dry sol wb odb idb v : v <> 0 -> ~ t24_wet wb odb idb v ->
  let f := 0.4307516 + 0.0094831 * idb - 0.0006006 * odb - 0.0001489 * v - 0.0000326 * idb * odb
       + 0.0000119 * idb * v - 0.00000505 * odb * v - 52.56174 / v in
  0 <= f ->
  gross_total_cooling_capacity (M24 sol) cooler (Some (air24 wb odb idb v)) = Ok (f * 10300).
Proof.
  intros V W f F0. apply cooler_cap; [exact V| |exact F0].
  split; intros X; [contradiction|reflexivity].
Qed.

Ltac wet := unfold t24_wet, t24_shr; eapply Rle_lt_trans; [apply Rmin_r|]; lra.
Ltac dry := unfold t24_wet, t24_shr; rewrite Rmin_left; lra.

Lemma cooler_sensible sol wb odb idb v q : v <> 0 -> 0 <= t24_shr wb odb idb v ->
  gross_total_cooling_capacity (M24 sol) cooler (Some (air24 wb odb idb v)) = Ok q ->
  gross_sensible_cooling_capacity (M24 sol) cooler (Some (air24 wb odb idb v))
  = Ok (t24_shr wb odb idb v * q).
Proof.
  intros V S Q. unfold gross_sensible_cooling_capacity, cooling_conditions. cbn [rbind].
  change (md_gsc (M24 sol)) with (t24_gross_sensible_cooling_capacity (T:=R)).
  unfold t24_gross_sensible_cooling_capacity. rewrite (shr_eq cooler _ _ _ _ _ (air24_point wb odb idb v V)).
  assert (CP : checked_product t24_gross_total_cooling_capacity unit_factor cooler (air24 wb odb idb v) = Ok q)
    by exact Q.
  rewrite CP. cbn [rbind]. cbn [nmul RNum]. apply NrelProofs.limit_check_pos.
  apply gtc24 in Q. destruct Q as [_ Q]. apply Rmult_le_pos; assumption.
Qed.

Lemma cooler_hot_cop sol o : 95 <= o <= 200 -> exists k,
  gross_total_cooling_cop (M24 sol) cooler (Some (air24 67 o 80 400)) = Ok k
  /\ exists q, gross_total_cooling_capacity (M24 sol) cooler (Some (air24 67 o 80 400)) = Ok q /\ 0 < q.
Proof.
  intros O. assert (C := cap67 o ltac:(lra)). assert (H := hot67 o ltac:(lra)).
  assert (Q := cooler_cap sol 67 o 80 400 _ ltac:(lra) C ltac:(lra)).
  assert (Pw := power_hot sol cooler (air24 67 o 80 400) _ _ _ _ 10000 10300 300 4 1 _ _
    (air24_point 67 o 80 400 ltac:(lra)) (proj1 O) cooler_rated C ltac:(lra) H ltac:(lra)).
  eexists. split.
  - unfold gross_total_cooling_cop, both. rewrite Q. cbn [rbind]. rewrite Pw. cbn [rbind].
    apply pydiv_ok. apply Rgt_not_eq. apply Rdiv_lt_0_compat; [|lra].
    apply Rmult_lt_0_compat; [|lra]. apply Rmult_lt_0_compat; lra.
  - eexists. split; [exact Q|]. lra.
Qed.
