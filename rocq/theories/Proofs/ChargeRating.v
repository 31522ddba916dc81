(** Lemmas for C107: the ratings of undercharged units. *)
From Coq Require Import String Reals QArith Lra Psatz List.
From Verif.Base Require Import Num Res Tac.
From Verif.Model Require Import Units Util Psychrometrics Conditions Defrost Fan Unit NREL BaseModel Resnet DXUnit.
From Verif.Spec Require Import UnitSpec UnitModels NrelSpec SeasonSpec TestSpec ChargeSpec.
From Verif.Proofs Require Import UnitsR NrelProofs NrelProofs2 SeerProofs HeatRatio FanCost TestProofs Charge ToyUnit ToyBuild ChargeExample.
From Verif.Props Require Import P_Psych.
Import ListNotations.
Local Open Scope R_scope.

Lemma cooling_test_weather psy sol M a (u : dxunit R) t :
  library_model psy sol M -> DXUnit psy sol M a = Ok u -> In t (tests u) -> test_mode t = Cooling ->
  exists c, stored t (u_conds u) = Some c /\ weather c 25 30 18 50.
Proof.
  intros L B I C. destruct (constructed_conditions psy sol M a u t L B I) as (c & S & K).
  exists c. split; [exact S|]. unfold condition_of in K. cbv zeta in K.
  destruct K as (speed & q & av & full & p & fs & _ & _ & (O & _) & (N & _) & _ & _ & _ & _ & _ & R1 & _).
  unfold weather. rewrite O, N. split; [exact R1|]. unfold indoor_air. rewrite C. clear - C. unfold deg_F.
  destruct t; try discriminate; cbn [fst outdoor_air]; lra.
Qed.

Lemma undercharged_seer psy sol M f (u : dxunit R) c w q0 v v0 :
  graded psy sol M -> u_staging u = SINGLE_STAGE -> rc_B_full (u_conds u) = Some c -> weather c 25 30 18 50 ->
  -0.5 <= f < 0 -> cooling_fan_power sol u (Some c) = Ok w -> 0 <= w ->
  gross_total_cooling_capacity M (charged 0 u) (Some c) = Ok q0 -> 0 < q0 -> sd_cd (u_c u) < 2 ->
  seer sol M (charged f u) = Ok v -> seer sol M (charged 0 u) = Ok v0 -> v < v0.
Proof.
  intros G S B W F P P0 Q Q0 D A A0.
  apply seer_single_inv in A as (c1 & n & B1 & N & ->); [|exact S].
  apply seer_single_inv in A0 as (c2 & n0 & B2 & N0 & ->); [|exact S].
  cbn [charged u_conds u_c] in *. rewrite B in B1, B2. inversion B1; inversion B2; subst c1 c2.
  destruct (under_cooling_effect psy sol M f u c G W F) as (_ & _ & _ & E).
  specialize (E w q0 n n0 P P0 Q Q0 N N0). unfold Btu_Wh.
  assert ((1 - sd_cd (u_c u) / 2) * n < (1 - sd_cd (u_c u) / 2) * n0) by (apply Rmult_lt_compat_l; lra). lra.
Qed.

Lemma undercharged_eer psy sol M f (u : dxunit R) c w q0 v v0 :
  graded psy sol M -> rc_A_full (u_conds u) = Some c -> weather c 25 30 18 50 ->
  -0.5 <= f < 0 -> cooling_fan_power sol u (Some c) = Ok w -> 0 <= w ->
  gross_total_cooling_capacity M (charged 0 u) (Some c) = Ok q0 -> 0 < q0 ->
  eer sol M (charged f u) None = Ok v -> eer sol M (charged 0 u) None = Ok v0 -> v < v0.
Proof.
  intros G B W F P P0 Q Q0 A A0.
  assert (X : forall g, net_total_cooling_cop sol M (charged g u) None = net_total_cooling_cop sol M (charged g u) (Some c)).
  { intros g. unfold net_total_cooling_cop, net_total_cooling_capacity, net_cooling_power, both,
      gross_total_cooling_capacity, gross_cooling_power, cooling_fan_power, cooling_conditions.
    cbn [charged u_conds]. rewrite B. reflexivity. }
  unfold eer in A, A0. apply rbind_ok in A as (n & N & A). apply rbind_ok in A0 as (n0 & N0 & A0).
  rewrite X in N, N0. apply Ok_inj in A, A0. subst v v0.
  destruct (under_cooling_effect psy sol M f u c G W F) as (_ & _ & _ & E).
  specialize (E w q0 n n0 P P0 Q Q0 N N0). rewrite !to_Btu_Wh_spec. unfold Btu_Wh. lra.
Qed.

(** A single-stage unit with stored rating tests. *)
Definition tested_unit : dxunit R :=
  wu_conds (mkConds (Some (toy_cond 300 292 308 1)) (Some (toy_cond 300 292 308 1)) None None None None None None None None
    None None None None None None None) plain_unit.

Lemma tested_ratings sol f : -0.25 <= f <= 0.25 ->
  let M := RESNETDXModel toy_psy sol in
  let u := tested_unit in
  let c := toy_cond 300 292 308 1 in
  u_staging u = SINGLE_STAGE /\ rc_A_full (u_conds u) = Some c /\ rc_B_full (u_conds u) = Some c
  /\ weather c 25 30 18 50 /\ cooling_fan_power sol u (Some c) = Ok 300 /\ sd_cd (u_c u) = 0.25
  /\ (exists q, gross_total_cooling_capacity M (charged f u) (Some c) = Ok q /\ 0 < q)
  /\ (exists v, seer sol M (charged f u) = Ok v) /\ (exists v, eer sol M (charged f u) None = Ok v).
Proof.
  intros F M u c. destruct (cooling_example sol f F) as (W & P & q & p & Q & Q0 & K & K0).
  cbv zeta in *. fold c M in W, P, Q, K.
  split; [reflexivity|]. split; [reflexivity|]. split; [reflexivity|]. split.
  { destruct W as (W1 & W2 & W3). split; [exact W1|]. split; [lra|exact W3]. }
  split; [exact P|]. split; [reflexivity|].
  assert (T1 : gross_total_cooling_capacity M (charged f u) (Some c) = Ok q).
  { rewrite <- Q. unfold gross_total_cooling_capacity. cbn [cooling_conditions rbind]. reflexivity. }
  assert (T2 : gross_cooling_power M (charged f u) (Some c) = Ok p).
  { rewrite <- K. unfold gross_cooling_power. cbn [cooling_conditions rbind]. reflexivity. }
  assert (T3 : cooling_fan_power sol (charged f u) (Some c) = Ok 300) by exact P.
  assert (N : net_total_cooling_cop sol M (charged f u) (Some c) = Ok ((q - 300) / (p + 300))).
  { unfold net_total_cooling_cop, net_total_cooling_capacity, net_cooling_power, both. rewrite T1, T2, T3. cbn [rbind].
    apply pydiv_ok. change (p + 300 <> 0). lra. }
  split; [exists q; split; [exact T1|lra]|]. split.
  - eexists. unfold seer. cbn [charged u tested_unit wu_conds u_staging plain_unit toy_unit].
    change (mkUnit _ _ _ _ _ _ _ _ _ _ _ _ _ _ _ _ _ _ _ _ _ _ _ _ _) with (charged f u).
    unfold rating. cbn [charged u tested_unit wu_conds u_conds rc_B_full need rbind].
    change (mkUnit _ _ _ _ _ _ _ _ _ _ _ _ _ _ _ _ _ _ _ _ _ _ _ _ _) with (charged f u).
    fold c. rewrite N. cbn [rbind]. reflexivity.
  - eexists. unfold eer.
    assert (X : net_total_cooling_cop sol M (charged f u) None = net_total_cooling_cop sol M (charged f u) (Some c)) by reflexivity.
    rewrite X, N. reflexivity.
Qed.
