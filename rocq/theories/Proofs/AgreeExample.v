(** Units for C110. *)
From Coq Require Import String Reals QArith Lra List.
From Verif.Base Require Import Num Res Tac.
From Verif.Model Require Import Units Psychrometrics Conditions Defrost Fan Unit NREL BaseModel Title24 Resnet DXUnit.
From Verif.Spec Require Import UnitModels UnitSpec SeasonSpec AgreeSpec.
From Verif.Proofs Require Import UnitsR UnitProofs3 ToyBuild ToySeason ToySeason2 ToySeason3.
Import ListNotations.
Local Open Scope R_scope.

(** [s] with other settings: cut-out and cut-in, crankcase heater, ratings given, degradation
    coefficient of the mode other than [m]. *)
Definition resettled (m : mode) (x : R) (s : dxunit R) : dxunit R :=
  mkUnit (u_kwargs s) None None None (u_hcop s) (u_cycling s)
    (negb (u_ducted s)) x (u_defrost s) x
    (u_standard s) (u_charge s) (u_staging s)
    (match m with Cooling => x | Heating => u_heating_off s end)
    (match m with Cooling => None | Heating => u_heating_on s end)
    (match m with Cooling => u_c s | Heating => ws_cd x (u_c s) end)
    (match m with Cooling => ws_cd x (u_h s) | Heating => u_h s end)
    (u_shr s) (u_bf s) (u_ntu s)
    (u_full_esp s) (u_fan s) (Some x) (u_conds s) (u_rn s).

Lemma cooling_alike_case : exists u v,
  unit_of SINGLE_STAGE AHRI_210_240_2023 [10000] [9000] 4 4 u
  /\ seer lin_sol ConstantDXModel u = Ok v
  /\ forall x, cooling_alike u (resettled Cooling x u)
       /\ (x <> u_cooling_off u -> resettled Cooling x u <> u).
Proof.
  destruct toy_seer_single as (u & c & cop & v & E & _ & _ & _ & _ & _ & V). exists u, v.
  split; [exact E|]. split; [exact V|]. intros x. split; [repeat split|].
  intros N A. apply N. rewrite <- A at 1. reflexivity.
Qed.

Lemma heating_alike_case : exists u v,
  unit_of SINGLE_STAGE AHRI_210_240_2023 [10000] [9000] 4 4 u
  /\ hspf lin_sol ConstantDXModel u 4 = Ok v
  /\ forall x, heating_alike u (resettled Heating x u)
       /\ net_total_cooling_capacity lin_sol ConstantDXModel (resettled Heating x u) None
          = net_total_cooling_capacity lin_sol ConstantDXModel u None
       /\ (x <> sd_cd (u_c u) -> resettled Heating x u <> u).
Proof.
  destruct toy_single_runs as (u & on & v & E & _ & _ & V & _). exists u, v.
  split; [exact E|]. split; [exact V|]. intros x. split; [repeat split|]. split; [reflexivity|].
  intros N A. apply N. rewrite <- A at 1. reflexivity.
Qed.
