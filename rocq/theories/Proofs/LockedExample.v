From Coq Require Import Reals QArith Lra Lia List.
From Verif.Base Require Import Num Res Tac.
From Verif.Model Require Import Units Psychrometrics Conditions Defrost Fan Unit BaseModel DXUnit.
From Verif.Spec Require Import UnitSpec SeasonSpec UnitModels DefrostSpec ControlSpec.
From Verif.Proofs Require Import UnitsR SeerProofs HspfProofs HspfProofs2 DefrostProofs ToyBuild ToySeason ToySeason2
  Control Locked.
Import ListNotations.
Local Open Scope R_scope.

(** A unit locked out up to 70 F, with timed or demand defrost. *)
Definition locked (k : defrost_control) (u : dxunit R) : dxunit R :=
  controlled k 5400 43200 (wu_heating_off (deg_F 70) u).

Lemma locked_credit k (u : dxunit R) :
  demand_credit (u_defrost (locked k u)) = Ok (match k with DCDemand => 1.03 | _ => 1 end).
Proof.
  destruct k.
  1: { apply demand_credit_not_demand. discriminate. }
  all: first [apply demand_credit_not_demand; discriminate
             |rewrite demand_credit_demand by reflexivity;
              unfold locked, controlled; cbn [u_defrost df_max_time df_period];
              destruct (Req_EM_T _ _) as [X|X]; [unfold min90 in X; lra|];
              f_equal; unfold credit_formula, min90, min720; rewrite Rmax_left by lra; lra].
Qed.

Lemma locked_case k : exists u on d L v,
  unit_of SINGLE_STAGE AHRI_210_240_2023 [10000] [9000] 4 4 u
  /\ u_heating_on (locked k u) = Some on
  /\ hspf lin_sol ConstantDXModel (locked k u) 4 = Ok v
  /\ deg_F 62 <= u_heating_off (locked k u)
  /\ climate (locked k u) 4 = Ok d /\ heat_load lin_sol ConstantDXModel (locked k u) d L
  /\ 0 < over 18 (fun i => hours_of d i * L (heat_t i)).
Proof.
  destruct toy_hspf_single as (u & on & d & H1 & H2 & H3 & L & cr & lo & hi & E & S1 & S2 & Cl
    & T1 & T2 & T3 & N1 & N2 & HL & Lp & Cr & C0 & Cd & Lo & F & B & _).
  destruct (hspf_single_total lin_sol ConstantDXModel (locked k u) 4 on d H1 H2 H3 L
              (match k with DCDemand => 1.03 | _ => 1 end) lo hi) as (v & V & _).
  all: try apply locked_credit.
  all: try assumption.
  all: try (destruct u; assumption).
  all: try (destruct k; lra).
  exists u, on, d, L, v. split; [exact E|].
  split; [destruct u; exact S2|]. split; [exact V|].
  split; [unfold locked, controlled, wu_heating_off; cbn [u_heating_off]; unfold deg_F; lra|].
  split; [destruct u; exact Cl|]. split; [destruct u; exact HL|exact Lp].
Qed.

(** With demand defrost such a unit is rated above resistance heat. *)
Lemma locked_above : exists u v,
  unit_of SINGLE_STAGE AHRI_210_240_2023 [10000] [9000] 4 4 u
  /\ let u' := locked DCDemand u in
     deg_F 62 <= u_heating_off u' /\ hspf lin_sol ConstantDXModel u' 4 = Ok v
     /\ v = Btu_Wh 1.03.
Proof.
  destruct (locked_case DCDemand) as (u & on & d & L & v & E & On & V & Off & Cl & HL & P).
  exists u, v. split; [exact E|]. cbv zeta. split; [exact Off|]. split; [exact V|].
  destruct (locked_out _ _ _ 4%nat on v d L On V Off Cl HL P) as (c & C & ->).
  rewrite locked_credit in C. injection C as <-. reflexivity.
Qed.
