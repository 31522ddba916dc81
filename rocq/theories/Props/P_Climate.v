(** Property C112: the climates behind HSPF are those of the rating standard. *)
From Coq Require Import Reals Lra List.
From Verif.Base Require Import Num Res Tac.
From Verif.Model Require Import Units Fan Unit DXUnit.
From Verif.Spec Require Import UnitSpec SeasonSpec ClimateSpec.
From Verif.Proofs Require Import Climate.
Local Open Scope R_scope.

(** 2017 edition: the tabulated hours as they stand; they add up to all heating hours. *)
Theorem C112_2017 : forall r, exists d : heating_distribution R,
  distribution_2017 (number r) = Ok d
  /\ hd_design d = deg_F (design_F r)
  /\ hd_c d = None /\ hd_c_vs d = None /\ hd_zero_load d = None
  /\ (forall i, hours_of d i = bin_hours r i) /\ over 18 (bin_hours r) = 1.
Proof. exact climate_2017. Qed.
Print Assumptions C112_2017.

(** 2023 edition: the same hours, without the bins in which no heat is needed, rescaled. *)
Theorem C112_2023 : forall r, exists d : heating_distribution R,
  distribution_2023 (number r) = Ok d
  /\ hd_design d = deg_F (design_F r)
  /\ hd_c d = Some (slope_factor r) /\ hd_c_vs d = Some (slope_factor_vs r)
  /\ hd_zero_load d = Some (deg_F (no_load_F r))
  /\ (forall i, hours_of d i = needed_hours r i / over 18 (needed_hours r)).
Proof. exact climate_2023. Qed.
Print Assumptions C112_2023.

(** There is no seventh region. *)
Theorem C112_other_regions : forall sol M (u : dxunit R) n,
  (n = 0 \/ 6 < n)%nat -> hspf sol M u n = Err KeyError.
Proof. exact no_hspf. Qed.
Print Assumptions C112_other_regions.

(** Region I: 57 F is below the no-load temperature of 58 F, so its hours count; region II
    has none at 57 F. *)
Example C112_nonvacuous :
  needed_hours I 1 = 0.239 /\ needed_hours II 1 = 0 /\ bin_hours II 1 = 0.189.
Proof.
  unfold needed_hours, bin_F, bin_hours. cbn [no_load_F per_mille nth INR].
  repeat (destruct (Rlt_dec _ _)); repeat split; lra.
Qed.
