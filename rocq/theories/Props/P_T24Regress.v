(** Properties C33 and C77, continued: regressions of the Title 24 model against
    SEER and HSPF, and its heating bins (models/title24.py). *)
From Coq Require Import Reals QArith Lra Lia List Bool ZArith.
From Verif.Base Require Import Num Res Tac.
From Verif.Model Require Import Units Unit DXUnit Title24.
From Verif.Proofs Require Import T24Regress.
Import ListNotations.
Local Open Scope R_scope.

(** The regression for EER rises with SEER except where it passes 16, and falls
    by at most 0.01 there. *)
Theorem C33_default_eer_rises_except_at_16 : forall s s', s < s' -> s' < 16 \/ 16 <= s ->
  eer_rated (T:=R) s <= eer_rated s' /\ (s' < 16 -> eer_rated (T:=R) s < eer_rated s').
Proof. exact eer_rises. Qed.
Print Assumptions C33_default_eer_rises_except_at_16.

Theorem C33_default_eer_drop : forall s s', s <= s' -> eer_rated (T:=R) s <= eer_rated s' + 0.01.
Proof. exact eer_drop. Qed.
Print Assumptions C33_default_eer_drop.

(** Likewise the regression for the capacity ratio, at an HSPF of 7.5. *)
Theorem C33_capacity_ratio_rises_except_at_7_5 : forall s s', s < s' -> s' < 7.5 \/ 7.5 <= s ->
  cap17_ratio_rated (T:=R) s < cap17_ratio_rated s'.
Proof. exact ratio_rises. Qed.
Print Assumptions C33_capacity_ratio_rises_except_at_7_5.

Theorem C33_capacity_ratio_drop : forall s s', s <= s' ->
  cap17_ratio_rated (T:=R) s <= cap17_ratio_rated s' + 0.0043.
Proof. exact ratio_drop. Qed.
Print Assumptions C33_capacity_ratio_drop.

Example C33_regress_nonvacuous : eer_rated (T:=R) 11.5 = 10 /\ eer_rated (T:=R) 14 = 11.87
  /\ cap17_ratio_rated (T:=R) 8 = 0.6164.
Proof. unfold eer_rated, cap17_ratio_rated. rnum. rcases; repeat split; lra. Qed.

(** The bins of the Title 24 calibration are those of region IV of the rating
    standard. *)
Theorem C77_bins_are_those_of_region_4 : exists d, distribution_2017 (T:=R) 4 = Ok d /\
  hd_hours d = map snd t24_bins ++ [0; 0; 0] /\
  forall i x, nth_error (t24_bins (T:=R)) i = Some x -> fst x = 62 - 5 * INR i.
Proof. exact bins_region_4. Qed.
Print Assumptions C77_bins_are_those_of_region_4.
