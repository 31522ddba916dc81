From Coq Require Import Reals QArith Qreals Lra Lia List Bool.
From Verif.Base Require Import Num Res Tac.
From Verif.Model Require Import Units Psychrometrics Conditions Fan Unit DXUnit.
From Verif.Spec Require Import UnitSpec SeasonSpec ClimateSpec.
From Verif.Proofs Require Import UnitsR UnitProofs3 UnitProofs4.
Import ListNotations.
Local Open Scope R_scope.

Definition mille (l : list Q) : list R := map (fun q => Q2R q / 1000) l.
Lemma hours_mille l : hours (T:=R) l = mille l.
Proof.
  unfold hours, mille. apply map_ext. intros a. unfold lit. cbn [nq RNum].
  unfold Qdiv. rewrite Q2R_mult. unfold Rdiv. f_equal. unfold Q2R. simpl. lra.
Qed.

Ltac numbers := unfold Q2R; cbn [Qnum Qden]; lra.
Ltac bins i := do 18 (destruct i as [|i]; [cbn [nth]; numbers|]); destruct i; cbn [nth]; lra.

Lemma climate_2017 r : exists d, distribution_2017 (T:=R) (number r) = Ok d
  /\ hd_design d = deg_F (design_F r)
  /\ hd_c d = None /\ hd_c_vs d = None /\ hd_zero_load d = None
  /\ (forall i, hours_of d i = bin_hours r i) /\ over 18 (bin_hours r) = 1.
Proof.
  destruct r; cbn [number distribution_2017]; cbv zeta; rewrite hours_mille;
    (rewrite distribution_kept;
      [|reflexivity|unfold in_band, total, mille; cbn [map fold_right]; unfold Q2R; cbn [Qnum Qden]; lra]);
    (eexists; split; [reflexivity|]); cbn [hd_design hd_c hd_c_vs hd_zero_load];
    (split; [rewrite fr_F_deg; f_equal; rnum; cbn [design_F]; lra|]);
    do 3 (split; [reflexivity|]);
    (split; [intros i; unfold hours_of, bin_hours, mille, per_mille; cbn [hd_hours map]; bins i|]);
    unfold over, bin_hours, per_mille, total; cbn [seq map nth fold_right]; lra.
Qed.

(** The hours of the bins below the no-load temperature. *)
Definition kept (n : nat) (l : list R) : list R := repeat 0 n ++ skipn n l.
Definition warm (r : region) : nat := match r with I => 1%nat | _ => 2%nat end.
Lemma needed_kept r i : needed_hours r i = nth i (kept (warm r) (per_mille r)) 0 / 1000.
Proof.
  unfold needed_hours, bin_F.
  destruct r; cbn [no_load_F warm];
    (destruct i as [|[|i]];
     [destruct (Rlt_dec _ _) as [L|L]; [simpl in L; lra|cbn; lra]
     |destruct (Rlt_dec _ _) as [L|L]; [simpl in L; try lra; unfold bin_hours; cbn; lra
                                       |simpl in L; try lra; cbn; lra]
     |destruct (Rlt_dec _ _) as [L|L];
       [unfold bin_hours; reflexivity
       |exfalso; apply L; rewrite !S_INR; pose proof (pos_INR i); lra]]).
Qed.
Lemma needed_total r : over 18 (needed_hours r)
  = over 18 (fun i => nth i (kept (warm r) (per_mille r)) 0 / 1000).
Proof. unfold over. f_equal. apply map_ext. intros i. apply needed_kept. Qed.

Lemma scaled_nth (l : list R) s s' i x :
  s = s' -> nth i l 0 = x -> nth i (map (fun y => y / s) l) 0 = x / s'.
Proof.
  intros <- <-. replace (nth i (map (fun y => y / s) l) 0)
    with (nth i (map (fun y => y / s) l) (0 / s)) by (f_equal; unfold Rdiv; ring).
  apply (map_nth (fun y => y / s)).
Qed.

Lemma climate_2023 r : exists d, distribution_2023 (T:=R) (number r) = Ok d
  /\ hd_design d = deg_F (design_F r)
  /\ hd_c d = Some (slope_factor r) /\ hd_c_vs d = Some (slope_factor_vs r)
  /\ hd_zero_load d = Some (deg_F (no_load_F r))
  /\ (forall i, hours_of d i = needed_hours r i / over 18 (needed_hours r)).
Proof.
  destruct r; cbn [number distribution_2023]; cbv zeta; rewrite hours_mille;
  match goal with |- exists d, HeatingDistribution ?t ?h ?c ?cv ?z = _ /\ _ =>
    destruct (distribution_scaled t h c cv z) as (d & E & E1 & E2 & E3 & E4 & E5 & _);
      [reflexivity
      |unfold in_band, total, mille; cbn [map fold_right]; unfold Q2R; cbn [Qnum Qden]; lra
      |unfold total, mille; cbn [map fold_right]; unfold Q2R; cbn [Qnum Qden]; lra|] end;
    exists d; (split; [exact E|]); rewrite E1, E2, E3, E4, !fr_F_deg;
    (split; [f_equal; rnum; cbn [design_F]; lra|]);
    (split; [f_equal; rnum; cbn [slope_factor]; lra|]);
    (split; [f_equal; rnum; cbn [slope_factor_vs]; lra|]);
    (split; [do 2 f_equal; rnum; cbn [no_load_F]; lra|]);
    intros i; unfold hours_of; rewrite E5, needed_kept, needed_total;
    (apply scaled_nth;
     [unfold over, kept, mille, total;
      cbn [warm per_mille repeat skipn app seq map nth fold_right]; unfold Q2R; cbn [Qnum Qden]; lra
     |unfold kept, mille; cbn [warm per_mille repeat skipn app map]; bins i]).
Qed.

Lemma no_climate n : (n = 0 \/ 6 < n)%nat ->
  distribution_2017 (T:=R) n = Err KeyError /\ distribution_2023 (T:=R) n = Err KeyError.
Proof. intros H. do 7 (destruct n as [|n]; [try lia; split; reflexivity|]). split; reflexivity. Qed.
Lemma no_hspf sol M (u : dxunit R) n : (n = 0 \/ 6 < n)%nat -> hspf sol M u n = Err KeyError.
Proof.
  intros H. destruct (no_climate n H) as [A B]. unfold hspf.
  destruct (u_standard u); rewrite ?A, ?B; reflexivity.
Qed.
