(** Lemmas for C119 in terms of the fan's methods, with an exact root finder. *)
From Coq Require Import Reals QArith Lra Lia List Psatz.
From Verif.Base Require Import Num Res Tac.
From Verif.Model Require Import Units Util Fan.
From Verif.Spec Require Import FanSpec FanPointSpec.
From Verif.Proofs Require Import UnitsR FanProofs FanProofs2 FanPoint.
Import ListNotations.
Local Open Scope R_scope.

Section Exact.
  Variable sol : solvers R.
  Hypothesis sound : sound_brentq 0 sol.
  Variables (airflows : list R) (esp eff a0 : R) (f f' : fan R) (ops : list fan_op).
  Hypothesis built : make_psc_fan airflows esp eff = Ok f.
  Hypothesis first : geti airflows 0 = Ok a0.
  Hypothesis a0_pos : 0 < a0.
  Hypothesis esp_pos : 0 < esp.
  Hypothesis ran : sfold run_op ops f = (f', Ok tt).

  Lemma exact_point i a x : geti (f_airflow f') i = Ok a -> operating_pressure sol f' i = Ok x ->
    exists q, airflow sol f' i None = Ok q /\ meets sol f' i x q.
  Proof.
    intros Ea X. destruct (point 0 sol sound airflows esp eff a0 f f' ops built first a0_pos esp_pos ran i a x Ea X)
      as (p & q & M & T & _).
    assert (x = p) by (revert T; unfold Rabs; destruct Rcase_abs; lra). subst p.
    exists q. split; [|exact M]. destruct (psc_ops airflows esp eff f f' ops built ran) as ((K & _) & _).
    destruct M as (_ & Q & _). unfold airflow in *. rewrite K in *. rewrite X. cbn [rbind]. exact Q.
  Qed.

  Lemma runs i a : geti (f_airflow f') i = Ok a -> 0 <= a <= sqrt 3 * a0 ->
    exists x q, operating_pressure sol f' i = Ok x /\ airflow sol f' i None = Ok q /\ system_flow f' x = Ok q
      /\ (a <= a0 -> x <= esp /\ a <= q <= a0) /\ (a0 <= a -> esp <= x /\ a0 <= q <= a).
  Proof.
    intros Ea La. destruct (found 0 sol sound airflows esp eff a0 f f' ops built first a0_pos esp_pos ran i a Ea La) as (x & X).
    destruct (exact_point i a x Ea X) as (q & Q & M). exists x, q. split; [exact X|]. split; [exact Q|].
    pose proof M as (_ & _ & S). split; [exact S|].
    apply (design_side sol airflows esp eff a0 f f' ops built first a0_pos esp_pos ran i a x q Ea M). lra.
  Qed.

  Lemma runs_higher i j a b x x' q q' : geti (f_airflow f') i = Ok a -> geti (f_airflow f') j = Ok b -> 0 <= a < b ->
    operating_pressure sol f' i = Ok x -> operating_pressure sol f' j = Ok x' ->
    airflow sol f' i None = Ok q -> airflow sol f' j None = Ok q' -> x < x' /\ q < q'.
  Proof.
    intros Ea Eb L X X' Q Q'.
    destruct (exact_point i a x Ea X) as (r & R1 & M). rewrite Q in R1. apply Ok_inj in R1. subst r.
    destruct (exact_point j b x' Eb X') as (r & R1 & M'). rewrite Q' in R1. apply Ok_inj in R1. subst r.
    assert (P : 0 < q').
    { destruct (design_side sol airflows esp eff a0 f f' ops built first a0_pos esp_pos ran j b x' q' Eb M' ltac:(lra)) as (A & B).
      destruct (Rle_lt_dec b a0) as [Z|Z]; [specialize (A Z)|specialize (B ltac:(lra))]; lra. }
    apply (meets_order sol airflows esp eff a0 f f' ops built first a0_pos esp_pos ran i j a b x q x' q' Ea Eb M M'); lra.
  Qed.
End Exact.

Lemma runs_as_designed sol airflows esp eff a0 (f : fan R) : sound_brentq 0 sol ->
  make_psc_fan airflows esp eff = Ok f -> geti airflows 0 = Ok a0 -> 0 < a0 -> 0 < esp ->
  operating_pressure sol f 0 = Ok esp /\ airflow sol f 0 None = Ok a0.
Proof.
  intros S B F P E.
  destruct (psc_design airflows esp eff a0 f B F) as (_ & Ea).
  assert (L : 0 <= a0 <= sqrt 3 * a0).
  { assert (1 <= sqrt 3) by (rewrite <- sqrt_1; apply sqrt_le_1_alt; lra). nra. }
  destruct (runs sol S airflows esp eff a0 f f [] B F P E eq_refl 0 a0 Ea L) as (x & q & X & Q & _ & A & A').
  specialize (A ltac:(lra)). specialize (A' ltac:(lra)).
  assert (x = esp) by lra. assert (q = a0) by lra. subst. split; assumption.
Qed.
