(** Facts about the unit conversions on the reals. *)
From Coq Require Import Reals QArith Lra.
From Verif.Base Require Import Num Res Tac.
From Verif.Model Require Import Units.
Local Open Scope R_scope.

Lemma litR (q : Q) : lit (T:=R) q = IZR (Qnum q) * / IZR (Zpos (Qden q)).
Proof. reflexivity. Qed.
Lemma lit1_R : lit (T:=R) 1 = 1. Proof. rnum. lra. Qed.
Lemma lit2_R : lit (T:=R) 2 = 2. Proof. rnum. lra. Qed.
Lemma lit3_R : lit (T:=R) 3 = 3. Proof. rnum. lra. Qed.
Lemma cfm_pos : 0 < cfm (T:=R). Proof. unfold cfm. rnum. lra. Qed.
Lemma btu_h_pos : 0 < btu_h (T:=R). Proof. unfold btu_h. rnum. lra. Qed.
Lemma ton_pos : 0 < ton_ref (T:=R). Proof. unfold ton_ref, btu_h. rnum. lra. Qed.
Lemma inH2O_pos : 0 < inH2O (T:=R). Proof. unfold inH2O. rnum. lra. Qed.
Lemma cfm_val : cfm (T:=R) = 0.028316846592 / 60. Proof. unfold cfm. rnum. lra. Qed.
Lemma fr_F_lt (x y : R) : fr_F x < fr_F y <-> x < y.
Proof. unfold fr_F. rnum. lra. Qed.
Lemma fr_F_le (x y : R) : fr_F x <= fr_F y <-> x <= y.
Proof. unfold fr_F. rnum. lra. Qed.
Lemma fr_F_inj (x y : R) : fr_F x = fr_F y <-> x = y.
Proof. unfold fr_F. rnum. lra. Qed.
Lemma to_fr_F (x : R) : to_F (fr_F x) = x.
Proof. unfold fr_F, to_F. rnum. lra. Qed.
Lemma fr_to_F (x : R) : fr_F (to_F x) = x.
Proof. unfold fr_F, to_F. rnum. lra. Qed.
