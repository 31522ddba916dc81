(** Property C96: the curve functions (util.py). *)
From Coq Require Import Reals Lra List.
From Verif.Base Require Import Num Res Tac.
From Verif.Model Require Import Util.
From Verif.Spec Require Import CurveSpec.
From Verif.Proofs Require Import CurveProofs.
Import ListNotations.
Local Open Scope R_scope.

(** Each curve is the polynomial with its coefficients in order, the constant first. *)
Theorem C96_curves_are_polynomials : forall x c0 c1 c2 c3 c4,
  linear x c0 c1 = polynomial [c0; c1] x
  /\ quadratic x c0 c1 c2 = polynomial [c0; c1; c2] x
  /\ calc_quad (c0, c1, c2) x = polynomial [c0; c1; c2] x
  /\ cubic x c0 c1 c2 c3 = polynomial [c0; c1; c2; c3] x
  /\ quartic x c0 c1 c2 c3 c4 = polynomial [c0; c1; c2; c3; c4] x.
Proof. exact curves. Qed.
Print Assumptions C96_curves_are_polynomials.

(** The biquadratic curve is a quadratic in each input and one product term. *)
Theorem C96_biquadratic : forall c0 c1 c2 c3 c4 c5 x y,
  calc_biquad (c0, c1, c2, c3, c4, c5) x y = polynomial [c0; c1; c2] x + polynomial [0; c3; c4] y + c5 * (x * y).
Proof. exact biquad. Qed.
Print Assumptions C96_biquadratic.

(** As many distinct points as coefficients determine a curve. *)
Theorem C96_points_determine_coefficients : forall cs ds xs,
  List.length cs = List.length ds -> NoDup xs -> List.length xs = List.length cs ->
  (forall x, In x xs -> polynomial cs x = polynomial ds x) -> cs = ds.
Proof. exact same_coefficients. Qed.
Print Assumptions C96_points_determine_coefficients.

Theorem C96_quartic_determined : forall c0 c1 c2 c3 c4 d0 d1 d2 d3 d4 xs,
  NoDup xs -> List.length xs = 5%nat ->
  (forall x, In x xs -> quartic x c0 c1 c2 c3 c4 = quartic x d0 d1 d2 d3 d4) ->
  (c0, c1, c2, c3, c4) = (d0, d1, d2, d3, d4).
Proof. exact quartic_unique. Qed.
Print Assumptions C96_quartic_determined.

Example C96_nonvacuous : cubic 2 1 3 (-1) 5 = 43 /\ polynomial [1; 3; -1; 5] 2 = 43
  /\ calc_biquad (1, 2, 3, 4, 5, 6) 2 3 = 1 + 4 + 12 + 12 + 45 + 36
  /\ NoDup [0; 1; 2; 3; 4].
Proof.
  unfold cubic, polynomial, calc_biquad. cbn. repeat split; try lra.
  repeat constructor; cbn; intuition lra.
Qed.
