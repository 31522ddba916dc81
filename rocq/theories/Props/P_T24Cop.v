(** Property C116: Title 24 heating power and COP at different outdoor temperatures
    (title24.py:318-363, 502-544). *)
From Coq Require Import String Reals List Lra.
From Verif.Base Require Import Num Res.
From Verif.Model Require Import Units Psychrometrics Conditions Defrost Fan Unit NREL BaseModel Title24 DXUnit.
From Verif.Spec Require Import RatingSpec Title24Spec WeatherSpec T24CopSpec.
From Verif.Proofs Require Import ToyT24 T24Cop T24CopExample.
Local Open Scope R_scope.

(** The powers at any three temperatures lie on a straight line. *)
Theorem C116_power_line : forall sol (u : dxunit R) i t1 p1 n1 t2 p2 n2 t3 p3 n3,
  let M := Title24DXModel sol in
  steady_point M u i t1 p1 n1 -> steady_point M u i t2 p2 n2 -> steady_point M u i t3 p3 n3 ->
  on_one_line t1 p1 t2 p2 t3 p3.
Proof. exact power_on_line. Qed.
Print Assumptions C116_power_line.

(** Two temperatures tell the direction: if the COP rises (stays, falls) between them, it
    does so between any other two at which the unit draws power. *)
Theorem C116_cop_direction : forall sol (u : dxunit R) i t1 p1 n1 t2 p2 n2 t p n t' p' n',
  let M := Title24DXModel sol in
  steady_point M u i t1 p1 n1 -> steady_point M u i t2 p2 n2 -> t1 < t2 ->
  steady_point M u i t p n -> steady_point M u i t' p' n' -> t < t' -> same_order n1 n2 n n'.
Proof. exact steady_direction. Qed.
Print Assumptions C116_cop_direction.

(** Likewise while the unit defrosts, between 17 F and 45 F. *)
Theorem C116_frost_cop_direction : forall sol (u : dxunit R) i t1 p1 n1 t2 p2 n2 t p n t' p' n',
  let M := Title24DXModel sol in
  frost_point M u i t1 p1 n1 -> frost_point M u i t2 p2 n2 -> t1 < t2 ->
  frost_point M u i t p n -> frost_point M u i t' p' n' -> t < t' -> same_order n1 n2 n n'.
Proof. exact frost_direction. Qed.
Print Assumptions C116_frost_cop_direction.

(** A unit whose HSPF belongs to a COP of 3 at 17 F, or of 5: points at every temperature. *)
Example C116_points : forall k t, k = 3 \/ k = 5 -> 17 <= t <= 47 ->
  steady_point (Title24DXModel (stop_sol k)) (heater24 k) 0 t
    (clear_line (7000 / k) (10000 / 4) t - 300)
    ((clear_line 7000 10000 t - 300) / (clear_line (7000 / k) (10000 / 4) t - 300)).
Proof. exact point24. Qed.
Example C116_frost_points : forall t, 20 <= t <= 40 -> exists n,
  frost_point (Title24DXModel (stop_sol 3)) (heater24 3) 0 t
    (7000 / 3 + (base_e35 3 - 7000 / 3) / (35 - 17) * (t - 17) - 300) n.
Proof. exact frost24. Qed.
(** With 3 the COP rises from 17 F to 47 F, with 5 it falls. *)
Example C116_both_directions : forall k, k = 3 \/ k = 5 -> exists p p' n n',
  steady_point (Title24DXModel (stop_sol k)) (heater24 k) 0 17 p n
  /\ steady_point (Title24DXModel (stop_sol k)) (heater24 k) 0 47 p' n'
  /\ (k = 3 -> n < 3.3 /\ 4.4 < n') /\ (k = 5 -> 6 < n /\ n' < 4.5).
Proof. exact cops24. Qed.

(** So a warmer outdoor temperature need not mean a higher COP: nothing keeps the COP that
    fits the HSPF at 17 F below the rated one at 47 F. *)
Theorem C116_warmer_more_efficient_refuted : ~ (forall sol (u : dxunit R) i t p n t' p' n',
  newton_finds_roots 0 sol ->
  steady_point (Title24DXModel sol) u i t p n -> steady_point (Title24DXModel sol) u i t' p' n' ->
  t < t' -> n <= n').
Proof. exact warmer_cop24_false. Qed.
Print Assumptions C116_warmer_more_efficient_refuted.
