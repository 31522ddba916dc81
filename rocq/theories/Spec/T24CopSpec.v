(** Vocabulary of C116: Title 24 heating COP at different outdoor temperatures. *)
From Coq Require Import Reals.
From Verif.Base Require Import Num Res.
From Verif.Model Require Import Psychrometrics Conditions Defrost Fan Unit DXUnit.
From Verif.Spec Require Import WeatherSpec.
Local Open Scope R_scope.

(** At speed [i] and [t] F outdoors the unit draws a positive gross power [p] at a gross
    COP [n], without frost. *)
Definition steady_point (M : dxmodel R) (u : dxunit R) (i : nat) (t p n : R) : Prop :=
  exists c, c_speed c = i /\ out_F c = t /\ 0 < p
  /\ gross_steady_state_heating_power M u (Some c) = Ok p
  /\ gross_steady_state_heating_cop M u (Some c) = Ok n.

(** The same while it defrosts, between 17 F and 45 F. *)
Definition frost_point (M : dxmodel R) (u : dxunit R) (i : nat) (t p n : R) : Prop :=
  exists c, c_speed c = i /\ out_F c = t /\ 17 < t < 45 /\ 0 < p
  /\ in_defrost (u_defrost u) c = true
  /\ gross_integrated_heating_power M u (Some c) = Ok p
  /\ gross_integrated_heating_cop M u (Some c) = Ok n.

(** [a'] and [b'] are ordered as [a] and [b]. *)
Definition same_order (a b a' b' : R) : Prop :=
  (a < b -> a' < b') /\ (a = b -> a' = b') /\ (b < a -> b' < a').

(** Three points on a straight line. *)
Definition on_one_line (t1 p1 t2 p2 t3 p3 : R) : Prop :=
  (p2 - p1) * (t3 - t1) = (p3 - p1) * (t2 - t1).
