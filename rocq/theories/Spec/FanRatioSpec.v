(** Specifications for the airflow ratios of fans (C87). *)
From Coq Require Import Reals List.
From Verif.Base Require Import Num Res.
From Verif.Model Require Import Units Fan.
From Verif.Spec Require Import FanSpec.
Local Open Scope R_scope.

(** The change does not remove the first speed. *)
Definition keeps_first (o : fan_op) : Prop :=
  match o with RemoveSpeed 0 => False | _ => True end.

(** Airflow a PSC fan loses between no static pressure and [p]:
    10 cfm * (e ^ (5.35 p / inH2O) - 1). *)
Definition psc_loss (p : R) : R := fr_cfm 10 * (exp (p * fr_per_inH2O 5.35) - 1).

(** Power of an ECM fan at pressure [p], airflow [a] and flow ratio [r], before
    its limit: the efficacy is [eff] at the design pressure and ratio 1, its
    part at no pressure grows with the square of the ratio. *)
Definition ecm_law (eff esp a r p : R) : R :=
  a * ((eff - fr_W_per_cfm_inH2O 0.235 * esp) * r ^ 2 + fr_W_per_cfm_inH2O 0.235 * p).
