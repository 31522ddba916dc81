(** Efficiency and blower speed of fans (C92). *)
From Coq Require Import Reals.
From Verif.Base Require Import Num Res.
From Verif.Model Require Import Units Fan.
From Verif.Spec Require Import FanRatioSpec.
Local Open Scope R_scope.

(** The pressure a call stands for: the one given, else where fan and ducts meet. *)
Definition at_pressure (sol : solvers R) (f : fan R) (i : nat) (esp : option R) (p : R) : Prop :=
  match esp with Some x => p = x | None => operating_pressure sol f i = Ok p end.

(** Revolutions per minute, in radians per second. *)
Definition rpm (x : R) : R := x * (2 * PI) / 60.

(** An ECM fan's power before and after its limit, for airflow [a] of a first speed [a0]. *)
Definition ecm_wanted (eff esp a a0 p : R) : R := ecm_law eff esp a (a / a0) p.
Definition ecm_drawn (eff esp a a0 p : R) (mx : option R) : R :=
  match mx with Some m => Rmin (ecm_wanted eff esp a a0 p) m | None => ecm_wanted eff esp a a0 p end.
