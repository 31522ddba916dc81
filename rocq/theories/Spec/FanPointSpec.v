(** Vocabulary of C119: where a fan curve meets the system curve. *)
From Coq Require Import Reals.
From Verif.Base Require Import Num Res.
From Verif.Model Require Import Units Fan.
From Verif.Spec Require Import FanSpec.
Local Open Scope R_scope.

(** At pressure [p] speed [i] of the fan moves the airflow [q], and so much air meets that
    pressure in the ducts. *)
Definition meets (sol : solvers R) (f : fan R) (i : nat) (p q : R) : Prop :=
  0 <= p /\ airflow sol f i (Some p) = Ok q /\ system_flow f p = Ok q.
