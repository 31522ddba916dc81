(** Vocabulary of C115: RESNET heating including defrost in warmer weather. *)
From Coq Require Import Reals.
From Verif.Base Require Import Num Res.
From Verif.Model Require Import Psychrometrics Conditions Defrost Fan Unit.
Local Open Scope R_scope.

(** It is at least as warm outdoors in [c'] as in [c], and the warmer condition does not
    start the defrost: if the unit defrosts in [c'] it also does in [c]. *)
Definition milder (u : dxunit R) (c c' : cond R) : Prop :=
  ps_db (c_outdoor c) <= ps_db (c_outdoor c')
  /\ (in_defrost (u_defrost u) c' = true -> in_defrost (u_defrost u) c = true).

(** The same speed, room temperature and airflow [r]. *)
Definition same_heating (c c' : cond R) (r : R) : Prop :=
  c_speed c = c_speed c' /\ ps_db (c_indoor c) = ps_db (c_indoor c')
  /\ c_mass_airflow_ratio c = Some r /\ c_mass_airflow_ratio c' = Some r.
