(** Vocabulary of C117: NREL heating including defrost in moister weather. *)
From Coq Require Import Reals.
From Verif.Base Require Import Num Res.
From Verif.Model Require Import Psychrometrics Conditions Defrost Fan Unit.
From Verif.Spec Require Import NrelSpec.
Local Open Scope R_scope.

(** Alike but for the outdoor humidity ratio, [h] in [c] and [h'] in [c']. *)
Definition moister (psy : psychro R) (c c' : cond R) (h h' : R) : Prop :=
  c_speed c' = c_speed c /\ c_mass_airflow_ratio c' = c_mass_airflow_ratio c
  /\ ps_db (c_indoor c') = ps_db (c_indoor c) /\ ps_db (c_outdoor c') = ps_db (c_outdoor c)
  /\ ps_p (c_outdoor c') = ps_p (c_outdoor c)
  /\ hr_of psy (c_outdoor c) = Ok h /\ hr_of psy (c_outdoor c') = Ok h' /\ h < h'.

(** Air that is saturated at the temperature of the outdoor coil has humidity ratio [w]. *)
Definition coil_saturation (psy : psychro R) (c : cond R) (w : R) : Prop :=
  GetSatHumRatio psy (0.82 * degC (ps_db (c_outdoor c)) - 8.589) (ps_p (c_outdoor c)) = Ok w.
