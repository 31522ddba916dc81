(** Vocabulary of C118: NREL heating including defrost in warmer weather. *)
From Coq Require Import Reals.
From Verif.Base Require Import Num Res.
From Verif.Model Require Import Psychrometrics Conditions Defrost Fan Unit.
From Verif.Spec Require Import NrelSpec FrostHumidSpec FrostWeatherSpec.
Local Open Scope R_scope.

(** The outdoor air has a humidity ratio [g] above that of saturated air at the coil. *)
Definition coil_gap (psy : psychro R) (c : cond R) (g : R) : Prop :=
  exists h w, hr_of psy (c_outdoor c) = Ok h /\ coil_saturation psy c w /\ g = h - w.

(** At the same speed, [c'] is no colder than [c] outdoors, the unit does not defrost in
    [c'] only, the air is no moister compared to the coil, and the defrost takes no
    longer: the shares of time are [t] and [t']. *)
Definition milder_frost (psy : psychro R) (u : dxunit R) (c c' : cond R) (g g' t t' : R) : Prop :=
  milder u c c' /\ c_speed c' = c_speed c
  /\ coil_gap psy c g /\ coil_gap psy c' g' /\ g' <= g
  /\ df_time_fraction (u_defrost u) c = Ok t /\ df_time_fraction (u_defrost u) c' = Ok t'
  /\ 0 <= t' <= t /\ t < 1.

(** The derates stay positive and a reverse-cycle defrost takes heat from the room. *)
Definition proper_frost (u : dxunit R) (c : cond R) (g : R) : Prop :=
  (df_control (u_defrost u) = DCTimed -> g <= 0.0084)
  /\ (df_strategy (u_defrost u) = DSReverseCycle -> degC (ps_db (c_outdoor c)) <= 7.222
      /\ forall x, entry (sd_gross_cap (u_h u)) (c_speed c) x -> 0 <= x).
