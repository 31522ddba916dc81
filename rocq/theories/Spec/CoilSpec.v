(** What the coil methods of the unit promise (C67, C68): an energy balance on the air
    stream, and the apparatus dew point construction. *)
From Coq Require Import Reals QArith List.
From Verif.Base Require Import Num Res.
From Verif.Model Require Import Units Psychrometrics Conditions Defrost Tabular Unit.
Import ListNotations.
Local Open Scope R_scope.

(** An air stream of [m] kg/s goes from [i] to [o] at constant pressure: it gives up [q]
    watts of enthalpy and [qs] watts of sensible heat (1006 J/(kg K)). *)
Definition cooled (psy : psychro R) (m q qs : R) (i o : psych_state R) : Prop :=
  exists h_i h_o,
    h_of psy i = Ok h_i /\ h_of psy o = Ok h_o
    /\ m * (h_i - h_o) = q
    /\ m * 1006 * (ps_db i - ps_db o) = qs
    /\ ps_p o = ps_p i.

(** The stream gains [q] watts of sensible heat and no moisture. *)
Definition heated (psy : psychro R) (m q : R) (i o : psych_state R) : Prop :=
  exists w,
    hr_of psy i = Ok w /\ hr_of psy o = Ok w
    /\ m * 1006 * (ps_db o - ps_db i) = q
    /\ ps_p o = ps_p i.

(** [a] is an apparatus dew point of the coil that turns [i] into [o]: its humidity ratio is
    within [tol] of saturation at its temperature, it is no warmer and no moister than [o],
    and the temperature and humidity ratio of [o] are the same mixture, [k] parts of [i] to
    [1 - k] parts of [a]. *)
Definition apparatus_dew_point (psy : psychro R) (tol : R) (i o a : psych_state R) (k : R)
    : Prop :=
  exists w_i w_o w_a sat,
    hr_of psy i = Ok w_i /\ hr_of psy o = Ok w_o /\ hr_of psy a = Ok w_a
    /\ GetHumRatioFromRelHum psy (ps_db a - 273.15) 1 (ps_p a) = Ok sat
    /\ Rabs (sat - w_a) <= tol
    /\ ps_p a = ps_p i
    /\ ps_db a <= ps_db o /\ w_a <= w_o
    /\ ps_db o = k * ps_db i + (1 - k) * ps_db a
    /\ w_o = k * w_i + (1 - k) * w_a.
