(** What C101 assumes of psychrolib and says about the sensible capacity of the models that
    use EnergyPlus' apparatus dew point. *)
From Coq Require Import Reals QArith List.
From Verif.Base Require Import Num Res.
From Verif.Model Require Import Units Psychrometrics Conditions Defrost Tabular Unit.
Import ListNotations.
Local Open Scope R_scope.

(** ASHRAE Fundamentals: enthalpy (J/kg) of moist air at [t] C with humidity ratio [w]. *)
Definition moist_enthalpy (t w : R) : R := (1.006 * t + w * (2501 + 1.86 * t)) * 1000.

(** psychrolib in SI: enthalpy by that formula for humidity ratios it does not replace by its
    minimum 1e-7; that minimum also bounds the ratio at saturation, and saturated air has
    the enthalpy of air with that ratio. *)
Definition ashrae_air (psy : psychro R) : Prop :=
  (forall t w, 1 / 10000000 <= w -> GetMoistAirEnthalpy psy t w = Ok (moist_enthalpy t w))
  /\ (forall t p w, GetSatHumRatio psy t p = Ok w ->
      1 / 10000000 <= w /\ GetSatAirEnthalpy psy t p = Ok (moist_enthalpy t w)).

Definition celsius (s : psych_state R) : R := ps_db s - 273.15.

(** A state of humidity ratio [w], its enthalpy by the formula. *)
Definition air_at (psy : psychro R) (s : psych_state R) (w : R) : Prop :=
  hr_of psy s = Ok w /\ h_of psy s = Ok (moist_enthalpy (celsius s) w).

(** The coil, [k] kg/s of air of which is cooled from temperature [ti] and humidity ratio
    [wi] to the saturated state [ta], [wa], within [tol] J/kg, moving [q] watts in all and
    [s] of them sensible: the latent part condenses the difference in humidity at the
    inlet temperature, the sensible part cools air of the humidity [wa]. *)
Definition coil_split (tol k ti wi ta wa q s : R) : Prop :=
  k <> 0
  /\ Rabs (q / k - (moist_enthalpy ti wi - moist_enthalpy ta wa)) <= tol
  /\ q - s = k * (wi - wa) * (2501000 + 1860 * ti)
  /\ Rabs (s - k * (ti - ta) * (1006 + 1860 * wa)) <= Rabs k * tol.
