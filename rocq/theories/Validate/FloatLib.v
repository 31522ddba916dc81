(** psychrolib's SI formulas and the scipy root finders, on floats.  Used only
    to run the model (Validate/TestValues.v). *)
From Coq Require Import Floats List QArith.
From Verif.Base Require Import Num Res FloatNum.
From Verif.Model Require Import Psychrometrics Fan.
Import ListNotations.
Local Open Scope float_scope.
Set Warnings "-inexact-float".

(** psychrolib.GetSatVapPres (SI): over ice below 0.01 degC, else over water. *)
Definition sat_vap_pres (t : float) : float :=
  let k := t + 273.15 in
  if t <=? 0.01 then
    fexp (-5674.5359 / k + 6.3925247 - 0.009677843 * k
          + 6.2215701e-7 * k * k + 2.0747825e-9 * k * k * k
          - 9.484024e-13 * k * k * k * k + 4.1635019 * fln k)
  else
    fexp (-5800.2206 / k + 1.3914993 - 0.048640239 * k
          + 4.1764768e-5 * k * k - 1.4452093e-8 * k * k * k + 6.5459673 * fln k).

Definition min_hum_ratio (w : float) : float := if w <? 1e-7 then 1e-7 else w.

Definition sat_hum_ratio (t p : float) : float :=
  let pws := sat_vap_pres t in min_hum_ratio (0.621945 * pws / (p - pws)).

Definition hum_ratio_of_wb (t wb p : float) : float :=
  let ws := sat_hum_ratio wb p in
  min_hum_ratio
    (if 0 <=? wb then
       ((2501 - 2.326 * wb) * ws - 1.006 * (t - wb)) / (2501 + 1.86 * t - 4.186 * wb)
     else
       ((2830 - 0.24 * wb) * ws - 1.006 * (t - wb)) / (2830 + 1.86 * t - 2.1 * wb)).

Fixpoint bisect_wb (n : nat) (t w p lo hi : float) : float :=
  match n with
  | O => (lo + hi) / 2
  | S n' => let m := (lo + hi) / 2 in
            if w <? hum_ratio_of_wb t m p then bisect_wb n' t w p lo m
            else bisect_wb n' t w p m hi
  end.
Definition wb_of_hum_ratio (t w p : float) : float :=
  bisect_wb 50 t (min_hum_ratio w) p (-100) t.

Definition hum_ratio_of_rh (t rh p : float) : float :=
  let pw := rh * sat_vap_pres t in min_hum_ratio (0.621945 * pw / (p - pw)).

Definition rh_of_hum_ratio (t w p : float) : float :=
  p * w / (0.621945 + w) / sat_vap_pres t.

Definition enthalpy (t w : float) : float :=
  (1.006 * t + min_hum_ratio w * (2501 + 1.86 * t)) * 1000.

Definition float_psychro : psychro float := {|
  GetHumRatioFromTWetBulb t wb p :=
    if t <? wb then Err ValueError else Ok (hum_ratio_of_wb t wb p);
  GetTWetBulbFromHumRatio t w p :=
    if w <? 0 then Err ValueError else Ok (wb_of_hum_ratio t w p);
  GetTWetBulbFromRelHum t rh p := Ok (wb_of_hum_ratio t (hum_ratio_of_rh t rh p) p);
  GetMoistAirEnthalpy t w := if w <? 0 then Err ValueError else Ok (enthalpy t w);
  GetHumRatioFromEnthalpyAndTDryBulb h t :=
    Ok (min_hum_ratio ((h / 1000 - 1.006 * t) / (2501 + 1.86 * t)));
  GetMoistAirDensity t w p :=
    if w <? 0 then Err ValueError else
    Ok ((1 + w) / (287.042 * (t + 273.15) * (1 + 1.607858 * min_hum_ratio w) / p));
  GetSatHumRatio t p := Ok (sat_hum_ratio t p);
  GetSatAirEnthalpy t p := Ok (enthalpy t (sat_hum_ratio t p));
  GetTDryBulbFromEnthalpyAndHumRatio h w :=
    if w <? 0 then Err ValueError else
    Ok ((h / 1000 - 2501 * w) / (1.006 + 1.86 * w));
  GetRelHumFromTWetBulb t wb p :=
    if t <? wb then Err ValueError else
    Ok (rh_of_hum_ratio t (hum_ratio_of_wb t wb p) p);
  GetHumRatioFromRelHum t rh p := Ok (hum_ratio_of_rh t rh p)
|}.

Definition fabs (x : float) : float := PrimFloat.abs x.

(** scipy.optimize.newton without derivative: the secant method. *)
Fixpoint secant (n : nat) (p0 q0 p1 q1 : float) : prober float :=
  match n with
  | O => PFail RuntimeError
  | S n' =>
    if q1 =? q0 then
      if p1 =? p0 then PDone ((p1 + p0) / 2) else PFail RuntimeError
    else
      let p := if fabs q0 <? fabs q1 then (- q0 / q1 * p1 + p0) / (1 - q0 / q1)
               else (- q1 / q0 * p0 + p1) / (1 - q1 / q0) in
      if fabs (p - p1) <=? 1.48e-8 then PDone p
      else PAsk p (fun q => secant n' p1 q1 p q)
  end.

Definition float_newton (x0 : float) : prober float :=
  let e := 1e-4 in
  let p1 := x0 * (1 + e) + (if 0 <=? x0 then e else - e) in
  PAsk x0 (fun q0 => PAsk p1 (fun q1 =>
    if fabs q1 <? fabs q0 then secant 50 p1 q1 x0 q0
    else secant 50 x0 q0 p1 q1)).

(** A bracketing root finder with brentq's contract. *)
Fixpoint bisect (n : nat) (f : float -> res float) (a b fa : float) : res float :=
  match n with
  | O => Ok ((a + b) / 2)
  | S n' => let m := (a + b) / 2 in
            let! fm := f m in
            if fm =? 0 then Ok m
            else if fm * fa <? 0 then bisect n' f a m fa
            else bisect n' f m b fm
  end.
Definition float_brentq (f : float -> res float) (a b : float) : res float :=
  let! fa := f a in
  let! fb := f b in
  if fa =? 0 then Ok a
  else if fb =? 0 then Ok b
  else if 0 <? fa * fb then Err ValueError
  else bisect 60 f a b fa.

Definition float_solvers : solvers float :=
  {| brentq := float_brentq; newton := float_newton |}.
