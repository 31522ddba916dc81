(** Specifications for the NREL curves, charge factors and defrost (C28-C31). *)
From Coq Require Import Reals List.
From Verif.Base Require Import Num Res.
From Verif.Model Require Import Units Psychrometrics Conditions Defrost Tabular Unit.
Import ListNotations.
Local Open Scope R_scope.

(** A temperature in kelvin, in degrees Fahrenheit and Celsius. *)
Definition degF (k : R) : R := k * 9 / 5 - 459.67.
Definition degC (k : R) : R := k - 273.15.

Definition clamp (lo hi x : R) : R := Rmax lo (Rmin hi x).

(** The Cutler curves; [wb], [idb], [odb] in degrees Fahrenheit, [r] the mass
    airflow over the rated mass airflow. *)
Definition cool_cap_T (wb odb : R) : R :=
  3.717717741 - 0.09918866 * wb + 0.000964488 * wb ^ 2 + 0.005887776 * odb
  - 0.000012808 * odb ^ 2 - 0.000132822 * wb * odb.
Definition cool_eir_T (wb odb : R) : R :=
  -3.400341169 + 0.135184783 * wb - 0.001037932 * wb ^ 2 - 0.007852322 * odb
  + 0.000183438 * odb ^ 2 - 0.000142548 * wb * odb.
Definition heat_cap_T (idb odb : R) : R :=
  0.568706266 - 0.000747282 * idb - 0.0000103432 * idb ^ 2 + 0.00945408 * odb
  + 0.000050812 * odb ^ 2 - 0.00000677828 * idb * odb.
Definition heat_eir_T (idb odb : R) : R :=
  0.722917608 + 0.003520184 * idb + 0.000143097 * idb ^ 2 - 0.005760341 * odb
  + 0.000141736 * odb ^ 2 - 0.000216676 * idb * odb.
Definition cool_cap_flow (r : R) : R := 0.718664047 + 0.41797409 * r - 0.136638137 * r ^ 2.
Definition cool_eir_flow (r : R) : R := 1.143487507 - 0.13943972 * r - 0.004047787 * r ^ 2.
Definition heat_cap_flow (r : R) : R := 0.694045465 + 0.474207981 * r - 0.168253446 * r ^ 2.
Definition heat_eir_flow (r : R) : R := 2.185418751 - 1.942827919 * r + 0.757409168 * r ^ 2.

(** The temperatures the cooling curves are evaluated at. *)
Definition curve_wb (w : R) : R := clamp 57 72 (degF w).
Definition curve_odb (t : R) : R := Rmax 75 (degF t).

(** Refrigerant charge: the multiplier for a charge deviation [f] at indoor and
    outdoor dry bulb temperatures [ti], [to] in degrees Celsius
    (undercharged / overcharged coefficients). *)
Definition charge_poly (a0 a1 a2 a3 ti to f : R) : R :=
  1 + (a0 + a1 * ti + a2 * to + a3 * f) * f.
Definition charge_only (m : mode) (capacity : bool) (ti to f : R) : R :=
  if Rlt_dec f 0 then
    match m, capacity with
    | Cooling, true => charge_poly (-0.946) 0.0493 (-0.00118) (-1.15) ti to f
    | Cooling, false => charge_poly (-0.313) 0.0115 0.00266 (-0.116) ti to f
    | Heating, true => charge_poly (-0.0339) 0 0.0203 (-2.62) ti to f
    | Heating, false => charge_poly 0.0616 0 0.00446 (-0.26) ti to f
    end
  else
    match m, capacity with
    | Cooling, true => charge_poly (-0.163) 0.0114 (-0.00021) (-0.14) ti to f
    | Cooling, false => charge_poly 0.219 (-0.00501) 0.000989 0.284 ti to f
    | Heating, true => charge_poly (-0.00295) 0 0.000738 (-0.00641) ti to f
    | Heating, false => charge_poly (-0.0594) 0 0.0159 1.89 ti to f
    end.

(** Entry [i] of an array of rated values. *)
Definition entry (l : list (option R)) (i : nat) (x : R) : Prop :=
  nth_error l i = Some (Some x).
