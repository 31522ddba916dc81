(** Specifications for the cooling side of the Title 24 model (C76) and its heating power
    (C77). *)
From Coq Require Import Reals List String.
From Verif.Base Require Import Num Res.
From Verif.Model Require Import Units Psychrometrics Conditions Defrost Fan Tabular Unit.
From Verif.Spec Require Import NrelSpec ModelSpec.
Import ListNotations.
Local Open Scope R_scope.

(** Airflow per capacity in m3/s per W, in cfm per ton. *)
Definition cfm_per_ton (x : R) : R :=
  x * (12000 * (1055.056 / 3600)) / (0.028316846592 / 60).
(** An energy efficiency ratio in Btu/Wh as a number without unit. *)
Definition as_cop (eer : R) : R := eer * (1055.056 / 3600).

(** What the curves see of a condition: indoor wet bulb, outdoor and indoor dry bulb in
    degrees Fahrenheit, standard airflow in cfm per ton (not zero). *)
Definition t24_point (c : cond R) (wb odb idb v : R) : Prop :=
  exists w x, ps_wb (c_indoor c) = Some w
    /\ c_standard_volumetric_airflow_per_capacity c = Some x /\ v <> 0
    /\ wb = degF w /\ odb = degF (ps_db (c_outdoor c)) /\ idb = degF (ps_db (c_indoor c))
    /\ v = cfm_per_ton x.

(** The Title 24 curves. *)
Definition t24_shr (wb odb idb v : R) : R :=
  Rmin 1 (1.5085285 + 0.0242020 * idb - 0.0592153 * wb + 0.0012651 * odb + 0.0016375 * v
          - 0.0000165 * wb * v + 0.0002021 * wb ^ 2).
(** Air is dehumidified. *)
Definition t24_wet (wb odb idb v : R) : Prop := t24_shr wb odb idb v < 1.

(** Capacity over rated capacity, with and without dehumidification. *)
Definition t24_cap (wb odb idb v f : R) : Prop :=
  (t24_wet wb odb idb v ->
   f = 0.38156715 + 0.0096459 * wb + 0.0025369 * odb + 0.0001715 * v - 0.0000959 * wb * odb
       + 0.00000818 * wb * v - 0.00000755 * odb * v + 0.0001057 * wb ^ 2 - 53.5423 / v)
  /\ (~ t24_wet wb odb idb v ->
   f = 0.4307516 + 0.0094831 * idb - 0.0006006 * odb - 0.0001489 * v - 0.0000326 * idb * odb
       + 0.0000119 * idb * v - 0.00000505 * odb * v - 52.56174 / v).
(** Power over rated power: the shape common to the curves used below 95 F (constant
    [a] wet, [b] dry) and from 82 F. *)
Definition t24_pow (a b wb odb idb v f : R) : Prop :=
  (t24_wet wb odb idb v ->
   f = a - 0.0202256 * wb + 0.0236703 * odb - 0.0006638 * v - 0.0001841 * wb * odb
       + 0.0000214 * wb * v - 0.00000812 * odb * v + 0.0002971 * wb ^ 2 - 27.95672 / v)
  /\ (~ t24_wet wb odb idb v ->
   f = b + 0.0046103 * idb + 0.0125598 * odb - 0.000512 * v - 0.0000357 * idb * odb
       + 0.0000105 * idb * v).
Definition t24_pow_mild : R -> R -> R -> R -> R -> Prop := t24_pow 0.209951063 (-0.316172311).
Definition t24_pow_hot : R -> R -> R -> R -> R -> Prop := t24_pow 0.0150031 (-0.4753065).

(** The gross efficiency derived from the SEER: net capacity [q], fan power [w]. *)
Definition seasonal_efficiency (fc fp q w seer : R) : R :=
  fc / fp * (1.09 * q + w) / (1.09 * q / as_cop seer - w).
(** The gross efficiency derived from the rated COP: gross capacity [g]. *)
Definition rated_efficiency (fp q g w cop : R) : R := g / (fp * (q / cop - w / 3.413)).

(** The efficiency at outdoor temperature [t]: seasonal up to 82 F, rated from 95 F, in
    between the line from one to the other. *)
Definition t24_efficiency (t seasonal rated : R) : R :=
  if Rle_dec t 82 then seasonal
  else if Rlt_dec t 95 then seasonal + (t - 82) / (95 - 82) * (rated - seasonal)
  else rated.

(** The user's factor on the efficiency, 1 if none was given. *)
Definition efficiency_factor (u : dxunit R) (f : R) : Prop :=
  (exists e, find (fun x => String.eqb "input_cooling_efficiency_multiplier" (fst x)) (u_kwargs u)
             = Some e /\ snd e = KNum f)
  \/ not_supplied u "input_cooling_efficiency_multiplier" /\ f = 1.

(** The two efficiencies of cooling speed [i] at a point, as far as they are needed there:
    net capacity [q], fan power [w]. *)
Definition seasonal_known (u : dxunit R) (wb odb idb v q w s : R) : Prop :=
  odb < 95 -> exists fc fp seer, t24_cap wb odb idb v fc /\ t24_pow_mild wb odb idb v fp
    /\ u_seer u = Some seer /\ s = seasonal_efficiency fc fp q w seer.
Definition rated_known (u : dxunit R) (i : nat) (wb odb idb v q w r : R) : Prop :=
  82 < odb -> exists fp g cop, t24_pow_hot wb odb idb v fp
    /\ entry (sd_gross_cap (u_c u)) i g /\ entry (sd_net_cop (u_c u)) i cop
    /\ r = rated_efficiency fp q g w cop.

(** * Heating (C77) *)

(** Temperature bins (degrees Fahrenheit) and the fraction of the hours in each. *)
Definition heating_bins : list (R * R) :=
  [(62, 0.132); (57, 0.111); (52, 0.103); (47, 0.093); (42, 0.1); (37, 0.109); (32, 0.126);
   (27, 0.087); (22, 0.055); (17, 0.036); (12, 0.026); (7, 0.013); (2, 0.006); (-3, 0.002);
   (-8, 0.001)].

(** A quantity with values [a17], [a35], [a47] at 17, 35 and 47 F: the line from 17 to 35 F
    between 17 and 45 F, elsewhere the line from 17 to 47 F. *)
Definition frosted_line (a17 a35 a47 t : R) : R :=
  if Rlt_dec 17 t then if Rlt_dec t 45 then a17 + (a35 - a17) / (35 - 17) * (t - 17)
                       else a17 + (a47 - a17) / (47 - 17) * (t - 17)
  else a17 + (a47 - a17) / (47 - 17) * (t - 17).
Definition clear_line (a17 a47 t : R) : R := a17 + (a47 - a17) / (47 - 17) * (t - 17).

(** Capacities [q], inputs [e] at 17, 35 and 47 F, cycling degradation [cd]. *)
Section Season.
  Variables cd q17 q35 q47 e17 e35 e47 : R.
  Definition bin_load (t : R) : R := 0.77 * q47 * (65 - t) / (65 - 5).
  (** Off up to 0 F and where heat would cost more electricity than it delivers; half of
      the time up to 5 F. *)
  Definition bin_running (t cap e : R) : R :=
    if Rle_dec t 0 then 0 else if Rlt_dec (cap / e) 1 then 0 else if Rle_dec t 5 then 0.5 else 1.
  (** Electricity used by the compressor and by resistance heat. *)
  Definition bin_electricity (t : R) : R :=
    let cap := frosted_line q17 q35 q47 t in
    let e := frosted_line e17 e35 e47 t in
    let x := Rmin (bin_load t / cap) 1 in
    x * e * bin_running t cap e / (1 - cd * (1 - x))
    + (bin_load t - x * cap * bin_running t cap e).
  Definition over_bins (f : R -> R) : R :=
    fold_right Rplus 0 (map (fun b => f (fst b) * snd b) heating_bins).
  (** Heat over electricity, in Btu/Wh. *)
  Definition seasonal_heating : R :=
    over_bins bin_load / over_bins bin_electricity / (1055.056 / 3600).
End Season.

(** The input at 35 F when the COP at 17 F is [k17]; a COP at 35 F given by the user wins. *)
Definition input35 (u : dxunit R) (i : nat) (q17 q35 e17 e47 e : R) : Prop :=
  (exists k, supplied u "cop35" i k /\ e = q35 / k)
  \/ not_supplied u "cop35"
     /\ e = (e17 + (35 - 17) / (47 - 17) * (e47 - e17))
            * match df_strategy (u_defrost u) with DSNone => 1 | _ => 0.985 end.

(** [h] is the HSPF of heating speed [i] for a COP of [k17] at 17 F. *)
Definition hspf_if (u : dxunit R) (i : nat) (k17 h : R) : Prop :=
  exists q17 q35 q47 k47 e35, anchor17 u i q17 /\ anchor35 u i q35 /\ anchor47 u i q47
    /\ entry (sd_net_cop (u_h u)) i k47
    /\ input35 u i q17 q35 (q17 / k17) (q47 / k47) e35
    /\ h = seasonal_heating (sd_cd (u_h u)) q17 q35 q47 (q17 / k17) e35 (q47 / k47).

(** The points at which a root finder evaluates its function. *)
Fixpoint trials (f : R -> res R) (p : prober R) : list R :=
  match p with
  | PAsk x k => x :: match f x with Ok y => trials f (k y) | Err _ => [] end
  | _ => []
  end.

(** What the model asks the root finder to make zero. *)
Definition is_hspf_error (u : dxunit R) (i : nat) (f : R -> res R) : Prop :=
  forall k y, f k = Ok y -> exists h target, hspf_if u i k h /\ u_hspf u = Some target
    /\ y = h - target.

(** A root finder that returns the point it evaluated last. *)
Definition answers_last_trial (sol : solvers R) : Prop :=
  forall f x0 x, run_prober_pure f (newton sol x0) = Ok x ->
  exists rest, rev (trials f (newton sol x0)) = x :: rest.

(** What one would expect of the power at 35 F, defrosting: the net inputs at 17 and 47 F
    interpolated, less the 1.5 % credited to defrost, and less the fan. *)
Definition expected_at_35 (u : dxunit R) (p17 p47 w p35 : R) : Prop :=
  p35 = (0.4 * (p17 + w) + 0.6 * (p47 + w))
        * match df_strategy (u_defrost u) with DSNone => 1 | _ => 0.985 end - w.
