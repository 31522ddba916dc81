(** Specifications for the default ratings of the NREL model (C93). *)
From Coq Require Import Reals List.
From Verif.Base Require Import Num Res.
From Verif.Model Require Import Units Psychrometrics Conditions Defrost Fan Tabular Unit.
From Verif.Spec Require Import NrelSpec DefaultSpec.
Import ListNotations.
Local Open Scope R_scope.

(** Fan efficacy in W/cfm by SEER: 0.25 up to 14, 0.18 from 16 on, a straight line between. *)
Definition watts_per_cfm (seer : option R) : R :=
  match seer with
  | None => 0.25
  | Some s => Rmin 0.25 (Rmax 0.18 (0.25 - 0.035 * (s - 14)))
  end.

(** Airflow in cfm per ton, by mode and number of speeds. *)
Definition nrel_flows (m : mode) (n : nat) : option (list R) :=
  match m, n with
  | Cooling, 1%nat => Some [per_ton 394.2]
  | Cooling, 2%nat => Some [per_ton 344.1; 0.86 * per_ton 344.1]
  | Heating, 1%nat => Some [per_ton 384.1]
  | Heating, 2%nat => Some [per_ton 352.2; 0.8 * per_ton 352.2]
  | _, _ => None
  end.

(** A net capacity [q] with fan efficacy [e] and airflow [a] per net capacity, as gross
    capacity. *)
Definition gross_with (m : mode) (q e a : R) : R := gross_of_net m q (q * e * a).

(** Side [s] has fan efficacy [e] and airflow per capacity [a] at speed [i]. *)
Definition fan_share (s : side R) (i : nat) (e a : R) : Prop :=
  nth_error (sd_fan_efficacy s) i = Some e
  /\ exists l, sd_flow_per_cap s = Some (Many l) /\ nth_error l i = Some a.

