(** Specifications for the response of Title 24 cooling to weather and airflow (C114). *)
From Coq Require Import Reals.
From Verif.Base Require Import Res.
From Verif.Model Require Import Conditions Unit.
From Verif.Spec Require Import NrelSpec ModelSpec Title24Spec.
Local Open Scope R_scope.

(** The coil dehumidifies in both conditions or in neither. *)
Definition same_coil (wb odb idb v wb' odb' idb' v' : R) : Prop :=
  t24_wet wb odb idb v /\ t24_wet wb' odb' idb' v'
  \/ ~ t24_wet wb odb idb v /\ ~ t24_wet wb' odb' idb' v'.

(** The ratings of a cooling speed: net capacity, gross capacity, fan power, COP and the user's
    factor on the efficiency. *)
Definition rated24 (u : dxunit R) (i : nat) (q g w cop f : R) : Prop :=
  List.nth_error (sd_net_cap (u_c u)) i = Some q
  /\ entry (sd_gross_cap (u_c u)) i g /\ 0 < g
  /\ entry (sd_fan_power (u_c u)) i w
  /\ entry (sd_net_cop (u_c u)) i cop /\ 0 < cop
  /\ efficiency_factor u f /\ 0 < f
  /\ 0 < q / cop - w / 3.413.
