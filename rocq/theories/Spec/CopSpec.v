(** Rated values of a two-speed unit made from one COP. *)
From Coq Require Import Reals List.
From Verif.Base Require Import Num Res.
From Verif.Model Require Import Units Util Psychrometrics Conditions Defrost Fan Tabular Unit.
From Verif.Spec Require Import NrelSpec.
Import ListNotations.
Local Open Scope R_scope.

Definition two {A} (l : list A) : Prop := List.length l = 2%nat.
(** The low-speed compressor needs 91 % (cooling) or 87 % (heating) of the power per
    capacity. *)
Definition low_share (m : mode) : R := match m with Cooling => 0.91 | Heating => 0.87 end.
(** The rated values of a two-speed side derived from one net COP. *)
Definition two_speed_values (m : mode) (s : side R) (x : R) : Prop :=
  exists q0 q1 g0 g1 w0 w1,
    entry (map Some (sd_net_cap s)) 0 q0 /\ entry (map Some (sd_net_cap s)) 1 q1 /\
    entry (sd_gross_cap s) 0 g0 /\ entry (sd_gross_cap s) 1 g1 /\
    entry (sd_fan_power s) 0 w0 /\ entry (sd_fan_power s) 1 w1 /\
    let p0 := q0 / x in
    let c0 := g0 / (p0 - w0) in
    let c1 := c0 / low_share m in
    sd_net_cop s = [Some x; Some (q1 / (g1 / c1 + w1))] /\
    sd_net_power s = [Some p0; Some (g1 / c1 + w1)] /\
    sd_gross_power s = [Some (p0 - w0); Some (g1 / c1)] /\
    sd_gross_cop s = [Some c0; Some c1].

