(** Unit conversions.

    The code converts with koozie's [fr_u(x, unit)] (to SI base units) and
    [to_u(x, unit)] (from SI base units), which delegate to pint.  The package
    is not part of /repo; the (affine) conversions it performs for the units
    used in /repo/resdx are written out here and belong to the trusted base. *)
From Coq Require Import QArith.
From Verif.Base Require Import Num.

Section Units.
  Context {T : Type} {NT : Num T} {NX : NumX T}.
  Local Open Scope num_scope.

  (** [fr_u(x, "°F")], kelvin; used throughout /repo/resdx. *)
  Definition fr_F (x : T) : T := (x + lit 459.67) * lit 5 / lit 9.
  (** [to_u(x, "°F")] *)
  Definition to_F (x : T) : T := x * lit 9 / lit 5 - lit 459.67.
  (** [fr_u(x, "°C")] *)
  Definition fr_C (x : T) : T := x + lit 273.15.
  (** [to_u(x, "°C")] *)
  Definition to_C (x : T) : T := x - lit 273.15.
  (** [fr_u(x, "°R")]: a temperature difference or absolute temperature. *)
  Definition fr_degR (x : T) : T := x * lit 5 / lit 9.
  (** [fr_u(x, "1/°F")] ("delta" units). *)
  Definition fr_per_F (x : T) : T := x * lit 9 / lit 5.
  (** [fr_u(x, "min")], seconds. *)
  Definition fr_min (x : T) : T := x * lit 60.
  (** [fr_u(1.0, "atm")], pascal. *)
  Definition atm : T := lit 101325.

  (** One Btu/h in watts: a Btu is 1055.056 J (pint's ISO Btu). *)
  Definition btu_h : T := lit 1055.056 / lit 3600.
  Definition fr_Btuh (x : T) : T := x * btu_h.
  Definition to_Btuh (x : T) : T := x / btu_h.
  (** [fr_u(x, "kBtu/h")] *)
  Definition fr_kBtuh (x : T) : T := x * lit 1000 * btu_h.
  Definition to_kBtuh (x : T) : T := x / (lit 1000 * btu_h).
  (** [fr_u(x, "Btu/Wh")]: an EER as a dimensionless COP. *)
  Definition fr_Btu_Wh (x : T) : T := x * btu_h.
  (** [to_u(x, "Btu/Wh")] *)
  Definition to_Btu_Wh (x : T) : T := x / btu_h.
  (** [fr_u(x, "ton_ref")]: 12000 Btu/h. *)
  Definition ton_ref : T := lit 12000 * btu_h.
  Definition fr_ton (x : T) : T := x * ton_ref.
  Definition to_ton (x : T) : T := x / ton_ref.

  (** One cubic foot per minute in m3/s. *)
  Definition cfm : T := lit 0.028316846592 / lit 60.
  Definition fr_cfm (x : T) : T := x * cfm.
  Definition to_cfm (x : T) : T := x / cfm.
  (** [fr_u(x, "cfm/ton_ref")] *)
  Definition fr_cfm_per_ton (x : T) : T := x * cfm / ton_ref.
  (** [fr_u(x, "W/cfm")] *)
  Definition to_cfm_per_ton (x : T) : T := x * ton_ref / cfm.
  Definition fr_W_per_cfm (x : T) : T := x / cfm.
  Definition to_W_per_cfm (x : T) : T := x * cfm.

  (** One inch of water column in pascal. *)
  Definition inH2O : T := lit 249.08891.
  Definition fr_inH2O (x : T) : T := x * inH2O.
  Definition to_inH2O (x : T) : T := x / inH2O.
  (** [fr_u(x, "1/in_H2O")] *)
  Definition fr_per_inH2O (x : T) : T := x / inH2O.
  (** [fr_u(x, "cfm/in_H2O")], [fr_u(x, "cfm/in_H2O**2")] *)
  Definition fr_cfm_per_inH2O (x : T) : T := x * cfm / inH2O.
  Definition fr_cfm_per_inH2O2 (x : T) : T := x * cfm / (inH2O * inH2O).
  (** [fr_u(x, "(W/cfm)/in_H2O")], [fr_u(x, "(W/cfm)/in_H2O**2")] *)
  Definition fr_W_per_cfm_inH2O (x : T) : T := x / cfm / inH2O.
  Definition fr_W_per_cfm_inH2O2 (x : T) : T := x / cfm / (inH2O * inH2O).
  (** [fr_u(x, "rpm")], rad/s; [to_u(x, "rps")] *)
  Definition fr_rpm (x : T) : T := x * (npi * lit 2) / lit 60.
  Definition to_rps (x : T) : T := x / (npi * lit 2).
  (** [fr_u(x, "rpm/in_H2O")] *)
  Definition fr_rpm_per_inH2O (x : T) : T := x * (npi * lit 2) / lit 60 / inH2O.
End Units.
