(** COPs given as one number or as a list (C48). *)
From Coq Require Import Reals List.
From Verif.Model Require Import Conditions Unit.
From Verif.Spec Require Import NrelSpec UnitSpec.
Import ListNotations.
Local Open Scope R_scope.

(** One number stands for every speed. *)
Definition given_cops (n : nat) (v : num_or_list R) : list (option R) :=
  match v with Many l => map Some l | Scalar x => repeat (Some x) n end.

(** No net COP and no power at any speed. *)
Definition unset (s : side R) : Prop := forall i x,
  ~ entry (sd_net_cop s) i x /\ ~ entry (sd_net_power s) i x /\ ~ entry (sd_gross_power s) i x.
