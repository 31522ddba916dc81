(** Names used in the statements about whole units. *)
From Coq Require Import Reals List.
From Verif.Model Require Import Psychrometrics Fan Unit NREL BaseModel Title24 Resnet DXUnit.
Import ListNotations.
Local Open Scope R_scope.

(** The models the library ships. *)
Definition library_model (psy : psychro R) (sol : solvers R) (M : dxmodel R) : Prop :=
  In M [BaseDXModel; ConstantDXModel; CarrierDefrostModel; Title24DXModel sol;
        NRELDXModel psy sol; RESNETDXModel psy sol].

(** Those that take their rated capacities as given and use the base class's COP
    setters. *)
Definition plain_model (sol : solvers R) (M : dxmodel R) : Prop :=
  In M [BaseDXModel; ConstantDXModel; CarrierDefrostModel; Title24DXModel sol].

(** The unit after setting the standards of [l] in turn (whether or not each call
    raises). *)
Definition after_standards (psy : psychro R) (l : list ahri_version) (u : dxunit R) : dxunit R :=
  fold_left (fun u s => fst (set_rating_standard psy s u)) l u.

(** No rated capacity is zero. *)
Definition caps_nonzero (s : side R) : Prop :=
  (forall i q, nth_error (sd_net_cap s) i = Some q -> q <> 0)
  /\ (forall i q, nth_error (sd_gross_cap s) i = Some (Some q) -> q <> 0).

(** COP arguments of the constructor. *)
Definition net_input (m : mode) (a : dxargs R) :=
  match m with Cooling => a_net_ccop a | Heating => a_net_hcop a end.
Definition gross_input (m : mode) (a : dxargs R) :=
  match m with Cooling => a_gross_ccop a | Heating => a_gross_hcop a end.
