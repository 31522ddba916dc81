(** The optional ratings of a RESNET unit (C90) and the inputs of [make_rating_unit] (C91). *)
From Coq Require Import Reals List String.
From Verif.Base Require Import Num Res.
From Verif.Model Require Import Units Defrost Tabular Unit DXUnit RatingSolver.
Local Open Scope R_scope.

(** Keyword argument [k] is the number [x]. *)
Definition option_given (a : dxargs R) (k : string) (x : R) : Prop := get_kwarg_value k (a_kwargs a) = KNum x.

(** Rated heating capacity at 17 F: given, or a fraction of the rated capacity [h] at 47 F. *)
Definition capacity_17 (a : dxargs R) (st : staging_type) (h q : R) : Prop :=
  option_given a "rated_net_heating_capacity_17" q
  \/ (get_kwarg_value "rated_net_heating_capacity_17" (a_kwargs a) = KNone
      /\ q = match st with VARIABLE_SPEED => 0.689 * h | _ => 0.626 * h end).

(** Rated heating capacity of a unit asked of [make_rating_unit]. *)
Definition asked_heating (r : solver_inputs) : R :=
  match ri_q47 r, ri_staging r with
  | Some q, _ => q
  | None, VARIABLE_SPEED => 1.022 * ri_q95 r + fr_Btuh 607
  | None, _ => 0.98 * ri_q95 r + fr_Btuh 180
  end.
