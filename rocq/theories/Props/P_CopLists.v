(** Property C48, continued: COPs given as lists (base_model.py:180-274). *)
From Coq Require Import Reals List.
From Verif.Base Require Import Num Res.
From Verif.Model Require Import Units Conditions Unit BaseModel DXUnit.
From Verif.Spec Require Import NrelSpec UnitSpec UnitModels CopListSpec.
From Verif.Proofs Require Import ToyBuild CopLists CopLists2.
Import ListNotations.
Local Open Scope R_scope.

(** A list of gross COPs is stored, but nothing is derived from it: a net COP given besides is
    stored too, however badly the two agree, and without one the unit has no net COP and no rated
    powers. *)
Theorem C48_gross_cop_list_refuted : forall psy sol M a (u : dxunit R) m l,
  plain_model sol M -> DXUnit psy sol M a = Ok u -> gross_input m a = Some (Many l) ->
  sd_gross_cop (side_of m u) = map Some l
  /\ match net_input m a with
     | Some v => sd_net_cop (side_of m u) = given_cops (sd_n (side_of m u)) v
     | None => unset (side_of m u)
     end.
Proof. exact cop_lists. Qed.
Print Assumptions C48_gross_cop_list_refuted.

(** A unit with a gross COP of 3 and a net COP of 5. *)
Example C48_gross_cop_list_nonvacuous : exists u,
  DXUnit lin_psy lin_sol ConstantDXModel
    (const_args SINGLE_STAGE AHRI_210_240_2023 [10000] [9000] (Some (Scalar 4)) None
       (Some (Many [3])) (Some (Scalar 5)) None) = Ok u
  /\ sd_gross_cop (u_h u) = [Some 3] /\ sd_net_cop (u_h u) = [Some 5].
Proof. exact list_example. Qed.
