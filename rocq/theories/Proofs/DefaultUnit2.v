(** Example for C102. *)
From Coq Require Import Reals Lra Lia List String.
From Verif.Base Require Import Num Res Tac.
From Verif.Model Require Import Units Util Psychrometrics Conditions Defrost Fan Tabular Unit Resnet DXUnit RatingSolver.
From Verif.Proofs Require Import UnitsR ToyBuild ToyResnetTable ToyResnet ToyResnet2 Secant.
Import ListNotations.
Local Open Scope R_scope.

Lemma rated_default : exists u : dxunit R,
  DXUnit lin_psy rt_sol (RESNETDXModel lin_psy rt_sol) (toy_args 8 3.5) = Ok u
  /\ get_kwarg_value "tabular_data" (a_kwargs (toy_args 8 3.5)) = KNone
  /\ (forall l, a_hcap (toy_args 8 3.5) <> Some (Many l)).
Proof.
  destruct (toy_table 3.5 8) as (net & N & _ & Cl); [lra|].
  destruct (toy_built 8 3.5 net) as (g & P & s & b & n & E & _); [lra|exact N|exact Cl|].
  eexists. split; [exact E|]. split; [reflexivity|discriminate].
Qed.
