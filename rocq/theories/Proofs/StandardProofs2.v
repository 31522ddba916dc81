(** C40: what setting a rating standard leaves alone. *)
From Coq Require Import Reals List.
From Verif.Base Require Import Num Res.
From Verif.Model Require Import Units Conditions Tabular Unit DXUnit.
From Verif.Spec Require Import UnitModels.
From Verif.Proofs Require Import StandardProofs.

Lemma standards_change_only psy l (u : dxunit R) :
  let u' := after_standards psy l u in
  u' = wu_conds (u_conds u') (wu_full_esp (u_full_esp u') (wu_standard (u_standard u') u)).
Proof.
  intros u'. unfold u'. destruct (after_sim psy l u) as (s & e & cs & E & _). rewrite E. destruct u; reflexivity.
Qed.
