(** C66: compressor control and cycling degradation in the 205 export. *)
From Coq Require Import Reals List String Lia PeanoNat.
From Verif.Base Require Import Num Res Tac.
From Verif.Model Require Import Units Util Psychrometrics Conditions Defrost Fan Tabular Unit
  DXUnit BaseModel Repr205.
Local Open Scope R_scope.

Lemma control_exported psy sol M (u : dxunit R) r :
  generate_205_representation psy sol M u = Ok r ->
  r_degradation r = sd_cd (u_c u)
  /\ (r_control r = "DISCRETE"%string <-> (sd_n (u_c u) <= 2)%nat)
  /\ (r_control r = "CONTINUOUS"%string <-> (3 <= sd_n (u_c u))%nat).
Proof.
  unfold generate_205_representation. intros H. inv_ok. subst r. cbn [r_degradation r_control].
  split; [reflexivity|].
  destruct (Nat.ltb_spec (sd_n (u_c u)) 3); split; split; intros; try lia; try reflexivity; discriminate.
Qed.
