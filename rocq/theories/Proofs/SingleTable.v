(** The shape of the tables built from ratings. *)
From Coq Require Import Reals QArith Lra Lia List Bool Sorted ZArith.
From Verif.Base Require Import Num Res Tac.
From Verif.Model Require Import Units Util Curves Tabular.
From Verif.Spec Require Import TabularSpec.
From Verif.Proofs Require Import UtilProofs UnitsR Lin1 TabCells TabAdd TabInterp TabBuild TabGross TabMisc.
Import ListNotations.
Local Open Scope R_scope.

Definition shape (n : nat) (p : perf R) : Prop :=
  p_nc p = n /\ p_nh p = n
  /\ up_to_date (p_cc p) /\ up_to_date (p_cp p) /\ up_to_date (p_hc p) /\ up_to_date (p_hp p).

Lemma finish_shape n qc pc qh ph p l1 l2 l3 l4 :
  finish qc pc qh ph = Ok p ->
  knows CoolingTable n qc l1 -> knows CoolingTable n pc l2 ->
  knows HeatingTable n qh l3 -> knows HeatingTable n ph l4 -> shape n p.
Proof.
  unfold finish, make_perf. intros H (_ & _ & N1 & _) _ (_ & _ & N3 & _) _. inv_ok. subst p.
  apply ex_ok in E, E0, E1, E2. unfold shape. cbn [p_nc p_nh p_cc p_cp p_hc p_hp].
  split; [|split].
  - rewrite (interpolated_n _ _ E). exact N1.
  - rewrite (interpolated_n _ _ E1). exact N3.
  - split; [exact (interpolated_again _ _ E)|]. split; [exact (interpolated_again _ _ E0)|].
    split; [exact (interpolated_again _ _ E1)|exact (interpolated_again _ _ E2)].
Qed.

Lemma single_shape q95 seer eer q47 q17 hspf tmax tmin cop47 cd (p : perf R) :
  make_single_speed_model_data q95 seer eer q47 q17 hspf tmax tmin cop47 cd = Ok p -> shape 1 p.
Proof.
  intros H. unfold make_single_speed_model_data in H. cbv zeta in H.
  set (t82 := fr_F (lit (T:=R) 82)) in *. set (t95 := fr_F (lit (T:=R) 95)) in *.
  set (t17 := fr_F (lit (T:=R) 17)) in *. set (t47 := fr_F (lit (T:=R) 47)) in *.
  set (t60 := fr_F (lit (T:=R) 60)) in *. set (t5 := fr_F (lit (T:=R) 5)) in *.
  assert (L1 : t82 < t95) by (apply fr_F_lt; rnum; lra).
  assert (L2 : t17 < t47) by (apply fr_F_lt; rnum; lra).
  clearbody t82 t95 t17 t47 t60 t5.
  pose proof (knows_new CoolingTable 1 _ (sorted2 _ _ L1)) as KC.
  pose proof (knows_new HeatingTable 1 _ (sorted2 _ _ L2)) as KH.
  inv_ok. inv_ex. track. eapply finish_shape; eassumption.
Qed.
