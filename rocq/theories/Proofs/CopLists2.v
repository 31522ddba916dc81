(** C48: a unit whose heating COPs are given as a list. *)
From Coq Require Import Reals Lra List Bool String PeanoNat.
From Verif.Base Require Import Num Res Tac.
From Verif.Model Require Import Units Util Psychrometrics Conditions Defrost Fan Curves
  Tabular Unit NREL BaseModel Title24 Resnet DXUnit.
From Verif.Spec Require Import NrelSpec UnitSpec UnitModels.
From Verif.Proofs Require Import NrelProofs Frame StandardProofs UnitProofs UnitProofs2
  UnitProofs3 CopProofs UnitProofs4 ToyBuild ToyBuild2 CopLists.
Import ListNotations.
Local Open Scope R_scope.

Definition with_gross_list (l : list R) (a : dxargs R) : dxargs R :=
  mkArgs (a_staging a) (a_ccap a) (a_gross_ccop a) (a_net_ccop a) (a_cflow a) (a_cd_c a) (a_cooling_off a)
    (a_hcap a) (Some (Many l)) (a_net_hcop a) (a_hflow a) (a_cd_h a) (a_heating_off a) (a_heating_on a)
    (a_defrost a) (a_fan a) (a_hfan_speed a) (a_cfan_speed a) (a_rated_hfan_speed a) (a_rated_cfan_speed a)
    (a_crank a) (a_crank_setpoint a) (a_charge a) (a_cycling a) (a_cfull a) (a_cint a) (a_hfull a) (a_hint a)
    (a_ducted a) (a_standard a) (a_seer a) (a_eer a) (a_hspf a) (a_kwargs a).

Lemma sbind_run {S A B} (m : st S A) (k : A -> st S B) s s' x :
  m s = (s', Ok x) -> sbind m k s = k x s'.
Proof. unfold sbind. intros ->. reflexivity. Qed.

Section Lists.
  Variable psy : psychro R.
  Variable sol : solvers R.

  Lemma list_built M a (u : dxunit R) l : plain_model sol M -> DXUnit psy sol M a = Ok u ->
    List.length l = sd_n (u_h u) -> exists u', DXUnit psy sol M (with_gross_list l a) = Ok u'.
  Proof.
    intros HM H L. destruct (plain_cops sol M HM) as [P1 P2].
    unfold DXUnit in *. apply rbind_ok in H. destruct H as (u0 & H0 & H).
    change (init_unit M (with_gross_list l a)) with (init_unit M a). rewrite H0. cbn [rbind].
    unfold ex in *. destruct (finish_unit psy sol M a u0) as [u' [[]|e]] eqn:E; [|discriminate].
    injection H as ->. unfold finish_unit in E |- *. rewrite P1, P2 in *.
    cbn [with_gross_list a_ccap a_hcap a_fan a_crank a_net_ccop a_gross_ccop a_net_hcop a_gross_hcop].
    Ltac next E := apply sbind_ok in E;
      let s := fresh "s" in let x := fresh "x" in let F := fresh "F" in destruct E as (s & x & F & E);
      rewrite (sbind_run _ _ _ _ _ F).
    do 11 next E.
    apply sbind_ok in E. destruct E as (s11' & y11 & G11 & E).
    apply slift_ok in G11. destruct G11 as [-> _].
    erewrite (sbind_run (slift _)); cycle 1.
    { replace (absent_kw (a_net_hcop a) && absent_kw (Some (Many l))) with false
        by (destruct (a_net_hcop a); reflexivity). reflexivity. }
    do 3 next E.
    apply sbind_ok in E. destruct E as (s4' & y4 & G14 & E).
    apply sbind_ok in E. destruct E as (s5' & y5 & G15 & E). apply sread_ok in G15. destruct G15 as [-> C1].
    apply sbind_ok in E. destruct E as (s6' & y6 & G16 & E). apply sread_ok in G16. destruct G16 as [-> C2].
    apply sread_ok in E. destruct E as [-> C3].
    match type of G14 with opt_set _ _ ?v3 = _ => set (v := v3) in * end.
    assert (K : keeps (fun u => (u_c u, u_shr u, sd_n (u_h u), sd_net_cap (u_h u)))
                  (opt_set (base_set_gross_cop (T:=R) Heating) (a_gross_hcop a))).
    { apply opt_keeps. intros z. unfold base_set_gross_cop, derive_from_gross_cop, set_comp. keep; reflexivity. }
    pose proof (keeps_ok _ _ _ _ _ K G14) as Q. cbv beta in Q. injection Q as Q1 Q2 Q3 Q4.
    unfold check_array_lengths, check_length in C1.
    apply rbind_ok in C1. destruct C1 as (? & A1 & C1).
    apply rbind_ok in C1. destruct C1 as (? & A2 & C1).
    apply rbind_ok in C1. destruct C1 as (? & A3 & C1).
    rewrite Q1 in A1. rewrite Q2, Q1 in A2. rewrite Q4, Q3 in C1. rewrite Q1 in C2. rewrite Q4 in C3.
    set (w := wu_h (ws_gross_cop (map Some l) (u_h v)) v).
    assert (W1 : check_array_lengths w = Ok tt).
    { unfold check_array_lengths, check_length, w.
      cbn [u_c u_h u_shr wu_h ws_gross_cop sd_net_cap sd_n sd_gross_cop].
      apply guard_ok in A1. apply guard_ok in A2. apply guard_ok in C1.
      rewrite A1, A2, C1, map_length, L, Q3, Nat.eqb_refl. reflexivity. }
    assert (W2 : check_array_order (sd_net_cap (u_c w)) = Ok tt) by (destruct y6; exact C2).
    assert (W3 : check_array_order (sd_net_cap (u_h w)) = Ok tt) by exact C3.
    exists w.
    rewrite (sbind_run (opt_set (base_set_gross_cop Heating) (Some (Many l))) _ v w tt eq_refl).
    rewrite (sbind_run (sread check_array_lengths) _ w w tt) by (unfold sread; rewrite W1; reflexivity).
    rewrite (sbind_run (sread (fun u => check_array_order (sd_net_cap (u_c u)))) _ w w tt)
      by (unfold sread; rewrite W2; reflexivity).
    unfold sread. rewrite W3. reflexivity.
  Qed.
End Lists.

(** Net COP 5 and gross COP 3 in one unit. *)
Lemma list_example : exists u,
  DXUnit lin_psy lin_sol ConstantDXModel
    (const_args SINGLE_STAGE AHRI_210_240_2023 [10000] [9000] (Some (Scalar 4)) None
       (Some (Many [3])) (Some (Scalar 5)) None) = Ok u
  /\ sd_gross_cop (u_h u) = [Some 3] /\ sd_net_cop (u_h u) = [Some 5].
Proof.
  destruct (built_1 AHRI_210_240_2023 (Some 4) None (Some 3) (Some 5) None
     ltac:(apply good_gross; lra) ltac:(apply good_both; lra) 10000 9000
     ltac:(lra) ltac:(lra)) as (f & p & cr & s & b & t & B & _).
  assert (PM : plain_model lin_sol ConstantDXModel) by (unfold plain_model; simpl; tauto).
  pose proof (list_built lin_psy lin_sol ConstantDXModel _ _ [3] PM B eq_refl) as (u & E).
  exists u. split; [exact E|].
  destruct (cop_lists lin_psy lin_sol ConstantDXModel _ u Heating [3] PM E eq_refl) as [G N].
  split; [exact G|].
  destruct (plain_capacities_given lin_psy lin_sol ConstantDXModel _ u PM E) as (_ & Nh & _).
  cbn in N. cbn in Nh. rewrite Nh in N. exact N.
Qed.
