(** Proofs for C102. *)
From Coq Require Import Reals QArith Lra Psatz Lia List Bool String.
From Verif.Base Require Import Num Res Tac.
From Verif.Model Require Import Units Util Psychrometrics Conditions Defrost Fan Curves
  Tabular Unit BaseModel Resnet DXUnit.
From Verif.Spec Require Import NrelSpec ModelSpec RatedSpec UnitModels UnitSpec SettingsSpec DefaultSpec DefaultUnitSpec.
From Verif.Proofs Require Import UnitsR Frame UnitProofs UnitProofs2 UnitProofs4 SettingsProofs CutIn DefaultFan DefaultFan2 RatedTable ToyUnit ToyBuild ToyBuild2.
Import ListNotations.
Local Open Scope R_scope.

Lemma tons : fr_ton (T:=R) (lit 3) = three_tons.
Proof. unfold fr_ton, ton_ref, btu_h, three_tons. rnum. lra. Qed.

Section Default.
  Variables (psy : psychro R) (sol : solvers R) (M : dxmodel R) (u : dxunit R).
  Hypothesis HM : plain_model sol M.
  Hypothesis HU : DXUnit psy sol M default_args = Ok u.

  Lemma lib : library_model psy sol M.
  Proof. revert HM. unfold plain_model, library_model. simpl. tauto. Qed.

  Lemma caps : sd_n (u_c u) = 1%nat /\ sd_n (u_h u) = 1%nat
    /\ sd_net_cap (u_c u) = [three_tons] /\ sd_net_cap (u_h u) = [three_tons].
  Proof.
    destruct (plain_capacities_given psy sol M _ u HM HU) as (N1 & N2 & C & _).
    cbn [default_args a_ccap a_staging a_hcap count_speeds] in N1, N2, C.
    destruct (default_heating psy sol M default_args u HM eq_refl HU) as (q & Q & H).
    rewrite C in Q. rewrite N2 in H. rewrite N1, N2.
    cbn [repeat nth_error] in Q. rewrite tons in Q. injection Q as <-. rewrite C, H. cbn [repeat]. rewrite tons. auto.
  Qed.

  Lemma default_single : single_speed_3_tons u.
  Proof.
    destruct caps as (N1 & N2 & C1 & C2).
    destruct (plain_numbers psy sol M _ u HM HU) as (S & (A1 & A2 & _ & A4 & A5) & (B1 & B2 & _ & B4 & B5)).
    split; [exact S|]. split; [|split].
    - intros [|]; cbn [side_of]; auto 6.
    - destruct (gross_cop_decides psy sol M default_args u Cooling _ 0%nat HM HU eq_refl) as (q & g & w & _ & _ & _ & E & _).
      + cbn [side_of]. lia.
      + cbn [side_of default_args] in E. replace (lit 3.72) with 3.72 in E by (rnum; lra). exact E.
    - destruct (gross_cop_decides psy sol M default_args u Heating _ 0%nat HM HU eq_refl) as (q & g & w & _ & _ & _ & E & _).
      + cbn [side_of]. lia.
      + cbn [side_of default_args] in E. replace (lit 3.82) with 3.82 in E by (rnum; lra). exact E.
  Qed.

  Lemma default_settings : usual_settings u.
  Proof.
    destruct (kept_settings psy sol M _ u lib HU) as (K1 & K2 & K3 & _ & K4 & K5 & K6 & K7 & K8 & K9 & K10).
    pose proof (kept_eer psy sol M _ u lib HU) as E.
    pose proof (kept_heating_off psy sol M _ u lib HU) as F.
    pose proof (kept_heating_on psy sol M _ u lib HU) as G.
    pose proof (default_crankcase psy sol M _ u lib HU) as C.
    destruct caps as (_ & _ & Q & _).
    destruct (plain_numbers psy sol M _ u HM HU) as (_ & (_ & A2 & _) & _).
    cbn [default_args a_kwargs a_seer a_hspf a_cycling a_ducted a_cooling_off a_crank_setpoint a_standard a_charge
      a_defrost a_eer a_heating_off a_heating_on a_crank a_cfull] in *.
    destruct C as (q & C1 & C2). rewrite A2, Q in C1. cbn in C1. injection C1 as <-.
    assert (F' : u_heating_off u = deg_F 0) by exact F.
    rewrite F' in G.
    repeat (split; [first [assumption | (rewrite K8; reflexivity)] | ]).
    split; [rewrite K9; rnum; lra|]. split; [exact K10|].
    split; [rewrite K6; unfold fr_F, deg_F; rnum; lra|]. split; [exact F'|]. split; [exact G|].
    split; [rewrite K7; unfold fr_F, deg_F; rnum; lra|].
    rewrite C2. f_equal. unfold three_tons. lra.
  Qed.

  (** Net COPs with the default fan. *)
  Lemma default_net : base_fan_model M -> exists c h,
    entry (sd_net_cop (u_c u)) 0 c /\ 3.142 < c < 3.143
    /\ entry (sd_net_cop (u_h u)) 0 h /\ 3.442 < h < 3.443.
  Proof.
    intros BF. destruct caps as (N1 & N2 & C1 & C2).
    pose proof (default_fan psy sol M default_args u BF eq_refl HU) as FW.
    pose proof (gross_capacity psy sol M _ u HM HU) as GC.
    assert (W : per_ton 375 * per_cfm 0.365 = 375 * 0.365 / (12000 * (1055.056 / 3600))) by (unfold per_ton, per_cfm; lra).
    assert (Kk : exists k, 0.0389 < k < 0.03893 /\ three_tons * per_ton 375 * per_cfm 0.365 = three_tons * k).
    { eexists. split; [|rewrite Rmult_assoc; reflexivity]. rewrite W. lra. }
    destruct Kk as (k & Kb & Kk).
    assert (T : 0 < three_tons) by (unfold three_tons; lra).
    assert (G : forall m g, gross_input m default_args = Some (Scalar g) -> 0 < g ->
      entry (sd_net_cop (side_of m u)) 0 (1 / (gross_of_net m 1 k / g + k))).
    { intros m g Hg Pg.
      destruct (gross_cop_decides psy sol M default_args u m _ 0%nat HM HU Hg) as (q & gq & w & E1 & E2 & E3 & _ & E5).
      { destruct m; cbn [side_of]; lia. }
      assert (q = three_tons) by (destruct m; cbn [side_of] in E1; rewrite ?C1, ?C2 in E1; cbn in E1; congruence).
      subst q. pose proof (proj1 (proj2 (FW m 0%nat _ E1))) as F. unfold entry in F, E3. rewrite E3 in F.
      injection F as Fw. rewrite Kk in Fw. pose proof (GC m 0%nat _ _ E1 E3) as F. unfold entry in F, E2. rewrite E2 in F.
      injection F as Fg. subst w gq. unfold entry in *. rewrite E5. do 2 f_equal.
      set (t := three_tons) in *. clearbody t.
      assert (D : 0 < gross_of_net m 1 k / g + k).
      { assert (0 < gross_of_net m 1 k) by (destruct m; cbn; lra).
        assert (0 < gross_of_net m 1 k / g) by (apply Rdiv_lt_0_compat; assumption). lra. }
      replace (gross_of_net m t (t * k)) with (t * gross_of_net m 1 k) by (destruct m; cbn; ring).
      set (z := gross_of_net m 1 k) in *. clearbody z.
      replace (t * z / g + t * k) with (t * (z / g + k)) by (field; lra).
      set (y := z / g + k) in *. clearbody y. field. split; apply Rgt_not_eq; lra. }
    assert (L1 : 0 < lit (T:=R) 3.72) by (rnum; lra). assert (L2 : 0 < lit (T:=R) 3.82) by (rnum; lra).
    pose proof (G Cooling _ eq_refl L1) as A. pose proof (G Heating _ eq_refl L2) as B. cbn [side_of gross_of_net] in A, B.
    replace (lit (T:=R) 3.72) with 3.72 in A by (rnum; lra). replace (lit (T:=R) 3.82) with 3.82 in B by (rnum; lra).
    assert (inv : forall x lo hi, 0 < lo -> 0 < hi -> 1 / hi < x < 1 / lo -> lo < 1 / x < hi).
    { intros x lo hi Pl Ph [X1 X2]. assert (0 < 1 / hi) by (apply Rdiv_lt_0_compat; lra). split.
      - apply (Rmult_lt_reg_r x); [lra|]. replace (1 / x * x) with 1 by (field; lra).
        apply (Rmult_lt_compat_l lo) in X2; [|lra]. replace (lo * (1 / lo)) with 1 in X2 by (field; lra). exact X2.
      - apply (Rmult_lt_reg_r x); [lra|]. replace (1 / x * x) with 1 by (field; lra).
        apply (Rmult_lt_compat_l hi) in X1; [|lra]. replace (hi * (1 / hi)) with 1 in X1 by (field; lra). exact X1. }
    do 2 eexists. split; [exact A|]. split; [apply inv; lra|]. split; [exact B|]. apply inv; lra.
  Qed.
End Default.

(** A RESNET unit needs ratings. *)
Lemma ratings_required psy sol a (u : dxunit R) :
  get_kwarg_value "tabular_data" (a_kwargs a) = KNone -> (forall l, a_hcap a <> Some (Many l)) ->
  DXUnit psy sol (RESNETDXModel psy sol) a = Ok u -> rated_well_enough a (u_staging u).
Proof.
  intros Tab Nl D. destruct (net_exists psy sol a u D Nl) as (net & N).
  assert (Hp : forall p, get_kwarg_value "tabular_data" (a_kwargs a) = KTable p -> interpolators_set p)
    by (intros p X; congruence).
  destruct (RatedTable.built psy sol a u net D N Hp) as (_ & _ & _ & _ & _ & _ & B).
  destruct (B Tab) as (u0 & I & (u1 & q & (Cf & Op) & _ & TB)). clear B.
  assert (Iu : u_seer u0 = a_seer a /\ u_eer u0 = default_eer (a_seer a) (a_eer a) /\ u_hspf u0 = a_hspf a
    /\ u_hcop u0 = a_net_hcop a).
  { unfold init_unit in I. apply rbind_ok in I. destruct I as (rn & _ & I). cbv zeta in I.
    apply rbind_ok in I. destruct I as (stg & _ & I). apply Ok_inj in I. subst u0. repeat split. }
  destruct Iu as (I1 & I2 & I3 & I4).
  assert (Cu : u_seer u1 = u_seer u0 /\ u_eer u1 = u_eer u0 /\ u_hspf u1 = u_hspf u0 /\ u_hcop u1 = u_hcop u0)
    by (unfold config in Cf; repeat split; congruence).
  destruct Cu as (C1 & C2 & C3 & C4).
  assert (RI : forall b r, rating_inputs b u1 = Ok r ->
    (a_eer a <> None \/ a_seer a <> None) /\ (b = true -> a_seer a <> None)
    /\ (a_hspf a <> None \/ exists x, a_net_hcop a = Some (Scalar x))).
  { intros b r H. unfold rating_inputs in H. rewrite C1, C2, C3, C4, I1, I2, I3, I4 in H.
    apply rbind_ok in H. destruct H as (s & Hs & H). apply rbind_ok in H. destruct H as (e & He & H).
    apply rbind_ok in H. destruct H as (c & Hc & H). apply rbind_ok in H. destruct H as (h & Hh & _).
    split; [|split].
    - destruct (a_eer a); [left; discriminate|]. destruct (a_seer a); [right; discriminate|discriminate].
    - intros ->. destruct (a_seer a); [discriminate|discriminate].
    - destruct (a_net_hcop a) as [[x|l]|]; [right; eauto|discriminate|].
      left. cbn in Hc. apply Ok_inj in Hc. subst c. cbn in Hh. destruct (a_hspf a); discriminate. }
  unfold rated_well_enough. cbv zeta in TB.
  destruct (u_staging u).
  - unfold single_speed_table in TB. apply rbind_ok in TB. destruct TB as (x & _ & TB).
    apply rbind_ok in TB. destruct TB as (r & Hr & _). destruct (RI _ _ Hr) as (R1 & R2 & R3). auto.
  - unfold two_speed_table in TB. apply rbind_ok in TB. destruct TB as (x & _ & TB).
    apply rbind_ok in TB. destruct TB as (r & Hr & _). destruct (RI _ _ Hr) as (R1 & R2 & R3).
    split; [exact R1|]. split; [discriminate|exact R3].
  - unfold variable_speed_table in TB.
    apply rbind_ok in TB. destruct TB as (r & Hr & _). destruct (RI _ _ Hr) as (R1 & R2 & R3).
    split; [exact R1|]. split; [discriminate|exact R3].
Qed.

Lemma no_default_model psy sol (u : dxunit R) : DXUnit psy sol (RESNETDXModel psy sol) default_args <> Ok u.
Proof.
  intros H. apply ratings_required in H; [|reflexivity|discriminate].
  destruct H as ([A|A] & _); apply A; reflexivity.
Qed.

(** The constant model takes the defaults. *)
Lemma constant_default : exists u, DXUnit lin_psy lin_sol ConstantDXModel default_args = Ok u.
Proof.
  set (q := fr_ton (T:=R) (lit 3)). assert (Q : 0 < q) by (unfold q; rewrite tons; unfold three_tons; lra).
  assert (P1 : 0 < lit (T:=R) 3.72) by (rnum; lra). assert (P2 : 0 < lit (T:=R) 3.82) by (rnum; lra).
  destruct (built_1 AHRI_210_240_2023 (Some (lit 3.72)) None (Some (lit 3.82)) None None
     ltac:(apply good_gross; assumption) ltac:(apply good_gross; assumption) q q Q Q)
    as (f & p & cr & s & b & t & B & _).
  eexists. rewrite <- B. clear B.
  destruct (fan_any q [q] Q) as (f' & F & _).
  destruct (setup_1 SINGLE_STAGE AHRI_210_240_2023 (Some (Scalar (lit 3.72))) None
      (Some (Scalar (lit 3.82))) None None f' q q F) as (u0 & I & S).
  unfold DXUnit. change (init_unit ConstantDXModel default_args) with
    (init_unit ConstantDXModel (args SINGLE_STAGE AHRI_210_240_2023 [q] [q] (Some (lit 3.72)) None (Some (lit 3.82)) None None)).
  change (init_unit ConstantDXModel (args SINGLE_STAGE AHRI_210_240_2023 [q] [q] (Some (lit 3.72)) None (Some (lit 3.82)) None None) = Ok u0) in I.
  rewrite I. cbn [rbind]. unfold ex. unfold finish_unit.
  assert (S' : sbind set_placeholder_arrays (fun _ => md_set_net_capacities_and_fan ConstantDXModel
          (a_ccap default_args) (a_hcap default_args) (a_fan default_args)) u0
        = (uA SINGLE_STAGE AHRI_210_240_2023 None None [q] [q] f', Ok tt)).
  { red in F. apply Ok_inj in I. subst u0. unfold q in F |- *. run_fan. }
  apply sbind_ok in S. destruct S as (v & [] & V1 & V2).
  apply sbind_ok in S'. destruct S' as (v' & [] & V1' & V2'). rewrite V1 in V1'. injection V1' as <-.
  unfold sbind at 1. rewrite V1. unfold sbind at 1. rewrite V2'.
  symmetry. unfold sbind at 1. rewrite V1. unfold sbind at 1. 
  change (a_ccap (args SINGLE_STAGE AHRI_210_240_2023 [q] [q] (Some (lit 3.72)) None (Some (lit 3.82)) None None)) with (Many [q]).
  cbn [const_args a_ccap a_hcap a_fan] in V2.
  change (a_hcap (args SINGLE_STAGE AHRI_210_240_2023 [q] [q] (Some (lit 3.72)) None (Some (lit 3.82)) None None)) with (Some (Many [q])).
  change (a_fan (args SINGLE_STAGE AHRI_210_240_2023 [q] [q] (Some (lit 3.72)) None (Some (lit 3.82)) None None)) with (@None (fan R)).
  rewrite V2. reflexivity.
Qed.
