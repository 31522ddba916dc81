(** C83: fan speeds given to a Title 24 unit. *)
From Coq Require Import Reals QArith Lra Lia List Bool String.
From Verif.Base Require Import Num Res Tac.
From Verif.Model Require Import Units Util Psychrometrics Conditions Defrost Fan Curves Tabular Unit NREL BaseModel
  Title24 Resnet DXUnit.
From Verif.Spec Require Import NrelSpec UnitModels DefaultSpec.
From Verif.Proofs Require Import Frame UnitProofs UnitProofs2 DefaultFan DefaultFan2.
Import ListNotations.
Local Open Scope R_scope.

Lemma t24_no_fan_speeds psy sol a (u : dxunit R) : DXUnit psy sol (Title24DXModel sol) a = Ok u ->
  a_fan a = None /\ a_cfan_speed a = None /\ a_hfan_speed a = None.
Proof.
  intros H. destruct (a_fan a) as [f|] eqn:HF.
  { exfalso. refine (given_fan_rejected psy sol _ a f _ HF u H). unfold plain_model. simpl. tauto. }
  split; [reflexivity|].
  assert (HP : plain_model sol (Title24DXModel sol)) by (unfold plain_model; simpl; auto 6).
  destruct (plain_build psy sol _ a u HP H) as (u0 & u1 & u2 & I & P & S & _).
  set (V := fun u : dxunit R => (sd_fan_speed (u_c u), sd_fan_speed (u_h u))).
  assert (V0 : V u0 = (a_cfan_speed a, a_hfan_speed a)).
  { unfold init_unit in I. apply rbind_ok in I. destruct I as (rn & _ & I).
    cbv zeta in I. apply rbind_ok in I. destruct I as (stg & _ & I). apply Ok_inj in I. subst u0. reflexivity. }
  assert (V1 : V u1 = V u0).
  { unfold set_placeholder_arrays in P.
    match type of P with ?m u0 = _ => assert (K : keeps V m) by (unfold V; keep) end. exact (keeps_ok V _ _ _ _ K P). }
  rewrite HF in S. cbn [Title24DXModel md_set_net_capacities_and_fan] in S.
  unfold t24_set_net_capacities_and_fan in S.
  apply sbind_ok in S. destruct S as (v1 & [] & E1 & S).
  apply sbind_ok in S. destruct S as (v2 & [] & E2 & S).
  apply sbind_ok in S. destruct S as (v3 & [] & E3 & S).
  assert (W1 : V v1 = V u1).
  { assert (K : keeps V (t24_set_rated_fan_characteristics false)) by (unfold V, t24_set_rated_fan_characteristics; keep).
    exact (keeps_ok V _ _ _ _ K E1). }
  assert (W2 : V v2 = V v1).
  { assert (K : keeps V (base_set_net_cooling_capacity (a_ccap a))) by (unfold V, base_set_net_cooling_capacity; keep).
    exact (keeps_ok V _ _ _ _ K E2). }
  assert (W3 : V v3 = V v2).
  { assert (K : keeps V (base_set_net_heating_capacity (a_hcap a))) by (unfold V, base_set_net_heating_capacity; keep).
    exact (keeps_ok V _ _ _ _ K E3). }
  assert (W : V v3 = (a_cfan_speed a, a_hfan_speed a)) by congruence.
  unfold t24_set_fan in S.
  apply sbind_ok in S. destruct S as (v & y & E & S). unfold sget in E.
  apply pair_ok_inj in E. destruct E as [<- <-]. cbv zeta in S.
  apply sbind_ok in S. destruct S as (c1 & [] & C1 & S).
  apply sbind_ok in S. destruct S as (c2 & [] & C2 & S).
  apply sbind_ok in S. destruct S as (v & e & E & S). apply slift_ok in E. destruct E as [-> E].
  apply sbind_ok in S. destruct S as (l1 & [] & L1 & S).
  apply sbind_ok in S. destruct S as (l2 & [] & L2 & S).
  apply sbind_ok in S. destruct S as (v & y & E' & S). unfold sget in E'.
  apply pair_ok_inj in E'. destruct E' as [<- <-].
  apply sbind_ok in S. destruct S as (v & ac & E' & S). apply slift_ok in E'. destruct E' as [-> EA].
  apply sbind_ok in S. destruct S as (v & ah & E' & S). apply slift_ok in E'. destruct E' as [-> EH].
  apply sbind_ok in S. destruct S as (v & f & E' & S). apply slift_ok in E'. destruct E' as [-> EF].
  remember (sd_net_cap (u_c v3)) as qs0 eqn:EQ.
  destruct qs0 as [|q qs].
  { cbn in EA, EH. apply Ok_inj in EA, EH. subst ac ah. discriminate. }
  cbn [enumerate List.length seq combine sfold] in L1, L2.
  apply sbind_ok in L1. destruct L1 as (z & [] & L1 & _).
  apply sbind_ok in L2. destruct L2 as (z' & [] & L2 & _).
  cbn [side_of] in L1, L2. unfold V in W.
  destruct (sd_fan_speed (u_c v3)); [apply slift_ok in L1; destruct L1; discriminate|].
  destruct (sd_fan_speed (u_h v3)); [apply slift_ok in L2; destruct L2; discriminate|].
  injection W as <- <-. split; reflexivity.
Qed.
