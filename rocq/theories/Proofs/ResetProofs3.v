(** C89, concluded: the theorems. *)
From Coq Require Import Reals QArith Lra Lia List Bool.
From Verif.Base Require Import Num Res Tac.
From Verif.Model Require Import Units Util Psychrometrics Conditions Defrost Fan Curves Tabular Unit NREL BaseModel
  Title24 Resnet DXUnit.
From Verif.Spec Require Import FanSpec CondSpec UnitModels DefaultSpec TestSpec ResetSpec.
From Verif.Proofs Require Import UnitsR FanProofs MakeCond Frame UnitProofs2 DefaultFan DefaultFan2 TestProofs RatedEer
  ResetProofs ResetProofs2.
Import ListNotations.
Local Open Scope R_scope.

Section Theorems.
  Variable psy : psychro R.
  Variable sol : solvers R.
  Notation U := (dxunit R).

  Lemma reset_fan fc fh (u u' : U) : ex (reset_rated_flow_rates psy fc fh) u = Ok u' ->
    exists f f' e, u_fan u = Some f /\ u_fan u' = Some f' /\ u_full_esp u = Some e
      /\ with_speeds f (new_speeds Cooling u fc fh e ++ new_speeds Heating u fc fh e) f'
      /\ f_n f' = (f_n f + List.length (flows Cooling u fc fh) + List.length (flows Heating u fc fh))%nat.
  Proof.
    intros H. apply reset_ok in H. destruct H as (f & f' & e & F & F' & _ & Ee & L & W & _).
    exists f, f', e. repeat (split; [assumption|]). destruct (with_n _ _ _ W) as [N _].
    rewrite N, app_length. unfold new_speeds. rewrite !map_length.
    rewrite (proj2 (L Cooling)), (proj2 (L Heating)). lia.
  Qed.

  Lemma reset_conditions fc fh (u u' : U) f t :
    ex (reset_rated_flow_rates psy fc fh) u = Ok u' -> u_fan u = Some f ->
    (forall i a, t <> A_boost -> test_speed t u = Some i ->
      nth_error (new_airflows (test_mode t) u fc fh) i = Some a ->
      exists c c', stored t (u_conds u) = Some c /\ stored t (u_conds u') = Some c'
        /\ moved (new_fan_speed (test_mode t) u fc fh (f_n f) i) a c c')
    /\ ((t = A_boost \/ forall i, test_speed t u = Some i -> (List.length (flows (test_mode t) u fc fh) <= i)%nat) ->
        stored t (u_conds u') = stored t (u_conds u)).
  Proof.
    intros H F. apply reset_ok in H. destruct H as (f0 & f' & e & F0 & F' & _ & Ee & L & W & T).
    assert (f0 = f) by congruence. subst f0. destruct (T t) as [T1 T2]. split.
    - intros i a B Sp Hn. destruct (T1 i a B Sp Hn) as (c & c' & C1 & C2 & C3). exists c, c'.
      repeat (split; [assumption|]). apply (new_speed_moved psy). exact C3.
    - intros [B|B]; apply T2; auto. right. destruct (test_speed t u) as [i|]; auto. right. exists i. auto.
  Qed.

  Lemma reset_succeeds M a fc fh (u : U) f f' e :
    library_model psy sol M -> DXUnit psy sol M a = Ok u ->
    u_fan u = Some f -> u_full_esp u = Some e ->
    (forall m, hd 0 (new_airflows m u fc fh) <> 0
               /\ List.length (new_airflows m u fc fh) = List.length (flows m u fc fh)) ->
    with_speeds f (new_speeds Cooling u fc fh e ++ new_speeds Heating u fc fh e) f' ->
    (forall t i, t <> A_boost -> test_speed t u = Some i ->
       (i < List.length (flows (test_mode t) u fc fh))%nat -> In t (tests u)) ->
    exists u', ex (reset_rated_flow_rates psy fc fh) u = Ok u'.
  Proof.
    intros L D F Ee Hm W Rd. apply (reset_run psy fc fh u f f' e F Ee Hm W).
    intros t i B Sp I. apply (constructed_ready psy sol M a u t L D). exact (Rd t i B Sp I).
  Qed.

  (** ** Pressures *)
  Lemma reset_pressure M a fc fh (u u' : U) t i air c p a0 :
    library_model psy sol M -> DXUnit psy sol M a = Ok u ->
    ex (reset_rated_flow_rates psy fc fh) u = Ok u' ->
    In t (tests u) -> t <> A_boost -> test_speed t u = Some i ->
    nth_error (new_airflows (test_mode t) u fc fh) i = Some air ->
    stored t (u_conds u) = Some c ->
    c_external_static_pressure c = Some p -> c_rated_standard_volumetric_airflow c = Some a0 ->
    exists c', stored t (u_conds u') = Some c' /\ c_external_static_pressure c' = Some (p * (air / a0) ^ 2).
  Proof.
    intros L D H I B Sp Hn St P A0. apply reset_ok in H.
    destruct H as (f & f' & e & F & F' & _ & Ee & _ & W & T).
    destruct (T t) as [T1 _]. destruct (T1 i air B Sp Hn) as (c1 & c' & C1 & C2 & C3).
    assert (c1 = c) by congruence. subst c1. exists c'. split; [exact C2|].
    destruct (stored_condition psy sol M a u t L D I) as (s & c1 & _ & St' & Mk).
    assert (c1 = c) by congruence. subst c1. apply make_condition_inv in Mk.
    destruct Mk as (q & b & full & pr & fl & rho & srho & _ & _ & _ & _ & _ & Hs & Hr & H1 & H2 & H3 & H4 & ->).
    cbn [flow_cond c_external_static_pressure] in P. cbn [flow_cond c_rated_standard_volumetric_airflow] in A0.
    injection P as <-. injection A0 as <-.
    rewrite new_speed_flow in C3 by auto. injection C3 as <-. cbn [flow_cond c_external_static_pressure].
    f_equal. ring.
  Qed.

  Lemma first_pressure m fc fh (u : U) e air : hd 0 (new_airflows m u fc fh) <> 0 ->
    nth_error (new_airflows m u fc fh) 0 = Some air -> nth_error (new_speeds m u fc fh e) 0 = Some (air, e).
  Proof.
    unfold new_speeds. intros Hd Hn. destruct (new_airflows m u fc fh) as [|x l]; [discriminate|].
    cbn in Hd, Hn |- *. injection Hn as ->. do 2 f_equal. field. exact Hd.
  Qed.

  Lemma reset_pressure_differs M a fc fh (u u' : U) t e air c a0 :
    library_model psy sol M -> DXUnit psy sol M a = Ok u ->
    ex (reset_rated_flow_rates psy fc fh) u = Ok u' ->
    In t (tests u) -> t <> A_boost -> test_speed t u = Some 0%nat -> u_full_esp u = Some e ->
    nth_error (new_airflows (test_mode t) u fc fh) 0 = Some air ->
    stored t (u_conds u) = Some c -> c_rated_standard_volumetric_airflow c = Some a0 ->
    0 < e -> 0 < a0 -> 0 < air -> air <> a0 ->
    nth_error (new_speeds (test_mode t) u fc fh e) 0 = Some (air, e)
    /\ exists c' p, stored t (u_conds u') = Some c' /\ c_external_static_pressure c' = Some p /\ p <> e.
  Proof.
    intros L D H I B Sp Ee Hn St A0 Pe Pa Pn Ne. split.
    { apply first_pressure; [|exact Hn]. apply reset_ok in H. destruct H as (_ & _ & _ & _ & _ & _ & _ & Hd & _).
      apply (proj1 (Hd (test_mode t))). }
    destruct (stored_condition psy sol M a u t L D I) as (s & c1 & Sp' & St' & Mk).
    assert (c1 = c) by congruence. subst c1. apply make_condition_inv in Mk.
    assert (s = 0%nat) by congruence. subst s.
    destruct Mk as (q & b & full & pr & fl & rho & srho & _ & Ab & Af & Pr & _ & Hs & Hr & H1 & H2 & H3 & H4 & Ec).
    assert (full = b) by congruence. subst full.
    assert (pr = e).
    { unfold calculate_rated_pressure in Pr. rewrite Ee in Pr. cbn [need rbind] in Pr.
      rewrite pydiv_ok in Pr by exact H3. cbn [rbind] in Pr. apply Ok_inj in Pr. rewrite <- Pr. unfold nsq. rnum.
      field. exact H3. }
    subst pr.
    assert (P : c_external_static_pressure c = Some e).
    { rewrite Ec. cbn [flow_cond c_external_static_pressure]. f_equal. ring. }
    destruct (reset_pressure M a fc fh u u' t 0 air c e a0 L D H I B Sp Hn St P A0) as (c' & St2 & P2).
    exists c', (e * (air / a0) ^ 2). split; [exact St2|]. split; [exact P2|]. intros K.
    assert (K1 : (air / a0) ^ 2 = 1) by (apply (Rmult_eq_reg_l e); lra).
    assert (K2 : air ^ 2 = a0 ^ 2).
    { replace (air ^ 2) with ((air / a0) ^ 2 * a0 ^ 2) by (field; lra). rewrite K1. ring. }
    apply Ne. nra.
  Qed.

  (** ** The default fan *)
  Lemma default_fan_made M a (u : U) : base_fan_model M -> DXUnit psy sol M a = Ok u ->
    exists f, u_fan u = Some f /\ f_class f = ConstantEfficacyFan /\ parallel f.
  Proof.
    intros HM H. destruct (base_fan_plain sol M HM) as [HP HS].
    assert (HF : a_fan a = None).
    { destruct (a_fan a) as [f|] eqn:E; [|reflexivity]. exfalso.
      exact (given_fan_rejected psy sol M a f HP E u H). }
    destruct (plain_build psy sol M a u HP H) as (u0 & u1 & u2 & I & P & S & C & _ & L).
    rewrite HS, HF in S. unfold base_set_net_capacities_and_fan in S.
    apply sbind_ok in S. destruct S as (v1 & [] & _ & S).
    apply sbind_ok in S. destruct S as (v2 & [] & _ & S).
    apply base_fan_inv in S. cbv zeta in S.
    destruct S as (_ & _ & _ & _ & _ & _ & _ & _ & f & F & MF).
    destruct (core_eqs u u2 C) as [CF _]. exists f. split; [congruence|].
    split; [exact (proj1 (cef_inv _ _ _ _ MF))|]. apply made_parallel.
    refine (made_const _ _ _ f _ MF). intros l E. discriminate.
  Qed.

  Lemma const_adds l : forall f f' le, f_class f = ConstantEfficacyFan -> f_design_efficacy f = EffList le ->
    with_speeds f l f' ->
    f_class f' = ConstantEfficacyFan /\ f_airflow f' = f_airflow f ++ map fst l
    /\ f_design_efficacy f' = EffList (le ++ map snd l).
  Proof.
    induction l as [|[a p] l IH]; intros f f' le K E W; inversion W as [|f0 f1 f2 a0 p0 l0 A W']; subst.
    - cbn [map]. rewrite !app_nil_r. auto.
    - unfold add_speed in A. apply sbind_ok in A. destruct A as (s1 & g & G & A). unfold sget in G.
      apply pair_ok_inj in G. destruct G as [<- <-]. rewrite K in A. apply const_add_ok in A.
      destruct A as (a0 & _ & _ & A). cbv zeta in A. destruct A as (le' & E' & ->).
      assert (le' = le) by congruence. subst le'.
      set (g := w_eff _ _) in W'.
      assert (Kg : f_class g = ConstantEfficacyFan) by exact K.
      assert (Eg : f_design_efficacy g = EffList (le ++ [p])) by reflexivity.
      assert (Ag : f_airflow g = f_airflow f ++ [a]) by reflexivity.
      destruct (IH g f' (le ++ [p]) Kg Eg W') as (K1 & A1 & E1). rewrite Ag in A1.
      cbn [map fst snd]. rewrite A1, E1, <- !app_assoc. auto.
  Qed.

  Lemma reset_default_power M a fc fh (u u' : U) t i e air p c' :
    base_fan_model M -> DXUnit psy sol M a = Ok u ->
    ex (reset_rated_flow_rates psy fc fh) u = Ok u' ->
    In t (tests u) -> t <> A_boost -> test_speed t u = Some i -> u_full_esp u = Some e ->
    nth_error (new_speeds (test_mode t) u fc fh e) i = Some (air, p) ->
    stored t (u_conds u') = Some c' ->
    fan_power sol u' c' = Ok (air * p).
  Proof.
    intros HM D H I B Sp Ee Hn St.
    assert (Lb : library_model psy sol M).
    { apply plain_library. exact (proj1 (base_fan_plain sol M HM)). }
    destruct (default_fan_made M a u HM D) as (f & F & K & (ls & Ol & Par)).
    unfold own_lists in Ol. rewrite K in Ol. destruct (f_design_efficacy f) as [|le] eqn:De; [discriminate|].
    injection Ol as <-. inversion Par as [|? ? La Par1]; subst. inversion Par1 as [|? ? _ Par2]; subst.
    inversion Par2 as [|? ? Le _]; subst.
    destruct (stored_condition psy sol M a u t Lb D I) as (s & c & _ & Sc & Mk).
    assert (Ha : nth_error (new_airflows (test_mode t) u fc fh) i = Some air).
    { unfold new_speeds in Hn. rewrite nth_error_map in Hn.
      destruct (nth_error (new_airflows (test_mode t) u fc fh) i); [|discriminate]. cbn in Hn. congruence. }
    apply make_condition_inv in Mk.
    destruct Mk as (q & b & full & pr & fl & rho & srho & _ & _ & _ & _ & _ & _ & _ & _ & _ & _ & _ & Ec).
    destruct (reset_pressure M a fc fh u u' t i air c (pr * (1 * 1)) b Lb D H I B Sp Ha Sc) as (c1 & Sc1 & P1);
      [rewrite Ec; reflexivity|rewrite Ec; reflexivity|].
    assert (c1 = c') by congruence. subst c1.
    destruct (reset_conditions fc fh u u' f t H F) as [Mv _].
    destruct (Mv i air B Sp Ha) as (c2 & c3 & _ & Sc3 & (_ & Fs & _)).
    assert (c3 = c') by congruence. subst c3.
    apply reset_ok in H. destruct H as (f0 & f' & e' & F0 & F' & _ & Ee' & Lm & W & _).
    assert (f0 = f) by congruence. assert (e' = e) by congruence. subst f0 e'.
    destruct (const_adds _ _ _ _ K De W) as (K' & A' & E').
    set (new := new_speeds Cooling u fc fh e ++ new_speeds Heating u fc fh e) in *.
    assert (Nth : exists j, new_fan_speed (test_mode t) u fc fh (f_n f) i = (f_n f + j)%nat
                    /\ nth_error new j = Some (air, p)).
    { unfold new_fan_speed, new. destruct (test_mode t).
      - exists i. split; [reflexivity|]. rewrite nth_error_app1; [exact Hn|].
        apply nth_error_Some. congruence.
      - exists (List.length (flows Cooling u fc fh) + i)%nat. split; [lia|].
        assert (Ln : List.length (new_speeds Cooling u fc fh e) = List.length (flows Cooling u fc fh)).
        { unfold new_speeds. rewrite map_length. apply (proj2 (Lm Cooling)). }
        rewrite nth_error_app2 by lia. rewrite Ln. rewrite <- Hn. f_equal. lia. }
    destruct Nth as (j & Nj & Nth). rewrite Nj in Fs.
    unfold fan_power. rewrite F', P1, Fs. cbn [need rbind].
    unfold power, airflow, efficacy. rewrite K', E', A'.
    assert (G1 : geti (f_airflow f ++ map fst new) (f_n f + j) = Ok air).
    { apply geti_ok. rewrite nth_error_app2 by lia. rewrite La.
      replace (f_n f + j - f_n f)%nat with j by lia. rewrite nth_error_map, Nth. reflexivity. }
    assert (G2 : geti (le ++ map snd new) (f_n f + j) = Ok p).
    { apply geti_ok. rewrite nth_error_app2 by lia. rewrite Le.
      replace (f_n f + j - f_n f)%nat with j by lia. rewrite nth_error_map, Nth. reflexivity. }
    rewrite G1, G2. reflexivity.
  Qed.
End Theorems.
