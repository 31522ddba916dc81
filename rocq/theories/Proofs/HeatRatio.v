(** Lemmas for C100: ratios of integrated to steady-state heating. *)
From Coq Require Import String Reals QArith Lra Psatz List.
From Verif.Base Require Import Num Res Tac.
From Verif.Model Require Import Units Psychrometrics Conditions Defrost Fan Unit NREL BaseModel Title24 Resnet DXUnit.
From Verif.Spec Require Import NrelSpec ModelSpec HeatRatioSpec.
From Verif.Proofs Require Import UnitsR DefrostProofs MakeCond NrelProofs ToyUnit NrelProofs2 ModelProofs ResnetProofs NrelDefaults.
From Verif.Props Require Import P_Psych.
Import ListNotations.
Local Open Scope R_scope.

Lemma ratio_inv (f g : dxunit R -> option (cond R) -> res R) u k r :
  both pydiv f g u k = Ok r -> exists a b, f u k = Ok a /\ g u k = Ok b /\ b <> 0 /\ r = a / b.
Proof.
  unfold both. intros H. apply rbind_ok in H. destruct H as (a & A & H).
  apply rbind_ok in H. destruct H as (b & B & H). apply pydiv_inv in H. destruct H as (N & ->).
  exists a, b. auto.
Qed.

Lemma sum_inv (f g : dxunit R -> option (cond R) -> res R) u k r :
  both plus f g u k = Ok r -> exists a b, f u k = Ok a /\ g u k = Ok b /\ r = a + b.
Proof.
  unfold both. intros H. apply rbind_ok in H. destruct H as (a & A & H).
  apply rbind_ok in H. destruct H as (b & B & H). apply Ok_inj in H. subst r. exists a, b. auto.
Qed.

(** [ratio] and [power] name the same quantities in the integrated and the steady COP. *)
Lemma cop_from_ratios (ci cs pi ps : dxunit R -> option (cond R) -> res R) u k a b x y :
  both pydiv ci cs u k = Ok a -> both pydiv pi ps u k = Ok b ->
  both pydiv ci pi u k = Ok x -> both pydiv cs ps u k = Ok y ->
  x * b = y * a.
Proof.
  intros A B X Y.
  apply ratio_inv in A as (c1 & c2 & C1 & C2 & N2 & ->). apply ratio_inv in B as (p1 & p2 & P1 & P2 & M2 & ->).
  apply ratio_inv in X as (c1' & p1' & C1' & P1' & M1 & ->). apply ratio_inv in Y as (c2' & p2' & C2' & P2' & _ & ->).
  rewrite C1 in C1'. rewrite C2 in C2'. rewrite P1 in P1'. rewrite P2 in P2'.
  apply Ok_inj in C1', C2', P1', P2'. subst c1' c2' p1' p2'. field. auto.
Qed.

Lemma cop_ratios : forall sol M (u : dxunit R) k a b x y,
  (gross_heating_capacity_ratio M u k = Ok a -> gross_heating_power_ratio M u k = Ok b ->
   gross_integrated_heating_cop M u k = Ok x -> gross_steady_state_heating_cop M u k = Ok y -> x * b = y * a)
  /\ (net_heating_capacity_ratio sol M u k = Ok a -> net_heating_power_ratio sol M u k = Ok b ->
   net_integrated_heating_cop sol M u k = Ok x -> net_steady_state_heating_cop sol M u k = Ok y -> x * b = y * a).
Proof. intros. split; apply cop_from_ratios. Qed.

Lemma diluted (i s w : R) : 0 < s -> 0 <= w ->
  Rmin (i / s) 1 <= (i + w) / (s + w) <= Rmax (i / s) 1
  /\ (0 < w -> i <> s -> (i + w) / (s + w) <> i / s).
Proof.
  intros Ps Pw.
  assert (E : (i + w) / (s + w) = i / s + (1 - i / s) * (w / (s + w))) by (field; lra).
  assert (L : 0 <= w / (s + w) <= 1).
  { assert (w = w / (s + w) * (s + w)) by (field; lra). set (z := w / (s + w)) in *. clearbody z.
    split; apply Rmult_le_reg_r with (s + w); lra. }
  rewrite E. set (x := i / s) in *. set (z := w / (s + w)) in *. split.
  - clearbody z x. unfold Rmin, Rmax. destruct (Rle_dec x 1); nra.
  - intros W N D. assert (Z : 0 < z) by (apply Rdiv_lt_0_compat; lra).
    assert (P : (1 - x) * z = 0) by lra. apply Rmult_integral in P as [P|P]; [|lra].
    apply N. unfold x in P. assert (X : i / s = 1) by lra. replace i with (i / s * s) by (field; lra). rewrite X. lra.
Qed.

Lemma net_of_gross (fi fs : dxunit R -> option (cond R) -> res R) sol u k s w a b :
  fs u k = Ok s -> 0 < s -> heating_fan_power sol u k = Ok w -> 0 <= w ->
  both pydiv fi fs u k = Ok a ->
  both pydiv (both plus fi (heating_fan_power sol)) (both plus fs (heating_fan_power sol)) u k = Ok b ->
  Rmin a 1 <= b <= Rmax a 1 /\ (0 < w -> a <> 1 -> b <> a).
Proof.
  intros S Ps W Pw A B. apply ratio_inv in A as (i & s' & I & S' & N & ->).
  apply ratio_inv in B as (x & y & X & Y & _ & ->).
  apply sum_inv in X as (i' & w1 & I' & W1 & ->). apply sum_inv in Y as (s'' & w2 & S'' & W2 & ->).
  rewrite S in S', S''. rewrite I in I'. rewrite W in W1, W2. apply Ok_inj in S', S'', I', W1, W2. subst.
  destruct (diluted i' s'' w2 Ps Pw) as (D & Q). split; [exact D|].
  intros H0 N1. apply Q; [exact H0|]. intros ->. apply N1. field. lra.
Qed.

Lemma net_ratios : forall sol M (u : dxunit R) k s p w a b,
  heating_fan_power sol u k = Ok w -> 0 <= w ->
  (gross_steady_state_heating_capacity M u k = Ok s -> 0 < s ->
   gross_heating_capacity_ratio M u k = Ok a -> net_heating_capacity_ratio sol M u k = Ok b ->
   Rmin a 1 <= b <= Rmax a 1 /\ (0 < w -> a <> 1 -> b <> a))
  /\ (gross_steady_state_heating_power M u k = Ok p -> 0 < p ->
   gross_heating_power_ratio M u k = Ok a -> net_heating_power_ratio sol M u k = Ok b ->
   Rmin a 1 <= b <= Rmax a 1 /\ (0 < w -> a <> 1 -> b <> a)).
Proof.
  intros sol M u k s p w a b W Pw. split; intros S P A B.
  - exact (net_of_gross _ _ sol u k s w a b S P W Pw A B).
  - exact (net_of_gross _ _ sol u k p w a b S P W Pw A B).
Qed.

Lemma same_ratio (f g : dxunit R -> option (cond R) -> res R) u k r :
  f u k = g u k -> both pydiv f g u k = Ok r -> r = 1.
Proof.
  intros E H. apply ratio_inv in H as (a & b & A & B & N & ->). rewrite E, B in A. apply Ok_inj in A. subst.
  field. exact N.
Qed.
Lemma same_sum (f g h : dxunit R -> option (cond R) -> res R) u k :
  f u k = g u k -> both plus f h u k = both plus g h u k.
Proof. intros E. unfold both. rewrite E. reflexivity. Qed.

Lemma no_defrost_one sol M (u : dxunit R) k :
  gross_integrated_heating_capacity M u k = gross_steady_state_heating_capacity M u k ->
  gross_integrated_heating_power M u k = gross_steady_state_heating_power M u k ->
  all_ratios_one sol M u k.
Proof.
  intros C P r. repeat split.
  - apply same_ratio. exact C.
  - apply same_ratio. apply same_sum. exact C.
  - apply same_ratio. exact P.
  - apply same_ratio. apply same_sum. exact P.
Qed.

Lemma constant_ratios : forall sol (u : dxunit R) k, all_ratios_one sol ConstantDXModel u k.
Proof. intros. apply no_defrost_one; reflexivity. Qed.

Lemma nrel_ratios : forall psy sol (u : dxunit R) c,
  in_defrost (u_defrost u) c = false -> all_ratios_one sol (NRELDXModel psy sol) u (Some c).
Proof. intros psy sol u c D. destruct (nrel_outside psy sol u c D). apply no_defrost_one; assumption. Qed.

(** * RESNET *)
Lemma resnet_ratios : forall psy sol (u : dxunit R) c,
  let M := RESNETDXModel psy sol in
  let f := if in_defrost (u_defrost u) c then resnet_fraction (degF (ps_db (c_outdoor c))) else 0 in
  (forall a, gross_heating_capacity_ratio M u (Some c) = Ok a -> a = 1 - 1.8 * f)
  /\ (forall b, u_charge u = 0 -> gross_heating_power_ratio M u (Some c) = Ok b -> b = 1 - 0.3 * f)
  /\ (forall x y, u_charge u = 0 -> gross_integrated_heating_cop M u (Some c) = Ok x ->
      gross_steady_state_heating_cop M u (Some c) = Ok y -> 0 <= y ->
      0.877 * y <= x <= y /\ (f = 0 -> x = y) /\ (0 < f -> 0 < y -> x < y)).
Proof.
  intros psy sol u c M f.
  assert (F : 0 <= f <= 0.08).
  { unfold f. destruct (in_defrost _ _); [apply resnet_fraction_bounds|lra]. }
  assert (C : forall a, gross_heating_capacity_ratio M u (Some c) = Ok a -> a = 1 - 1.8 * f).
  { intros a A. apply ratio_inv in A as (i & s & I & S & N & ->).
    unfold M in I. rewrite (resnet_capacity_derate psy sol u c s S) in I. apply Ok_inj in I. subst i.
    unfold f. destruct (in_defrost _ _); field; exact N. }
  assert (G : u_charge u = 0 -> forall p, gross_steady_state_heating_power M u (Some c) = Ok p ->
     md_ghp M u c = Ok p).
  { intros U p P. unfold gross_steady_state_heating_power in P. cbn [heating_conditions rbind] in P.
    unfold product in P. apply rbind_ok in P. destruct P as (q & Q & P).
    apply rbind_ok in P. destruct P as (g & H & P). apply Ok_inj in P. subst p.
    cbn [M RESNETDXModel md_f_ghp] in H. unfold resnet_f_ghp, resnet_grading_model in H.
    rewrite U, lit0_R in H. cbn [neqb RNum] in H. destruct (Reqb_spec 0 0); [|lra].
    rewrite lit1_R in H. apply Ok_inj in H. subst g. rewrite Q. f_equal. cbn [nmul RNum]. lra. }
  assert (P : u_charge u = 0 -> forall b, gross_heating_power_ratio M u (Some c) = Ok b -> b = 1 - 0.3 * f).
  { intros U b B. apply ratio_inv in B as (i & s & I & S & N & ->).
    pose proof (G U s S) as S'. unfold M in I. rewrite (resnet_power_derate psy sol u c s S') in I. apply Ok_inj in I. subst i.
    unfold f. destruct (in_defrost _ _); field; exact N. }
  split; [exact C|]. split; [intros b U; exact (P U b)|].
  intros x y U X Y Py. pose proof X as X'. pose proof Y as Y'.
  apply ratio_inv in X' as (i & q & I & Q & N1 & Ex). apply ratio_inv in Y' as (s & p & S & Pp & N2 & Ey).
  destruct (Req_dec s 0) as [Z|Z].
  - unfold M in I. rewrite (resnet_capacity_derate psy sol u c s S) in I. apply Ok_inj in I.
    assert (y = 0) by (rewrite Ey, Z; unfold Rdiv; lra).
    assert (x = 0) by (rewrite Ex, <- I, Z; unfold Rdiv; lra). repeat split; intros; lra.
  - assert (A : gross_heating_capacity_ratio M u (Some c) = Ok (i / s)).
    { unfold gross_heating_capacity_ratio, both. rewrite I. cbn [rbind]. rewrite S. cbn [rbind]. apply pydiv_ok. exact Z. }
    assert (B : gross_heating_power_ratio M u (Some c) = Ok (q / p)).
    { unfold gross_heating_power_ratio, both. rewrite Q. cbn [rbind]. rewrite Pp. cbn [rbind]. apply pydiv_ok. exact N2. }
    pose proof (proj1 (cop_ratios sol M u (Some c) _ _ _ _) A B X Y) as E.
    rewrite (C _ A), (P U _ B) in E. clear - E F Py.
    assert (L : x = y * ((1 - 1.8 * f) / (1 - 0.3 * f))).
    { apply Rmult_eq_reg_r with (1 - 0.3 * f); [|lra]. rewrite E. field. lra. }
    set (z := (1 - 1.8 * f) / (1 - 0.3 * f)) in *.
    assert (Ez : z * (1 - 0.3 * f) = 1 - 1.8 * f) by (unfold z; field; lra). clearbody z.
    assert (Z1 : 0.877 <= z) by (apply Rmult_le_reg_r with (1 - 0.3 * f); lra).
    assert (Z2 : z <= 1) by (apply Rmult_le_reg_r with (1 - 0.3 * f); lra).
    subst x. split; [split; nra|]. split.
    + intros ->. assert (z = 1) by lra. subst z. lra.
    + intros Pf Qy. assert (z < 1) by (apply Rmult_lt_reg_r with (1 - 0.3 * f); lra). nra.
Qed.

(** A defrosting RESNET unit and its four ratios. *)
Lemma resnet_ratio_case : forall sol,
  let u := toy_unit 0 (toy_defrost DCTimed DSReverseCycle) in
  let c := toy_cond 294 289 270 1 in
  let M := RESNETDXModel toy_psy sol in
  in_defrost (u_defrost u) c = true /\ u_charge u = 0
  /\ resnet_fraction (degF (ps_db (c_outdoor c))) = 0.05501
  /\ exists s p, gross_steady_state_heating_capacity M u (Some c) = Ok s /\ 0 < s
     /\ gross_steady_state_heating_power M u (Some c) = Ok p /\ 0 < p
     /\ heating_fan_power sol u (Some c) = Ok 300
     /\ (exists a, gross_heating_capacity_ratio M u (Some c) = Ok a)
     /\ (exists a, net_heating_capacity_ratio sol M u (Some c) = Ok a)
     /\ (exists a, gross_heating_power_ratio M u (Some c) = Ok a)
     /\ (exists a, net_heating_power_ratio sol M u (Some c) = Ok a)
     /\ (exists a, gross_integrated_heating_cop M u (Some c) = Ok a)
     /\ (exists a, gross_steady_state_heating_cop M u (Some c) = Ok a /\ 0 < a).
Proof.
  intros sol u c M.
  assert (D : in_defrost (u_defrost u) c = true).
  { unfold in_defrost. cbn. rewrite (proj2 (Rltb_true 270 278)) by lra. reflexivity. }
  split; [exact D|]. split; [reflexivity|]. split.
  { change (ps_db (c_outdoor c)) with 270. unfold resnet_fraction, degF.
    rewrite Rmin_left, Rmax_left; lra. }
  assert (F : forall m b fn, resnet_grading_model toy_psy m b fn u c = Ok 1).
  { intros m b fn. unfold resnet_grading_model. change (u_charge u) with 0.
    rewrite lit0_R, lit1_R. cbn [neqb RNum]. destruct (Reqb_spec 0 0); [reflexivity|lra]. }
  set (q := heat_cap_flow 1 * (heat_cap_T (degF 294) (degF 270) * 9700)).
  set (p := heat_eir_T (degF 294) (degF 270) * heat_cap_T (degF 294) (degF 270) * (9700 / (97 / 22))).
  assert (Q : md_ghc M u c = Ok q) by (cbn [md_ghc M RESNETDXModel]; apply ghc_eq; reflexivity).
  assert (P : md_ghp M u c = Ok p).
  { cbn [md_ghp M RESNETDXModel]. apply (ghp_rated u c 9700 (97 / 22)); try reflexivity. lra. }
  assert (Pp : 0 < p) by (unfold p, heat_eir_T, heat_cap_T, degF; lra).
  assert (Pq : 0 < q).
  { unfold q. destruct flow_one as (_ & _ & H1 & H2).
    assert (0 < heat_cap_T (degF 294) (degF 270) * 9700) by (unfold heat_cap_T, degF; lra).
    rewrite ?H1, ?H2. lra. }
  assert (E1 : gross_steady_state_heating_capacity M u (Some c) = Ok (q * 1)).
  { unfold gross_steady_state_heating_capacity, product. cbn [heating_conditions rbind].
    rewrite Q. cbn [rbind]. cbn [M RESNETDXModel md_f_ghc]. unfold resnet_f_ghc. rewrite F. reflexivity. }
  assert (E2 : gross_steady_state_heating_power M u (Some c) = Ok (p * 1)).
  { unfold gross_steady_state_heating_power, product. cbn [heating_conditions rbind].
    rewrite P. cbn [rbind]. cbn [M RESNETDXModel md_f_ghp]. unfold resnet_f_ghp. rewrite F. reflexivity. }
  pose proof (resnet_capacity_derate toy_psy sol u c _ E1) as E3. rewrite D in E3.
  pose proof (resnet_power_derate toy_psy sol u c _ P) as E4. rewrite D in E4. fold M in E3, E4.
  pose proof (resnet_fraction_bounds (degF (ps_db (c_outdoor c)))) as B.
  set (f := resnet_fraction (degF (ps_db (c_outdoor c)))) in *. clearbody f.
  rewrite Rmult_1_r in E1, E2, E3.
  assert (W : heating_fan_power sol u (Some c) = Ok 300).
  { unfold heating_fan_power. cbn [heating_conditions rbind]. vm_compute. f_equal. lra. }
  exists q, p. split; [exact E1|]. split; [exact Pq|]. split; [exact E2|]. split; [exact Pp|]. split; [exact W|].
  assert (N1 : 0 < p * (1 - 0.3 * f)) by (apply Rmult_lt_0_compat; lra).
  unfold gross_heating_capacity_ratio, net_heating_capacity_ratio, gross_heating_power_ratio, net_heating_power_ratio,
    gross_integrated_heating_cop, gross_steady_state_heating_cop, net_integrated_heating_capacity,
    net_steady_state_heating_capacity, net_integrated_heating_power, net_steady_state_heating_power.
  unfold both, plus. rewrite E1, E2, E3, E4, W. cbn [rbind nadd RNum].
  rewrite !pydiv_ok by lra.
  repeat split; try (eexists; reflexivity). eexists. split; [reflexivity|]. apply Rdiv_lt_0_compat; lra.
Qed.

(** * Title 24 *)
Lemma t24_loss : forall sol (u : dxunit R) c s v q17 q35 q47,
  let M := Title24DXModel sol in
  let t := degF (ps_db (c_outdoor c)) in
  gross_steady_state_heating_capacity M u (Some c) = Ok s ->
  gross_integrated_heating_capacity M u (Some c) = Ok v ->
  anchor17 u (c_speed c) q17 -> anchor35 u (c_speed c) q35 -> anchor47 u (c_speed c) q47 ->
  (in_defrost (u_defrost u) c = false \/ t <= 17 \/ 45 <= t -> v = s)
  /\ (in_defrost (u_defrost u) c = true -> 17 < t < 45 ->
      s - v = (t - 17) / (35 - 17) * (clear35 q17 q47 - q35)).
Proof.
  intros sol u c s v q17 q35 q47 M t S V H17 H35 H47.
  unfold gross_steady_state_heating_capacity, product in S. cbn [heating_conditions rbind] in S.
  apply rbind_ok in S. destruct S as (s0 & S & S1). cbn [M Title24DXModel md_f_ghc] in S1.
  unfold unit_factor in S1. cbn [rbind] in S1. rewrite lit1_R in S1. apply Ok_inj in S1.
  unfold gross_integrated_heating_capacity in V. cbn [heating_conditions rbind] in V.
  cbn [M Title24DXModel md_ghc] in S. cbn [M Title24DXModel md_gihc] in V. unfold fresh in S, V.
  destruct (t24_heating_capacity u c blank_t24) as [d1 r1] eqn:E1. simpl in S. subst r1.
  destruct (t24_integrated_capacity u c blank_t24) as [d2 r2] eqn:E2. simpl in V. subst r2.
  destruct (capacity_value u c _ _ _ (capok_blank u) E1) as (a & b & x & A & B & X & Hs).
  destruct (icapacity_value u c _ _ _ (capok_blank u) E2) as (a' & b' & e' & x' & A' & B' & C' & X' & Hv).
  unfold anchor47, entry in *.
  assert (a = q47) by congruence. assert (a' = q47) by congruence. assert (x' = x) by congruence.
  assert (b = q17) by (eapply anchor17_fun; eauto). assert (b' = q17) by (eapply anchor17_fun; eauto).
  assert (e' = q35) by (eapply anchor35_fun; eauto). subst a a' x' b b' e'.
  fold t in Hs, Hv. unfold clear35. cbn [nmul RNum] in S1. split.
  - intros D. destruct (in_defrost _ _); [|lra]. destruct D as [D|D]; [discriminate|].
    destruct (Rlt_dec 17 t); [|lra]. destruct (Rlt_dec t 45); lra.
  - intros D T. rewrite D in Hv. destruct (Rlt_dec 17 t); [|lra]. destruct (Rlt_dec t 45); [|lra]. lra.
Qed.

Lemma t24_default_loss : forall sol (u : dxunit R) c s v q17 q47,
  let M := Title24DXModel sol in
  let t := degF (ps_db (c_outdoor c)) in
  gross_steady_state_heating_capacity M u (Some c) = Ok s ->
  gross_integrated_heating_capacity M u (Some c) = Ok v ->
  not_supplied u "cap35"%string -> anchor17 u (c_speed c) q17 -> anchor47 u (c_speed c) q47 ->
  in_defrost (u_defrost u) c = true -> 17 < t < 45 ->
  s - v = (t - 17) / 180 * clear35 q17 q47.
Proof.
  intros sol u c s v q17 q47 M t S V N H17 H47 D T.
  assert (St : df_strategy (u_defrost u) <> DSNone).
  { intros E. unfold in_defrost, in_defrost_at in D. rewrite E in D. discriminate. }
  assert (H35 : anchor35 u (c_speed c) (clear35 q17 q47 * 0.9)).
  { right. split; [exact N|]. exists q17, q47. split; [exact H17|]. split; [exact H47|].
    unfold clear35. destruct (df_strategy (u_defrost u)); [congruence|reflexivity|reflexivity]. }
  destruct (t24_loss sol u c s v q17 _ q47 S V H17 H35 H47) as (_ & L).
  fold t in L. rewrite (L D T). lra.
Qed.
