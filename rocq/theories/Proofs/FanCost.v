(** Lemmas for C103: what the fan does to COPs and the sensible heat ratio. *)
From Coq Require Import String Reals QArith Lra Psatz List.
From Verif.Base Require Import Num Res Tac.
From Verif.Model Require Import Units Util Psychrometrics Conditions Defrost Fan Unit NREL BaseModel DXUnit.
From Verif.Proofs Require Import UnitsR NrelProofs ToyUnit ToyBuild HeatRatio.
Import ListNotations.
Local Open Scope R_scope.

Lemma diff_inv (f g : dxunit R -> option (cond R) -> res R) u k r :
  both minus f g u k = Ok r -> exists a b, f u k = Ok a /\ g u k = Ok b /\ r = a - b.
Proof.
  unfold both. intros H. apply rbind_ok in H. destruct H as (a & A & H).
  apply rbind_ok in H. destruct H as (b & B & H). apply Ok_inj in H. subst r. exists a, b. auto.
Qed.

Lemma gcp_nonneg M (u : dxunit R) k p : gross_cooling_power M u k = Ok p -> 0 <= p.
Proof.
  unfold gross_cooling_power, checked_product. intros H. apply rbind_ok in H. destruct H as (c & _ & H).
  apply rbind_ok in H. destruct H as (a & _ & H). apply rbind_ok in H. destruct H as (b & _ & H).
  apply limit_check_inv in H. lra.
Qed.
Lemma gtc_nonneg M (u : dxunit R) k p : gross_total_cooling_capacity M u k = Ok p -> 0 <= p.
Proof.
  unfold gross_total_cooling_capacity, checked_product. intros H. apply rbind_ok in H. destruct H as (c & _ & H).
  apply rbind_ok in H. destruct H as (a & _ & H). apply rbind_ok in H. destruct H as (b & _ & H).
  apply limit_check_inv in H. lra.
Qed.
Lemma gsc_nonneg M (u : dxunit R) k p : gross_sensible_cooling_capacity M u k = Ok p -> 0 <= p.
Proof.
  unfold gross_sensible_cooling_capacity. intros H. apply rbind_ok in H. destruct H as (c & _ & H).
  apply rbind_ok in H. destruct H as (a & _ & H). apply limit_check_inv in H. lra.
Qed.

(** One loss for capacity [f]; [f'] and [w'] as in another unit with a larger fan. *)
Lemma loss_order (q p w w' : R) : 0 <= q -> 0 < p -> 0 <= w -> w <= w' ->
  (q - w') / (p + w') <= (q - w) / (p + w) /\ (w < w' -> (q - w') / (p + w') < (q - w) / (p + w)).
Proof.
  intros Q P W L.
  assert (E : (q - w) / (p + w) - (q - w') / (p + w') = (q + p) * (w' - w) / ((p + w) * (p + w'))) by (field; lra).
  assert (D : 0 < (p + w) * (p + w')) by (apply Rmult_lt_0_compat; lra).
  split.
  - assert (0 <= (q + p) * (w' - w) / ((p + w) * (p + w'))); [|lra].
    apply Rmult_le_pos; [apply Rmult_le_pos; lra|apply Rlt_le, Rinv_0_lt_compat, D].
  - intros S. assert (0 < (q + p) * (w' - w) / ((p + w) * (p + w'))); [|lra].
    apply Rdiv_lt_0_compat; [apply Rmult_lt_0_compat; lra|exact D].
Qed.

Lemma cooling_cost_of (f : dxunit R -> option (cond R) -> res R) sol M u k w g n :
  (forall v, f u k = Ok v -> 0 <= v) ->
  cooling_fan_power sol u k = Ok w -> 0 <= w ->
  both pydiv f (gross_cooling_power M) u k = Ok g ->
  both pydiv (both minus f (cooling_fan_power sol)) (net_cooling_power sol M) u k = Ok n ->
  n <= g /\ (0 < w -> n < g).
Proof.
  intros F W Pw G N.
  apply ratio_inv in G as (q & p & Q & P & Np & ->). apply ratio_inv in N as (x & y & X & Y & _ & ->).
  apply diff_inv in X as (q' & w1 & Q' & W1 & ->). apply sum_inv in Y as (p' & w2 & P' & W2 & ->).
  rewrite Q in Q'. rewrite P in P'. rewrite W in W1, W2. apply Ok_inj in Q', P', W1, W2. subst q' p' w1 w2.
  pose proof (F _ Q). pose proof (gcp_nonneg _ _ _ _ P).
  destruct (loss_order q p 0 w) as [A B]; try lra.
  replace ((q - 0) / (p + 0)) with (q / p) in A, B by (f_equal; ring). split; [exact A|exact B].
Qed.

Lemma cooling_cost sol M (u : dxunit R) k w :
  cooling_fan_power sol u k = Ok w -> 0 <= w ->
  (forall g n, gross_total_cooling_cop M u k = Ok g -> net_total_cooling_cop sol M u k = Ok n ->
     n <= g /\ (0 < w -> n < g))
  /\ (forall g n, gross_sensible_cooling_cop M u k = Ok g -> net_sensible_cooling_cop sol M u k = Ok n ->
     n <= g /\ (0 < w -> n < g)).
Proof.
  intros W Pw. split; intros g n; apply (cooling_cost_of _ sol M u k w g n).
  - intros v. apply gtc_nonneg.
  - exact W.
  - exact Pw.
  - intros v. apply gsc_nonneg.
  - exact W.
  - exact Pw.
Qed.

Lemma shr_cost sol M (u : dxunit R) k w q r x :
  cooling_fan_power sol u k = Ok w -> 0 <= w -> gross_total_cooling_capacity M u k = Ok q -> w < q ->
  gross_shr M u k = Ok r -> net_shr sol M u k = Ok x ->
  x <= r <= 1 /\ (0 < w -> r < 1 -> x < r) /\ (r = 1 -> x = 1).
Proof.
  intros W Pw Q L G N. unfold gross_shr, both in G.
  apply rbind_ok in G. destruct G as (s & S & G). apply rbind_ok in G. destruct G as (q' & Q' & G).
  rewrite Q in Q'. apply Ok_inj in Q'. subst q'.
  apply rbind_ok in G. destruct G as (r' & D & G). apply pydiv_inv in D. destruct D as [_ ->].
  assert (G' : r = s / q /\ s / q <= 1).
  { unfold limit_check in G. rewrite lit0_R, lit1_R in G. cbn [nltb RNum] in G.
    destruct (Rltb (s / q) 0); [discriminate|]. cbn [rbind] in G.
    destruct (Rltb_spec 1 (s / q)); [discriminate|]. cbn [rbind] in G. apply Ok_inj in G. split; [auto|lra]. }
  destruct G' as [-> Le]. clear G.
  apply ratio_inv in N as (a & b & A & B & Nb & ->).
  apply diff_inv in A as (s' & w1 & S' & W1 & ->). apply diff_inv in B as (q' & w2 & Q' & W2 & ->).
  rewrite S in S'. rewrite Q in Q'. rewrite W in W1, W2. apply Ok_inj in S', Q', W1, W2. subst s' q' w1 w2.
  assert (E : (s - w) / (q - w) = s / q - (1 - s / q) * (w / (q - w))) by (field; lra).
  assert (P : 0 <= w / (q - w)) by (apply Rmult_le_pos; [lra|apply Rlt_le, Rinv_0_lt_compat; lra]).
  rewrite E. set (z := w / (q - w)) in *. set (y := s / q) in *.
  assert (Z : 0 < w -> 0 < z) by (intros; unfold z; apply Rdiv_lt_0_compat; lra). clearbody z y.
  split; [split; [nra|exact Le]|]. split.
  - intros H1 H2. specialize (Z H1). nra.
  - intros ->. lra.
Qed.

Lemma heating_cost sol M (u : dxunit R) k w :
  heating_fan_power sol u k = Ok w -> 0 <= w ->
  (forall p g n, gross_steady_state_heating_power M u k = Ok p -> 0 < p ->
     gross_steady_state_heating_cop M u k = Ok g -> net_steady_state_heating_cop sol M u k = Ok n ->
     Rmin g 1 <= n <= Rmax g 1 /\ (0 < w -> g <> 1 -> n <> g))
  /\ (forall p g n, gross_integrated_heating_power M u k = Ok p -> 0 < p ->
     gross_integrated_heating_cop M u k = Ok g -> net_integrated_heating_cop sol M u k = Ok n ->
     Rmin g 1 <= n <= Rmax g 1 /\ (0 < w -> g <> 1 -> n <> g)).
Proof.
  intros W Pw. split; intros p g n P Pp G N.
  - exact (net_of_gross (gross_steady_state_heating_capacity M) (gross_steady_state_heating_power M) sol u k p w g n P Pp W Pw G N).
  - exact (net_of_gross (gross_integrated_heating_capacity M) (gross_integrated_heating_power M) sol u k p w g n P Pp W Pw G N).
Qed.

(** A larger fan on the same coil. *)
Lemma larger_fan sol M (u u' : dxunit R) k k' w w' n n' :
  cooling_fan_power sol u k = Ok w -> cooling_fan_power sol u' k' = Ok w' -> 0 <= w -> w < w' ->
  gross_total_cooling_capacity M u' k' = gross_total_cooling_capacity M u k ->
  gross_cooling_power M u' k' = gross_cooling_power M u k ->
  (forall p, gross_cooling_power M u k = Ok p -> 0 < p) ->
  net_total_cooling_cop sol M u k = Ok n -> net_total_cooling_cop sol M u' k' = Ok n' -> n' < n.
Proof.
  intros W W' Pw L Eq Ep Pp N N'.
  apply ratio_inv in N as (x & y & X & Y & _ & ->). apply ratio_inv in N' as (x' & y' & X' & Y' & _ & ->).
  apply diff_inv in X as (q & w1 & Q & W1 & ->). apply sum_inv in Y as (p & w2 & P & W2 & ->).
  apply diff_inv in X' as (q' & w1' & Q' & W1' & ->). apply sum_inv in Y' as (p' & w2' & P' & W2' & ->).
  rewrite Eq, Q in Q'. rewrite Ep, P in P'. rewrite W in W1, W2. rewrite W' in W1', W2'.
  apply Ok_inj in Q', P', W1, W2, W1', W2'. subst.
  pose proof (Pp _ P). pose proof (gtc_nonneg _ _ _ _ Q).
  apply loss_order; lra.
Qed.

(** Examples. *)
Definition poor_unit : dxunit R :=
  mkUnit [] (Some 14) (Some 12) (Some 8) None BETWEEN_LOW_FULL true 325
    (toy_defrost DCDemand DSReverseCycle) 283
    AHRI_210_240_2023 0 SINGLE_STAGE 240 None
    (toy_side [10000] [10300] [300] [4] [2500] [2200] [103 / 22] [1])
    (toy_side [1000] [1000] [300] [1 / 2] [2000] [2000] [1 / 2] [1])
    [None] [None] [None] (Some 125) (Some toy_fan) (Some 0) toy_conds toy_rn.

(** The unit of [toy_unit] with a fan of twice the power per unit of air. *)
Definition hungry_unit : dxunit R :=
  wu_fan (Some (mkFan ConstantEfficacyFan 125 (EffList [600; 600]) 2 [1; 0.5] [1; 0.5] 125 0
    [] [] [] [] [] 0 [] None None None)) (toy_unit 0 (toy_defrost DCTimed DSReverseCycle)).

Lemma toy_fan_cost sol :
  let u := toy_unit 0 (toy_defrost DCTimed DSReverseCycle) in
  let k := Some (toy_cond 300 292 308 1) in
  let M := ConstantDXModel in
  cooling_fan_power sol u k = Ok 300 /\ heating_fan_power sol u k = Ok 300
  /\ cooling_fan_power sol hungry_unit k = Ok 600
  /\ gross_total_cooling_capacity M u k = Ok 10300 /\ gross_cooling_power M u k = Ok 2200
  /\ gross_total_cooling_capacity M hungry_unit k = Ok 10300 /\ gross_cooling_power M hungry_unit k = Ok 2200
  /\ gross_sensible_cooling_capacity M u k = Ok 7210
  /\ gross_steady_state_heating_capacity M u k = Ok 9700 /\ gross_steady_state_heating_power M u k = Ok 2200.
Proof.
  cbv zeta.
  assert (L : forall v : R, 0 <= v -> limit_check v (Some (lit 0)) None = Ok v).
  { intros v V. unfold limit_check. rewrite lit0_R. cbn [nltb RNum]. destruct (Rltb_spec v 0); [lra|reflexivity]. }
  assert (A : forall u : dxunit R, u_c u = u_c (toy_unit 0 (toy_defrost DCTimed DSReverseCycle)) ->
    let k := Some (toy_cond 300 292 308 1) in
    gross_total_cooling_capacity ConstantDXModel u k = Ok 10300 /\ gross_cooling_power ConstantDXModel u k = Ok 2200).
  { intros u E k. unfold gross_total_cooling_capacity, gross_cooling_power, checked_product.
    cbn [cooling_conditions rbind ConstantDXModel md_gtc md_f_gtc md_gcp md_f_gcp k].
    unfold constant_capacity, constant_power, ratio_at, side_of, unit_factor. rewrite E.
    cbn -[lit limit_check pydiv]. rewrite pydiv_ok by lra. cbn [rbind]. rewrite lit1_R. cbn [nmul RNum].
    split; rewrite L by lra; f_equal; lra. }
  repeat match goal with |- _ /\ _ => split end;
    try (apply A; reflexivity);
    try (unfold cooling_fan_power, heating_fan_power; cbn [cooling_conditions heating_conditions rbind]; vm_compute; f_equal; lra).
  - unfold gross_sensible_cooling_capacity.
    cbn [cooling_conditions rbind ConstantDXModel md_gsc]. unfold checked_product, constant_capacity, side_of, unit_factor.
    cbn -[lit limit_check]. rewrite lit1_R. rewrite L by lra. cbn [rbind].
    rewrite L by (rnum; lra). f_equal. rnum. lra.
  - unfold gross_steady_state_heating_power, product. cbn [heating_conditions rbind ConstantDXModel md_ghp md_f_ghp].
    unfold constant_power, ratio_at, side_of, unit_factor. cbn -[lit pydiv]. rewrite pydiv_ok by lra. cbn [rbind].
    f_equal. rnum. lra.
Qed.

Lemma toy_fan_cops sol :
  let u := toy_unit 0 (toy_defrost DCTimed DSReverseCycle) in
  let k := Some (toy_cond 300 292 308 1) in
  let M := ConstantDXModel in
  gross_total_cooling_cop M u k = Ok (103 / 22) /\ net_total_cooling_cop sol M u k = Ok 4
  /\ net_total_cooling_cop sol M hungry_unit k = Ok (97 / 28)
  /\ gross_shr M u k = Ok 0.7 /\ net_shr sol M u k = Ok 0.691
  /\ gross_steady_state_heating_cop M u k = Ok (97 / 22) /\ net_steady_state_heating_cop sol M u k = Ok 4.
Proof.
  cbv zeta. destruct (toy_fan_cost sol) as (W & Wh & W' & Q & P & Q' & P' & S & H & Hp).
  unfold gross_total_cooling_cop, net_total_cooling_cop, gross_shr, net_shr, gross_steady_state_heating_cop,
    net_steady_state_heating_cop, net_total_cooling_capacity, net_cooling_power, net_sensible_cooling_capacity,
    net_steady_state_heating_capacity, net_steady_state_heating_power, both, plus, minus.
  rewrite W, Wh, W', Q, P, Q', P', S, H, Hp. cbn [rbind nadd nsub RNum].
  rewrite !pydiv_ok by lra. cbn [rbind].
  repeat split; try (f_equal; lra).
  unfold limit_check. rewrite lit0_R, lit1_R. cbn [nltb RNum].
  destruct (Rltb_spec (7210 / 10300) 0); [lra|]. cbn [rbind].
  destruct (Rltb_spec 1 (7210 / 10300)); [lra|]. cbn [rbind]. f_equal. lra.
Qed.

Lemma poor_heating sol :
  let k := Some (toy_cond 294 289 270 1) in
  heating_fan_power sol poor_unit k = Ok 300
  /\ gross_steady_state_heating_cop ConstantDXModel poor_unit k = Ok (1 / 2)
  /\ net_steady_state_heating_cop sol ConstantDXModel poor_unit k = Ok (13 / 23).
Proof.
  cbv zeta.
  assert (W : heating_fan_power sol poor_unit (Some (toy_cond 294 289 270 1)) = Ok 300).
  { unfold heating_fan_power. cbn [heating_conditions rbind]. vm_compute. f_equal. lra. }
  assert (H : gross_steady_state_heating_capacity ConstantDXModel poor_unit (Some (toy_cond 294 289 270 1)) = Ok 1000).
  { unfold gross_steady_state_heating_capacity, product. cbn [heating_conditions rbind ConstantDXModel md_ghc md_f_ghc].
    unfold constant_capacity, side_of, unit_factor. cbn -[lit]. f_equal. rnum. lra. }
  assert (P : gross_steady_state_heating_power ConstantDXModel poor_unit (Some (toy_cond 294 289 270 1)) = Ok 2000).
  { unfold gross_steady_state_heating_power, product. cbn [heating_conditions rbind ConstantDXModel md_ghp md_f_ghp].
    unfold constant_power, ratio_at, side_of, unit_factor. cbn -[lit pydiv]. rewrite pydiv_ok by lra. cbn [rbind].
    f_equal. rnum. lra. }
  split; [exact W|].
  unfold gross_steady_state_heating_cop, net_steady_state_heating_cop, net_steady_state_heating_capacity,
    net_steady_state_heating_power, both, plus. rewrite W, H, P. cbn [rbind nadd RNum].
  rewrite !pydiv_ok by lra. split; f_equal; lra.
Qed.

Lemma heating_lower_false : ~ (forall sol M (u : dxunit R) k w g n,
  heating_fan_power sol u k = Ok w -> 0 < w ->
  gross_steady_state_heating_cop M u k = Ok g -> net_steady_state_heating_cop sol M u k = Ok n -> n <= g).
Proof.
  intros H. set (sol := lin_sol). destruct (poor_heating sol) as (W & G & N).
  pose proof (H _ _ _ _ _ _ _ W ltac:(lra) G N). lra.
Qed.
