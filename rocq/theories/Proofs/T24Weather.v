(** Title 24 cooling against weather and airflow (C114). *)
From Coq Require Import Reals QArith Lra Psatz List Bool String.
From Verif.Base Require Import Num Res Tac.
From Verif.Model Require Import Units Util Psychrometrics Conditions Defrost Fan Tabular Unit
  NREL BaseModel Title24 DXUnit.
From Verif.Spec Require Import NrelSpec ModelSpec Title24Spec T24WeatherSpec.
From Verif.Proofs Require Import UnitsR NrelProofs UnitProofs ModelProofs T24Cooling ToyUnit ToyT24.
Import ListNotations.
Local Open Scope R_scope.

Lemma cap_of sol u c wb odb idb v g q : t24_point c wb odb idb v ->
  entry (sd_gross_cap (u_c u)) (c_speed c) g ->
  gross_total_cooling_capacity (M24 sol) u (Some c) = Ok q ->
  exists f, t24_cap wb odb idb v f /\ q = f * g.
Proof.
  intros P G Q. destruct (capacity_eq u c _ _ _ _ P g G) as (f & F & E).
  apply gtc24 in Q. destruct Q as [Q _]. exists f. split; [exact F|]. congruence.
Qed.

(** ** Sensible share *)
Lemma share_order wb odb idb v wb' odb' idb' v' :
  wb <= wb' <= 99 -> odb' <= odb -> idb' <= idb -> 0 <= v' <= v ->
  t24_shr wb' odb' idb' v' <= t24_shr wb odb idb v.
Proof.
  intros W O I V. unfold t24_shr. apply Rle_min_compat_l.
  assert (A : 0 <= (v - v') * (0.0016375 - 0.0000165 * wb)) by (apply Rmult_le_pos; lra).
  assert (B : 0 <= (wb' - wb) * (0.0592153 + 0.0000165 * v' - 0.0002021 * (wb + wb'))) by (apply Rmult_le_pos; lra).
  lra.
Qed.
Lemma dry_spell sol u c c' wb odb idb v wb' odb' idb' v' s s' q q' :
  t24_point c wb odb idb v -> t24_point c' wb' odb' idb' v' ->
  wb <= wb' <= 99 -> odb' <= odb -> idb' <= idb -> 0 <= v' <= v ->
  gross_total_cooling_capacity (M24 sol) u (Some c) = Ok q -> 0 < q ->
  gross_total_cooling_capacity (M24 sol) u (Some c') = Ok q' -> 0 < q' ->
  gross_sensible_cooling_capacity (M24 sol) u (Some c) = Ok s ->
  gross_sensible_cooling_capacity (M24 sol) u (Some c') = Ok s' ->
  s' / q' <= s / q.
Proof.
  intros P P' W O I V Q Q0 Q' Q0' S S'.
  destruct (sensible24 _ _ _ _ _ _ _ _ P S) as (x & X & -> & _).
  destruct (sensible24 _ _ _ _ _ _ _ _ P' S') as (x' & X' & -> & _).
  assert (x = q) by congruence. assert (x' = q') by congruence. subst.
  pose proof (share_order _ _ _ _ _ _ _ _ W O I V).
  replace (_ * q' / q') with (t24_shr wb' odb' idb' v') by (field; lra).
  replace (_ * q / q) with (t24_shr wb odb idb v) by (field; lra). assumption.
Qed.

(** ** Capacity *)
Section Two.
  Variables (sol : solvers R) (u : dxunit R) (c c' : cond R).
  Variables g q q' : R.
  Hypothesis Sp : c_speed c' = c_speed c.
  Hypothesis G : entry (sd_gross_cap (u_c u)) (c_speed c) g.
  Hypothesis G0 : 0 < g.
  Hypothesis Q : gross_total_cooling_capacity (M24 sol) u (Some c) = Ok q.
  Hypothesis Q' : gross_total_cooling_capacity (M24 sol) u (Some c') = Ok q'.

  Lemma G' : entry (sd_gross_cap (u_c u)) (c_speed c') g.
  Proof. rewrite Sp. exact G. Qed.

  Lemma hotter_less wb idb v odb odb' :
    t24_point c wb odb idb v -> t24_point c' wb odb' idb v ->
    30 <= wb -> 0 <= idb -> 0 <= v -> odb < odb' ->
    same_coil wb odb idb v wb odb' idb v -> q' < q.
  Proof.
    intros P P' W I V O [[X X']|[X X']];
    destruct (cap_of sol u c _ _ _ _ g q P G Q) as (f & [F1 F2] & ->);
    destruct (cap_of sol u c' _ _ _ _ g q' P' G' Q') as (f' & [F1' F2'] & ->);
    apply Rmult_lt_compat_r; try exact G0.
    - rewrite (F1 X), (F1' X').
      assert (0 < (odb' - odb) * (0.0000959 * wb + 0.00000755 * v - 0.0025369)) by (apply Rmult_lt_0_compat; lra).
      lra.
    - rewrite (F2 X), (F2' X').
      assert (0 < (odb' - odb) * (0.0006006 + 0.0000326 * idb + 0.00000505 * v)) by (apply Rmult_lt_0_compat; lra).
      lra.
  Qed.

  Lemma moister_more wb wb' odb idb v :
    t24_point c wb odb idb v -> t24_point c' wb' odb idb v ->
    40 <= wb < wb' -> odb <= 130 -> 0 <= v ->
    t24_wet wb odb idb v -> t24_wet wb' odb idb v -> q < q'.
  Proof.
    intros P P' W O V X X'.
    destruct (cap_of sol u c _ _ _ _ g q P G Q) as (f & [F1 F2] & ->).
    destruct (cap_of sol u c' _ _ _ _ g q' P' G' Q') as (f' & [F1' F2'] & ->).
    apply Rmult_lt_compat_r; try exact G0. rewrite (F1 X), (F1' X').
    assert (0 < (wb' - wb) * (0.0096459 - 0.0000959 * odb + 0.00000818 * v + 0.0001057 * (wb + wb')))
      by (apply Rmult_lt_0_compat; lra). lra.
  Qed.
  Lemma dry_same wb wb' odb idb v :
    t24_point c wb odb idb v -> t24_point c' wb' odb idb v ->
    ~ t24_wet wb odb idb v -> ~ t24_wet wb' odb idb v -> q' = q.
  Proof.
    intros P P' X X'.
    destruct (cap_of sol u c _ _ _ _ g q P G Q) as (f & [F1 F2] & ->).
    destruct (cap_of sol u c' _ _ _ _ g q' P' G' Q') as (f' & [F1' F2'] & ->).
    rewrite (F2 X), (F2' X'). reflexivity.
  Qed.

  Lemma more_air wb odb idb v v' :
    t24_point c wb odb idb v -> t24_point c' wb odb idb v' ->
    55 <= wb -> odb <= 125 -> 70 <= idb -> 0 < v < v' -> v' <= 400 ->
    same_coil wb odb idb v wb odb idb v' -> q < q'.
  Proof.
    intros P P' W O I V V' [[X X']|[X X']];
    destruct (cap_of sol u c _ _ _ _ g q P G Q) as (f & [F1 F2] & ->);
    destruct (cap_of sol u c' _ _ _ _ g q' P' G' Q') as (f' & [F1' F2'] & ->);
    apply Rmult_lt_compat_r; try exact G0.
    all: assert (VV : 0 < v * v' <= 160000) by nra.
    all: assert (K : 1 / 160000 <= 1 / (v * v'))
      by (unfold Rdiv; rewrite !Rmult_1_l; apply Rinv_le_contravar; lra).
    all: set (k := 1 / (v * v')) in *.
    all: assert (D : / v - / v' = (v' - v) * k) by (unfold k; field; lra).
    - rewrite (F1 X), (F1' X').
      assert (0 < (v' - v) * (0.0001715 + 0.00000818 * wb - 0.00000755 * odb + 53.5423 * k))
        by (apply Rmult_lt_0_compat; lra).
      unfold Rdiv. lra.
    - rewrite (F2 X), (F2' X').
      assert (0 < (v' - v) * (- 0.0001489 + 0.0000119 * idb - 0.00000505 * odb + 52.56174 * k))
        by (apply Rmult_lt_0_compat; lra).
      unfold Rdiv. lra.
  Qed.
End Two.

(** Where the coil falls dry capacity can jump up. *)
Lemma jump sol u c c' g q q' : c_speed c' = c_speed c ->
  entry (sd_gross_cap (u_c u)) (c_speed c) g -> 0 < g ->
  t24_point c 60 96 80 400 -> t24_point c' 60 96.5 80 400 ->
  gross_total_cooling_capacity (M24 sol) u (Some c) = Ok q ->
  gross_total_cooling_capacity (M24 sol) u (Some c') = Ok q' -> q < q'.
Proof.
  intros Sp G G0 P P' Q Q'.
  destruct (cap_of sol u c _ _ _ _ g q P G Q) as (f & [F1 _] & ->).
  rewrite <- Sp in G.
  destruct (cap_of sol u c' _ _ _ _ g q' P' G Q') as (f' & [_ F2'] & ->).
  apply Rmult_lt_compat_r; [exact G0|]. rewrite F1, F2'; [lra| |].
  - unfold t24_wet, t24_shr. rewrite Rmin_left; lra.
  - unfold t24_wet, t24_shr. eapply Rle_lt_trans; [apply Rmin_r|]. lra.
Qed.

(** ** Power and efficiency *)
Lemma power_hot sol u c wb odb idb v q g w cop f fc fp :
  t24_point c wb odb idb v -> 95 <= odb -> rated24 u (c_speed c) q g w cop f ->
  t24_cap wb odb idb v fc -> 0 < fc -> t24_pow_hot wb odb idb v fp -> 0 < fp ->
  gross_cooling_power (M24 sol) u (Some c) = Ok (fc * fp * (q / cop - w / 3.413) / f).
Proof.
  intros P O (Q & G & G0 & W & COP & N & F & F0 & D) FC FC0 FP FP0.
  destruct (total24 sol u c _ _ _ _ g P G) as (x & X & T & _).
  assert (x = fc).
  { destruct FC as [A B], X as [A' B']. destruct (wet_dec wb odb idb v) as [[_ Y]|[_ Y]].
    - rewrite (A Y), (A' Y). reflexivity.
    - rewrite (B Y), (B' Y). reflexivity. }
  subst x. specialize (T ltac:(nra)).
  assert (CP : checked_product t24_gross_total_cooling_capacity unit_factor u c = Ok (fc * g)) by exact T.
  apply gcp24.
  assert (POS : 0 <= fc * fp * (q / cop - w / 3.413) / f).
  { apply Rlt_le, Rdiv_lt_0_compat; [|assumption]. repeat apply Rmult_lt_0_compat; assumption. }
  split; [|exact POS].
  unfold t24_gross_cooling_power. rewrite (shr_eq u c _ _ _ _ P). cbn [rbind].
  rewrite (inputs_eq c _ _ _ _ P). cbn [rbind].
  rewrite (proj2 (geti_ok _ _ _) Q). cbn [rbind].
  rewrite (proj2 (geti_ok _ _ _) W). cbn [rbind]. cbv zeta.
  replace (nltb odb (lit 95)) with false by (symmetry; apply Rltb_false; rnum; lra).
  replace (nltb (lit 82) odb) with true by (symmetry; apply Rltb_true; rnum; lra).
  cbn [rbind].
  rewrite (proj2 (geti_ok _ _ _) COP). cbn [rbind].
  rewrite (proj2 (geti_ok _ _ _) G). cbn [rbind].
  destruct (hot_curve c _ _ _ _ P _ (wet_dec _ _ _ _)) as (fp' & FP' & EP). rewrite EP.
  assert (fp' = fp).
  { destruct FP as [A B], FP' as [A' B']. destruct (wet_dec wb odb idb v) as [[_ Y]|[_ Y]].
    - rewrite (A Y), (A' Y). reflexivity.
    - rewrite (B Y), (B' Y). reflexivity. }
  subst fp'.
  cbn [rbind need]. rewrite pydiv_ok by lra. cbn [rbind need].
  replace (lit 3.413) with 3.413 by (rnum; lra). cbn [nmul ndiv nsub nadd RNum].
  rewrite pydiv_ok.
  2: { apply Rgt_not_eq. apply Rmult_lt_0_compat; assumption. }
  cbn [rbind].
  replace (nleb odb (lit 82)) with false by (symmetry; apply Rleb_false; rnum; lra).
  assert (FE : match find (fun x => String.eqb "input_cooling_efficiency_multiplier" (fst x)) (u_kwargs u) with
    | None => Ok (lit 1) | Some (_, KNum x) => Ok x | Some _ => Err TypeError end = Ok f).
  { destruct F as [(e & -> & E)|[A ->]].
    - destruct e as [k y]. cbn [snd] in E. subst y. reflexivity.
    - destruct (find _ (u_kwargs u)) as [[k y]|] eqn:E.
      + apply find_some in E. destruct E as [E1 E2]. apply String.eqb_eq in E2. cbn [fst] in E2. subst k.
        destruct (A _ E1).
      + rewrite lit1_R. reflexivity. }
  rewrite FE. cbn [rbind]. rewrite CP. cbn [rbind].
  set (d := q / cop - w / 3.413) in *. clearbody d.
  rewrite pydiv_ok.
  - f_equal. field. repeat split; lra.
  - apply Rmult_integral_contrapositive_currified; [|lra].
    apply Rgt_not_eq. apply Rdiv_lt_0_compat; [assumption|]. apply Rmult_lt_0_compat; assumption.
Qed.

Lemma pow_rises a b wb odb odb' idb v f f' : odb < odb' ->
  wb <= 80 -> idb <= 200 -> v <= 600 ->
  same_coil wb odb idb v wb odb' idb v ->
  t24_pow a b wb odb idb v f -> t24_pow a b wb odb' idb v f' -> f < f'.
Proof.
  intros O W I V [[X X']|[X X']] [A B] [A' B'].
  - rewrite (A X), (A' X').
    assert (0 < (odb' - odb) * (0.0236703 - 0.0001841 * wb - 0.00000812 * v)) by (apply Rmult_lt_0_compat; lra).
    lra.
  - rewrite (B X), (B' X').
    assert (0 < (odb' - odb) * (0.0125598 - 0.0000357 * idb)) by (apply Rmult_lt_0_compat; lra).
    lra.
Qed.

Lemma cop_falls sol u c c' wb odb odb' idb v q g w cop f k k' :
  t24_point c wb odb idb v -> t24_point c' wb odb' idb v -> c_speed c' = c_speed c ->
  95 <= odb < odb' -> wb <= 80 -> idb <= 200 -> v <= 600 ->
  same_coil wb odb idb v wb odb' idb v -> rated24 u (c_speed c) q g w cop f ->
  (forall x, gross_total_cooling_capacity (M24 sol) u (Some c) = Ok x -> 0 < x) ->
  (forall x, gross_total_cooling_capacity (M24 sol) u (Some c') = Ok x -> 0 < x) ->
  gross_total_cooling_cop (M24 sol) u (Some c) = Ok k ->
  gross_total_cooling_cop (M24 sol) u (Some c') = Ok k' -> k' < k.
Proof.
  intros P P' Sp O W I V SC Rt C0 C0' K K'.
  assert (VAL : forall c0 o k0, t24_point c0 wb o idb v -> c_speed c0 = c_speed c -> 95 <= o ->
    (forall x, gross_total_cooling_capacity (M24 sol) u (Some c0) = Ok x -> 0 < x) ->
    gross_total_cooling_cop (M24 sol) u (Some c0) = Ok k0 ->
    exists fp, t24_pow_hot wb o idb v fp /\ 0 < fp /\ k0 = g * f / (q / cop - w / 3.413) * / fp).
  { intros c0 o k0 Pt Sp0 O0 CP KK.
    destruct (cop24 sol u c0 _ _ _ _ k0 Pt KK) as (q1 & w1 & s & r & f1 & Q1 & W1 & _ & RK & F1 & E).
    { intros H. specialize (CP _ H). lra. }
    assert (KP : 0 < k0).
    { unfold gross_total_cooling_cop, both in KK.
      apply rbind_ok in KK. destruct KK as (cap & CAP & H).
      apply rbind_ok in H. destruct H as (p & PW & H). apply pydiv_inv in H. destruct H as [NP ->].
      apply gcp24 in PW. destruct PW as [_ PW]. apply Rdiv_lt_0_compat; [apply CP; exact CAP|lra]. }
    destruct Rt as (Q & G & G0 & WW & COP & N & F & F0 & D).
    rewrite Sp0 in *.
    assert (q1 = q) by congruence. subst q1.
    assert (w1 = w) by (unfold entry in *; congruence). subst w1.
    assert (f1 = f).
    { destruct F as [(e & E1 & E2)|[A ->]], F1 as [(e' & E1' & E2')|[A' ->]]; try congruence.
      - exfalso. apply find_some in E1. destruct E1 as [E1 E3]. apply String.eqb_eq in E3.
        destruct e as [n y]. cbn [fst] in E3. subst n. exact (A' _ E1).
      - exfalso. apply find_some in E1'. destruct E1' as [E1 E3]. apply String.eqb_eq in E3.
        destruct e' as [n y]. cbn [fst] in E3. subst n. exact (A _ E1). }
    subst f1. destruct (RK ltac:(lra)) as (fp & g1 & cop1 & FP & G1 & COP1 & ->).
    assert (g1 = g) by (unfold entry in *; congruence). subst g1.
    assert (cop1 = cop) by (unfold entry in *; congruence). subst cop1.
    unfold t24_efficiency in E. destruct (Rle_dec o 82); [lra|]. destruct (Rlt_dec o 95); [lra|].
    unfold rated_efficiency in E. set (d := q / cop - w / 3.413) in *. clearbody d.
    exists fp. split; [exact FP|].
    destruct (Rtotal_order fp 0) as [L|[L|L]].
    - exfalso. assert (fp * d < 0) by nra. assert (g / (fp * d) < 0).
      { unfold Rdiv. assert (/ (fp * d) < 0) by (apply Rinv_lt_0_compat; assumption). nra. }
      nra.
    - exfalso. subst fp. unfold Rdiv in E. rewrite Rmult_0_l, Rinv_0 in E. lra.
    - split; [exact L|]. rewrite E. field. lra. }
  destruct (VAL c odb k P eq_refl ltac:(lra) C0 K) as (fp & FP & FP0 & ->).
  destruct (VAL c' odb' k' P' Sp ltac:(lra) C0' K') as (fp' & FP' & FP0' & ->).
  pose proof (pow_rises _ _ _ _ _ _ _ _ _ (proj2 O) W I V SC FP FP') as LT.
  destruct Rt as (_ & _ & G0 & _ & _ & _ & _ & F0 & D).
  apply Rmult_lt_compat_l.
  - apply Rdiv_lt_0_compat; [apply Rmult_lt_0_compat; assumption|exact D].
  - apply Rinv_lt_contravar; [apply Rmult_lt_0_compat; assumption|exact LT].
Qed.

(** Up to 82 F capacity cancels. *)
Lemma power_mild sol u c wb odb idb v q g w f seer fc fm :
  t24_point c wb odb idb v -> odb <= 82 ->
  nth_error (sd_net_cap (u_c u)) (c_speed c) = Some q -> 0 < q ->
  entry (sd_gross_cap (u_c u)) (c_speed c) g -> 0 < g ->
  entry (sd_fan_power (u_c u)) (c_speed c) w -> 0 <= w ->
  efficiency_factor u f -> 0 < f -> u_seer u = Some seer -> 0 < seer ->
  w < 1.09 * q / as_cop seer ->
  t24_cap wb odb idb v fc -> 0 < fc -> t24_pow_mild wb odb idb v fm -> 0 < fm ->
  gross_cooling_power (M24 sol) u (Some c)
  = Ok (fm * g * (1.09 * q / as_cop seer - w) / (1.09 * q + w) / f).
Proof.
  intros P O Q Q0 G G0 W W0 F F0 SE SE0 D FC FC0 FM FM0.
  destruct (total24 sol u c _ _ _ _ g P G) as (x & X & T & _).
  assert (x = fc).
  { destruct FC as [A B], X as [A' B']. destruct (wet_dec wb odb idb v) as [[_ Y]|[_ Y]].
    - rewrite (A Y), (A' Y). reflexivity.
    - rewrite (B Y), (B' Y). reflexivity. }
  subst x. specialize (T ltac:(nra)).
  assert (CP : checked_product t24_gross_total_cooling_capacity unit_factor u c = Ok (fc * g)) by exact T.
  apply gcp24.
  assert (POS : 0 <= fm * g * (1.09 * q / as_cop seer - w) / (1.09 * q + w) / f).
  { apply Rlt_le, Rdiv_lt_0_compat; [|assumption]. apply Rdiv_lt_0_compat; [|lra].
    repeat apply Rmult_lt_0_compat; lra. }
  split; [|exact POS].
  unfold t24_gross_cooling_power. rewrite (shr_eq u c _ _ _ _ P). cbn [rbind].
  rewrite (inputs_eq c _ _ _ _ P). cbn [rbind].
  rewrite (proj2 (geti_ok _ _ _) Q). cbn [rbind].
  rewrite (proj2 (geti_ok _ _ _) W). cbn [rbind]. cbv zeta.
  replace (nltb odb (lit 95)) with true by (symmetry; apply Rltb_true; rnum; lra).
  replace (nltb (lit 82) odb) with false by (symmetry; apply Rltb_false; rnum; lra).
  rewrite SE. cbn [rbind need].
  destruct (cap_curve c _ _ _ _ P _ (wet_dec _ _ _ _)) as (fc' & FC' & EC). rewrite EC.
  destruct (mild_curve c _ _ _ _ P _ (wet_dec _ _ _ _)) as (fm' & FM' & EM). rewrite EM.
  assert (fm' = fm).
  { destruct FM as [A B], FM' as [A' B']. destruct (wet_dec wb odb idb v) as [[_ Y]|[_ Y]].
    - rewrite (A Y), (A' Y). reflexivity.
    - rewrite (B Y), (B' Y). reflexivity. }
  assert (fc' = fc).
  { destruct FC as [A B], FC' as [A' B']. destruct (wet_dec wb odb idb v) as [[_ Y]|[_ Y]].
    - rewrite (A Y), (A' Y). reflexivity.
    - rewrite (B Y), (B' Y). reflexivity. }
  subst fm' fc'. cbn [rbind need]. rewrite pydiv_ok by lra. cbn [rbind need].
  assert (AC : fr_Btu_Wh seer = as_cop seer).
  { unfold fr_Btu_Wh, as_cop, btu_h. rnum. lra. }
  rewrite AC. assert (A0 : 0 < as_cop seer) by (unfold as_cop; lra).
  replace (lit 1.09) with 1.09 by (rnum; lra). cbn [nmul ndiv nsub nadd RNum].
  rewrite pydiv_ok by lra. cbn [rbind].
  set (d := 1.09 * q / as_cop seer) in *. clearbody d.
  rewrite pydiv_ok by lra. cbn [rbind].
  replace (nleb odb (lit 82)) with true by (symmetry; apply Rleb_true; rnum; lra).
  assert (FE : match find (fun x => String.eqb "input_cooling_efficiency_multiplier" (fst x)) (u_kwargs u) with
    | None => Ok (lit 1) | Some (_, KNum x) => Ok x | Some _ => Err TypeError end = Ok f).
  { destruct F as [(e & -> & E)|[A ->]].
    - destruct e as [k y]. cbn [snd] in E. subst y. reflexivity.
    - destruct (find _ (u_kwargs u)) as [[k y]|] eqn:E.
      + apply find_some in E. destruct E as [E1 E2]. apply String.eqb_eq in E2. cbn [fst] in E2. subst k.
        destruct (A _ E1).
      + rewrite lit1_R. reflexivity. }
  rewrite FE. cbn [rbind]. rewrite CP. cbn [rbind].
  assert (E0 : 0 < fc / fm * (1.09 * q + w) / (d - w)).
  { apply Rdiv_lt_0_compat; [|lra]. apply Rmult_lt_0_compat; [|lra]. apply Rdiv_lt_0_compat; assumption. }
  rewrite pydiv_ok.
  - f_equal. field. repeat split; lra.
  - apply Rmult_integral_contrapositive_currified; lra.
Qed.

(** At the indoor air of the rating test. *)
Lemma wet_indoor o : 0 <= o <= 200 -> t24_wet 67 o 80 400.
Proof. intros H. unfold t24_wet, t24_shr. eapply Rle_lt_trans; [apply Rmin_r|]. lra. Qed.
Lemma cap67 o : 0 <= o <= 200 -> t24_cap 67 o 80 400 (1.656298 - 0.0069084 * o).
Proof. intros H. split; intros X; [lra|destruct (X (wet_indoor o H))]. Qed.
Lemma hot67 o : 0 <= o <= 200 -> t24_pow_hot 67 o 80 400 (0.231678 + 0.0080876 * o).
Proof. intros H. split; intros X; [lra|destruct (X (wet_indoor o H))]. Qed.

Lemma power_peaks sol u c c' odb odb' q g w cop f :
  t24_point c 67 odb 80 400 -> t24_point c' 67 odb' 80 400 -> c_speed c' = c_speed c ->
  95 <= odb < odb' -> odb' <= 200 -> rated24 u (c_speed c) q g w cop f ->
  exists p p', gross_cooling_power (M24 sol) u (Some c) = Ok p
    /\ gross_cooling_power (M24 sol) u (Some c') = Ok p'
    /\ (odb' <= 105 -> p < p') /\ (106 <= odb -> p' < p).
Proof.
  intros P P' Sp O O' Rt. eexists _, _.
  split; [apply (power_hot sol u c _ _ _ _ q g w cop f _ _ P ltac:(lra) Rt (cap67 odb ltac:(lra)) ltac:(lra)
                   (hot67 odb ltac:(lra)) ltac:(lra))|].
  rewrite <- Sp in Rt.
  split; [apply (power_hot sol u c' _ _ _ _ q g w cop f _ _ P' ltac:(lra) Rt (cap67 odb' ltac:(lra)) ltac:(lra)
                   (hot67 odb' ltac:(lra)) ltac:(lra))|].
  destruct Rt as (_ & _ & _ & _ & _ & _ & _ & F0 & D). set (d := q / cop - w / 3.413) in *. clearbody d.
  assert (K : 0 < d / f) by (apply Rdiv_lt_0_compat; assumption).
  replace ((1.656298 - 0.0069084 * odb) * (0.231678 + 0.0080876 * odb) * d / f)
    with ((1.656298 - 0.0069084 * odb) * (0.231678 + 0.0080876 * odb) * (d / f)) by (field; lra).
  replace ((1.656298 - 0.0069084 * odb') * (0.231678 + 0.0080876 * odb') * d / f)
    with ((1.656298 - 0.0069084 * odb') * (0.231678 + 0.0080876 * odb') * (d / f)) by (field; lra).
  split; intros L; apply Rmult_lt_compat_r; try exact K.
  - assert (0 < (odb' - odb) * (1.656298 * 0.0080876 - 0.0069084 * 0.231678
      - 0.0069084 * 0.0080876 * (odb + odb'))) by (apply Rmult_lt_0_compat; lra). lra.
  - assert (0 < (odb' - odb) * (0.0069084 * 0.0080876 * (odb + odb')
      - (1.656298 * 0.0080876 - 0.0069084 * 0.231678))) by (apply Rmult_lt_0_compat; lra). lra.
Qed.
