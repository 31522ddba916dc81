From Coq Require Import Reals QArith Lra Lia List Bool.
From Verif.Base Require Import Num Res Tac.
From Verif.Model Require Import Units Psychrometrics Conditions Defrost.
From Verif.Spec Require Import DefrostSpec.
Local Open Scope R_scope.

Lemma in_defrost_iff d c :
  in_defrost d c = true <-> defrost_window d (ps_db (c_outdoor c)).
Proof.
  unfold in_defrost, in_defrost_at, defrost_window. rnum.
  destruct (df_strategy d), (df_low_temperature d) as [low|];
    split; intros H; try discriminate;
    try (exfalso; apply (proj1 H); reflexivity);
    try (apply andb_prop in H as (H1 & H2); apply Rltb_true in H1, H2;
         repeat split; try congruence; auto; intros l El; inversion El; subst; auto);
    try (destruct H as (_ & H1 & H2); apply andb_true_intro; split; apply Rltb_true; auto);
    try (apply Rltb_true in H; repeat split; try congruence; auto; intros l El; discriminate);
    try (destruct H as (_ & H1 & _); apply Rltb_true; auto).
Qed.

Lemma demand_credit_not_demand d :
  df_control d <> DCDemand -> demand_credit (T:=R) d = Ok 1.
Proof.
  intros H. unfold demand_credit. destruct (df_control d); try congruence;
    f_equal; rnum; lra.
Qed.

(** With demand control, the credit as a formula of the period and maximum. *)
Definition credit_formula (period max_time : R) : R :=
  1 + 0.03 * (1 - (Rmax period min90 - min90) / (Rmin max_time min720 - min90)).

Lemma demand_credit_demand d :
  df_control d = DCDemand ->
  demand_credit (T:=R) d =
    if Req_EM_T (df_max_time d) min90 then Err ZeroDivisionError
    else Ok (credit_formula (df_period d) (df_max_time d)).
Proof.
  intros H. unfold demand_credit. rewrite H. clear H.
  set (q := pydiv _ _).
  assert (Eq : q = pydiv (Rmax (df_period d) min90 - min90)
                     (Rmin (df_max_time d) min720 - min90)).
  { subst q. unfold fr_min, min90, min720. rnum. unfold Rmax, Rmin.
    f_equal; destruct (Rle_dec _ _); rcases; lra. }
  rewrite Eq. clear q Eq.
  destruct (Req_EM_T (df_max_time d) min90) as [E|E].
  - rewrite E. replace (Rmin min90 min720 - min90) with 0.
    + rewrite pydiv_zero. reflexivity.
    + unfold Rmin, min90, min720. destruct (Rle_dec _ _); lra.
  - rewrite pydiv_ok.
    + simpl. f_equal. unfold credit_formula. rnum. lra.
    + unfold Rmin, min90, min720 in *. destruct (Rle_dec _ _); lra.
Qed.

Lemma credit_frac period max_time :
  min90 < max_time -> period <= max_time \/ period <= min720 ->
  period <= Rmin max_time min720 ->
  0 <= (Rmax period min90 - min90) / (Rmin max_time min720 - min90) <= 1.
Proof.
  intros H _ H2.
  assert (D : 0 < Rmin max_time min720 - min90).
  { unfold Rmin, min90, min720 in *. destruct (Rle_dec _ _); lra. }
  assert (N : 0 <= Rmax period min90 - min90 <= Rmin max_time min720 - min90).
  { unfold Rmax, min90 in *. destruct (Rle_dec _ _); lra. }
  split.
  - apply Rmult_le_pos; [lra|]. left. apply Rinv_0_lt_compat. lra.
  - apply (Rmult_le_reg_r (Rmin max_time min720 - min90)); auto.
    unfold Rdiv. rewrite Rmult_assoc, Rinv_l by lra. lra.
Qed.

Lemma demand_credit_bounds d :
  df_control d = DCDemand -> min90 < df_max_time d ->
  df_period d <= df_max_time d -> df_period d <= min720 ->
  exists x, demand_credit d = Ok x /\ 1 <= x <= 1.03
    /\ (df_period d <= min90 -> x = 1.03)
    /\ (df_period d = Rmin (df_max_time d) min720 -> x = 1).
Proof.
  intros Hc Hm Hp1 Hp2. rewrite (demand_credit_demand d Hc).
  destruct (Req_EM_T _ _) as [E|E]; [rewrite E in Hm; lra|].
  eexists; split; [reflexivity|]. unfold credit_formula.
  assert (B := credit_frac (df_period d) (df_max_time d) Hm (or_introl Hp1)).
  assert (D : 0 < Rmin (df_max_time d) min720 - min90).
  { unfold Rmin, min90, min720 in *. destruct (Rle_dec _ _); lra. }
  assert (B' : 0 <= (Rmax (df_period d) min90 - min90) /
            (Rmin (df_max_time d) min720 - min90) <= 1).
  { apply B. unfold Rmin. destruct (Rle_dec _ _); lra. }
  split; [lra|]. split.
  - intros Hle. replace (Rmax (df_period d) min90) with min90.
    + replace (min90 - min90) with 0 by lra. unfold Rdiv. rewrite Rmult_0_l. lra.
    + unfold Rmax. destruct (Rle_dec _ _); lra.
  - intros Heq. replace (Rmax (df_period d) min90) with (Rmin (df_max_time d) min720).
    + unfold Rdiv. rewrite Rinv_r by lra. lra.
    + rewrite <- Heq. unfold Rmax. destruct (Rle_dec _ _); lra.
Qed.

Lemma demand_credit_antitone d d' x x' :
  df_control d = DCDemand -> df_control d' = DCDemand ->
  df_max_time d = df_max_time d' -> min90 < df_max_time d ->
  df_period d <= df_period d' ->
  demand_credit d = Ok x -> demand_credit d' = Ok x' -> x' <= x.
Proof.
  intros Hc Hc' Em Hm Hp H H'.
  rewrite (demand_credit_demand d Hc) in H. rewrite (demand_credit_demand d' Hc') in H'.
  destruct (Req_EM_T (df_max_time d) _), (Req_EM_T (df_max_time d') _); try discriminate.
  apply Ok_inj in H, H'. subst. unfold credit_formula. rewrite <- Em.
  assert (D : 0 < Rmin (df_max_time d) min720 - min90).
  { unfold Rmin, min90, min720 in *. destruct (Rle_dec _ _); lra. }
  assert (N : Rmax (df_period d) min90 - min90 <= Rmax (df_period d') min90 - min90).
  { unfold Rmax. repeat destruct (Rle_dec _ _); lra. }
  assert (I : 0 < / (Rmin (df_max_time d) min720 - min90)) by (apply Rinv_0_lt_compat; auto).
  unfold Rdiv. pose proof (Rmult_le_compat_r _ _ _ (Rlt_le _ _ I) N). lra.
Qed.

Lemma demand_credit_above d :
  df_control d = DCDemand -> df_max_time d < min90 -> min90 < df_period d ->
  exists x, demand_credit d = Ok x /\ 1.03 < x.
Proof.
  intros Hc Hm Hp. rewrite (demand_credit_demand d Hc).
  destruct (Req_EM_T _ _); [lra|]. eexists; split; [reflexivity|].
  unfold credit_formula.
  replace (Rmax (df_period d) min90) with (df_period d).
  2:{ unfold Rmax. destruct (Rle_dec _ _); lra. }
  replace (Rmin (df_max_time d) min720) with (df_max_time d).
  2:{ unfold Rmin, min90, min720 in *. destruct (Rle_dec _ _); lra. }
  assert (Q : (df_period d - min90) / (df_max_time d - min90) < 0).
  { unfold Rdiv. assert (/ (df_max_time d - min90) < 0) by (apply Rinv_lt_0_compat; lra).
    assert (Z : 0 < (df_period d - min90) * - / (df_max_time d - min90)).
    { apply Rmult_lt_0_compat; lra. } lra. }
  lra.
Qed.

Lemma demand_credit_below d :
  df_control d = DCDemand -> min90 < df_max_time d ->
  Rmin (df_max_time d) min720 < df_period d ->
  exists x, demand_credit d = Ok x /\ x < 1.
Proof.
  intros Hc Hm Hp. rewrite (demand_credit_demand d Hc).
  destruct (Req_EM_T _ _); [lra|]. eexists; split; [reflexivity|].
  unfold credit_formula.
  assert (D : 0 < Rmin (df_max_time d) min720 - min90).
  { unfold Rmin, min90, min720 in *. destruct (Rle_dec _ _); lra. }
  replace (Rmax (df_period d) min90) with (df_period d).
  2:{ unfold Rmax. destruct (Rle_dec _ _); lra. }
  assert (Q : 1 < (df_period d - min90) / (Rmin (df_max_time d) min720 - min90)).
  { apply (Rmult_lt_reg_r (Rmin (df_max_time d) min720 - min90)); auto.
    unfold Rdiv. rewrite Rmult_assoc, Rinv_l by lra. lra. }
  lra.
Qed.

Lemma demand_credit_zero_div d :
  df_control d = DCDemand -> df_max_time d = min90 ->
  demand_credit d = Err ZeroDivisionError.
Proof.
  intros Hc Hm. rewrite (demand_credit_demand d Hc).
  destruct (Req_EM_T _ _); congruence.
Qed.

Lemma Defrost_resistive tf rp ctl strat hi lo per mx d :
  Defrost (T:=R) tf rp ctl strat hi lo per mx = Ok d ->
  df_strategy d = DSResistive -> 0 < df_resistive_power d.
Proof.
  unfold Defrost. rnum. destruct strat; intros H; try (apply Ok_inj in H; subst; simpl; congruence).
  destruct (Rleb_spec rp (0 * / 1)); try discriminate.
  apply Ok_inj in H. subst. simpl. intros _. lra.
Qed.
