(** Proofs for C101. *)
From Coq Require Import Reals QArith Lra Psatz Lia List Bool String.
From Verif.Base Require Import Num Res Tac.
From Verif.Model Require Import Units Util Psychrometrics Conditions Defrost Fan Curves
  Tabular Unit BaseModel NREL Resnet DXUnit.
From Verif.Spec Require Import PsychSpec NrelSpec RatingSpec SensibleSpec.
From Verif.Proofs Require Import UnitsR PsychProofs NrelProofs.
Import ListNotations.
Local Open Scope R_scope.

Definition adp_model (psy : psychro R) (sol : solvers R) (M : dxmodel R) : Prop :=
  M = NRELDXModel psy sol \/ M = RESNETDXModel psy sol.

Lemma sensible_inv psy sol M u c s : adp_model psy sol M ->
  gross_sensible_cooling_capacity M u (Some c) = Ok s ->
  0 <= s /\
  nrel_gross_sensible_cooling_capacity psy sol
    (fun u c => gross_total_cooling_capacity M u (Some c)) u c = Ok s.
Proof.
  intros A H. unfold gross_sensible_cooling_capacity, cooling_conditions in H. cbn [rbind] in H.
  apply rbind_ok in H. destruct H as (x & X & H). apply limit_check_inv in H. destruct H as [-> N].
  split; [exact N|]. rewrite <- X. destruct A as [-> | ->]; reflexivity.
Qed.

Lemma bf_pos (u : dxunit R) c bf : bypass_factor u c = Ok bf -> 0 < bf.
Proof.
  unfold bypass_factor. intros H. apply rbind_ok in H. destruct H as (n & _ & H).
  apply rbind_ok in H. destruct H as (m & _ & H). apply rbind_ok in H. destruct H as (q & _ & H).
  apply Ok_inj in H. subst bf. apply exp_pos.
Qed.

Section Split.
  Variables (psy : psychro R) (sol : solvers R) (M : dxmodel R) (tol : R).
  Hypothesis HM : adp_model psy sol M.
  Hypothesis Hair : ashrae_air psy.
  Hypothesis Hsol : newton_finds_roots tol sol.

  Lemma split (u : dxunit R) c wi q s :
    air_at psy (c_indoor c) wi ->
    gross_total_cooling_capacity M u (Some c) = Ok q ->
    gross_sensible_cooling_capacity M u (Some c) = Ok s ->
    exists m bf ta wa,
      c_mass_airflow c = Some m /\ bypass_factor u c = Ok bf
      /\ GetSatHumRatio psy ta (ps_p (c_indoor c)) = Ok wa
      /\ coil_split tol (m * (1 - bf)) (celsius (c_indoor c)) wi ta wa q s
      /\ q <> 0 /\ 0 <= s.
  Proof.
    intros [W E] Q H. destruct (sensible_inv _ _ _ _ _ _ HM H) as [N H0]. clear H. rename H0 into H.
    unfold nrel_gross_sensible_cooling_capacity in H. rewrite Q in H. cbn [rbind] in H.
    rewrite E in H. cbn [rbind] in H.
    destruct (c_mass_airflow c) as [m|] eqn:Em; [|discriminate]. cbn [need rbind] in H.
    apply rbind_ok in H. destruct H as (bf & B & H).
    apply rbind_ok in H. destruct H as (x & X & H). apply pydiv_inv in X. destruct X as [K X].
    rewrite lit1_R in K, X. cbn [nmul nsub RNum] in *. cbv zeta in H.
    apply rbind_ok in H. destruct H as (ta & TA & H).
    apply rbind_ok in H. destruct H as (wa & WA & H).
    apply rbind_ok in H. destruct H as (hs & HS & H).
    apply pydiv_inv in H. destruct H as [D H].
    destruct Hair as [A1 A2]. destruct (A2 _ _ _ WA) as [L SE].
    apply Hsol in TA. destruct TA as (e & Te & Be). rewrite SE in Te. cbn [rbind] in Te.
    apply Ok_inj in Te.
    change (db_C (c_indoor c)) with (to_C (ps_db (c_indoor c))) in HS.
    assert (TC : to_C (ps_db (c_indoor c)) = celsius (c_indoor c)) by (unfold to_C, celsius; rnum; lra).
    rewrite TC in HS. rewrite A1 in HS by exact L. apply Ok_inj in HS.
    exists m, bf, ta, wa. do 3 (split; [first [reflexivity|assumption]|]).
    set (ti := celsius (c_indoor c)) in *. set (k := m * (1 - bf)) in *.
    assert (Qx : q = k * x) by (rewrite X; field; exact K).
    assert (Xn : x <> 0) by (intros Z; apply D; rewrite Z; ring).
    assert (S : s = k * (hs - (moist_enthalpy ti wi - x))).
    { rewrite H, Qx. field. intros Z; apply Xn; lra. }
    clearbody ti. clear H D. clearbody k.
    split; [|split; [|exact N]].
    2: { rewrite Qx. intros Z. apply Rmult_integral in Z. destruct Z; auto. }
    split; [exact K|]. split; [|split].
    - rewrite <- X. replace (x - (moist_enthalpy ti wi - moist_enthalpy ta wa)) with e by lra. exact Be.
    - rewrite S, Qx, <- HS. unfold moist_enthalpy. lra.
    - replace (s - k * (ti - ta) * (1006 + 1860 * wa)) with (k * e).
      + rewrite Rabs_mult. apply Rmult_le_compat_l; [apply Rabs_pos|exact Be].
      + rewrite S, <- HS, <- Te. unfold moist_enthalpy. lra.
  Qed.

  Lemma shr_verdict (u : dxunit R) c wi q s :
    air_at psy (c_indoor c) wi -> -1000 < celsius (c_indoor c) ->
    gross_total_cooling_capacity M u (Some c) = Ok q ->
    gross_sensible_cooling_capacity M u (Some c) = Ok s ->
    (exists m bf, c_mass_airflow c = Some m /\ 0 < m /\ bypass_factor u c = Ok bf /\ bf < 1) ->
    exists ta wa,
      GetSatHumRatio psy ta (ps_p (c_indoor c)) = Ok wa
      /\ (exists k, 0 < k /\ coil_split tol k (celsius (c_indoor c)) wi ta wa q s)
      /\ (wa <= wi -> s <= q /\ gross_shr M u (Some c) = Ok (s / q))
      /\ (wi < wa -> q < s /\ gross_shr M u (Some c) = Err PyException).
  Proof.
    intros A T Q S (m & bf & Em & Pm & B & L).
    destruct (split u c wi q s A Q S) as (m' & bf' & ta & wa & Em' & B' & WA & C & Qn & N).
    rewrite Em in Em'. injection Em' as <-. rewrite B in B'. apply Ok_inj in B'. subst bf'.
    exists ta, wa. split; [exact WA|].
    set (k := m * (1 - bf)) in *. assert (Pk : 0 < k) by (unfold k; apply Rmult_lt_0_compat; lra).
    clearbody k.
    split; [exists k; split; assumption|].
    assert (Qp : 0 <= q).
    { revert Q. unfold gross_total_cooling_capacity, cooling_conditions, checked_product. cbn [rbind].
      intros Q. apply rbind_ok in Q. destruct Q as (a & _ & Q). apply rbind_ok in Q.
      destruct Q as (b & _ & Q). apply limit_check_inv in Q. lra. }
    destruct C as (_ & _ & C & _). set (t := celsius (c_indoor c)) in *. clearbody t.
    assert (V : 0 < k * (2501000 + 1860 * t)) by (apply Rmult_lt_0_compat; lra).
    assert (C' : q - s = (wi - wa) * (k * (2501000 + 1860 * t))) by lra. clear C.
    unfold gross_shr, both. rewrite S, Q. cbn [rbind]. rewrite pydiv_ok by exact Qn. cbn [rbind].
    unfold limit_check. rewrite lit0_R, lit1_R. cbn [nltb RNum].
    assert (P0 : 0 <= s / q) by (apply Rmult_le_pos; [lra|apply Rlt_le, Rinv_0_lt_compat; lra]).
    destruct (Rltb_spec (s / q) 0) as [Z|_]; [exfalso; lra|]. cbn [rbind].
    split; intros Cw.
    - assert (SQ : s <= q) by (assert (0 <= (wi - wa) * (k * (2501000 + 1860 * t))) by (apply Rmult_le_pos; lra); lra).
      split; [exact SQ|].
      assert (s / q <= 1) by (apply (Rmult_le_reg_r q); [lra|]; unfold Rdiv; rewrite Rmult_assoc, Rinv_l by lra; lra).
      destruct (Rltb_spec 1 (s / q)) as [Z|_]; [exfalso; lra|]. reflexivity.
    - assert (SQ : q < s) by (assert (0 < (wa - wi) * (k * (2501000 + 1860 * t))) by (apply Rmult_lt_0_compat; lra); lra).
      split; [exact SQ|].
      assert (1 < s / q) by (apply (Rmult_lt_reg_r q); [lra|]; unfold Rdiv; rewrite Rmult_assoc, Rinv_l by lra; lra).
      destruct (Rltb_spec 1 (s / q)) as [_|Z]; [|exfalso; lra]. reflexivity.
  Qed.
End Split.

(** With no total capacity the division by the enthalpy difference fails. *)
Lemma no_capacity psy sol M u c : adp_model psy sol M ->
  gross_total_cooling_capacity M u (Some c) = Ok 0 ->
  forall s, gross_sensible_cooling_capacity M u (Some c) <> Ok s.
Proof.
  intros HM Q s H. destruct (sensible_inv _ _ _ _ _ _ HM H) as [N H0]. clear H. rename H0 into H.
  unfold nrel_gross_sensible_cooling_capacity in H. rewrite Q in H. cbn [rbind] in H.
  apply rbind_ok in H. destruct H as (hi & _ & H).
  apply rbind_ok in H. destruct H as (m & _ & H).
  apply rbind_ok in H. destruct H as (bf & _ & H).
  apply rbind_ok in H. destruct H as (x & X & H). apply pydiv_inv in X. destruct X as [K X].
  cbv zeta in H.
  apply rbind_ok in H. destruct H as (ta & _ & H).
  apply rbind_ok in H. destruct H as (wa & _ & H).
  apply rbind_ok in H. destruct H as (hs & _ & H).
  apply pydiv_inv in H. destruct H as [D _]. apply D. cbn [nsub RNum].
  rewrite X. unfold Rdiv. ring.
Qed.
