(** Proofs for C67 and C68. *)
From Coq Require Import Reals QArith Lra Psatz Lia List Bool String.
From Verif.Base Require Import Num Res Tac.
From Verif.Model Require Import Units Util Psychrometrics Conditions Defrost Fan Curves
  Tabular Unit DXUnit.
From Verif.Spec Require Import PsychSpec RatingSpec CoilSpec.
From Verif.Proofs Require Import UnitsR PsychProofs.
Import ListNotations.
Local Open Scope R_scope.

Lemma psych_h psy db p h s :
  PsychState psy db p [("enthalpy"%string, h)] = Ok s ->
  ps_db s = db /\ ps_p s = p /\ h_of psy s = Ok h.
Proof.
  intros H. apply PsychState_reads_back in H.
  destruct H as (H1 & H2 & H3 & a & K & V). injection K as <-.
  repeat (split; [assumption|]).
  destruct (read_attr_val psy A_h s H3) as (E & _). rewrite <- V, <- E. reflexivity.
Qed.

Lemma psych_w psy db p w s :
  PsychState psy db p [("hum_rat"%string, w)] = Ok s ->
  ps_db s = db /\ ps_p s = p /\ hr_of psy s = Ok w.
Proof.
  intros H. apply PsychState_reads_back in H.
  destruct H as (H1 & H2 & H3 & a & K & V). injection K as <-.
  repeat (split; [assumption|]).
  destruct (read_attr_val psy A_hr s H3) as (E & _). rewrite <- V, <- E. reflexivity.
Qed.

Section C.
  Variables (psy : psychro R) (sol : solvers R) (M : dxmodel R).

  Lemma cp_nz m : m * C_p (T:=R) <> 0 -> m <> 0.
  Proof. intros H E. apply H. rewrite E. apply Rmult_0_l. Qed.

  Lemma cp_R : C_p (T:=R) = 1006.
  Proof. unfold C_p. rnum. lra. Qed.

  Lemma outlet_balance u c over o :
    gross_cooling_outlet_state psy M u (Some c) over = Ok o ->
    exists m q qs,
      c_mass_airflow c = Some m /\ m <> 0
      /\ gross_total_cooling_capacity M u (Some c) = Ok q
      /\ match over with
         | Some x => qs = x
         | None => gross_sensible_cooling_capacity M u (Some c) = Ok qs
         end
      /\ cooled psy m q qs (c_indoor c) o.
  Proof.
    unfold gross_cooling_outlet_state, cooling_conditions. cbn [rbind]. intros H.
    apply rbind_ok in H. destruct H as (qs & Hs & H).
    apply rbind_ok in H. destruct H as (h_i & Hi & H).
    apply rbind_ok in H. destruct H as (m & Hm & H). apply need_ok in Hm.
    apply rbind_ok in H. destruct H as (q & Hq & H).
    apply rbind_ok in H. destruct H as (dh & Hd & H). apply pydiv_inv in Hd.
    apply rbind_ok in H. destruct H as (dt & Ht & H). apply pydiv_inv in Ht.
    apply psych_h in H. destruct H as (D & P & Ho).
    destruct Hd as (Zm & ->). destruct Ht as (Zc & ->).
    exists m, q, qs. split; [exact Hm|]. split; [exact Zm|]. split; [exact Hq|].
    split; [destruct over; congruence|].
    exists h_i, (h_i - q / m). split; [exact Hi|]. split; [exact Ho|].
    split; [field; exact Zm|]. split; [|exact P].
    rewrite D, cp_R. cbn [nsub nmul RNum].
    rewrite cp_R in Zc. cbn [nmul RNum] in Zc. field. exact Zm.
  Qed.

  Lemma heat_balance u c o :
    gross_heating_output_state psy M u (Some c) = Ok o ->
    exists m q,
      c_mass_airflow c = Some m /\ m <> 0
      /\ gross_steady_state_heating_capacity M u (Some c) = Ok q
      /\ heated psy m q (c_indoor c) o.
  Proof.
    unfold gross_heating_output_state, heating_conditions. cbn [rbind]. intros H.
    apply rbind_ok in H. destruct H as (q & Hq & H).
    apply rbind_ok in H. destruct H as (m & Hm & H). apply need_ok in Hm.
    apply rbind_ok in H. destruct H as (dt & Ht & H). apply pydiv_inv in Ht.
    apply rbind_ok in H. destruct H as (w & Hw & H).
    apply psych_w in H. destruct H as (D & P & Ho). destruct Ht as (Zc & ->).
    pose proof (cp_nz m Zc) as Zm.
    exists m, q. split; [exact Hm|]. split; [exact Zm|]. split; [exact Hq|].
    exists w. split; [exact Hw|]. split; [exact Ho|]. split; [|exact P].
    rewrite D, cp_R. cbn [nadd nmul RNum]. field. exact Zm.
  Qed.

  (** Without conditions the methods use the rating conditions. *)
  Lemma outlet_default u c over :
    rc_A_full (u_conds u) = Some c ->
    gross_cooling_outlet_state psy M u None over
    = gross_cooling_outlet_state psy M u (Some c) over.
  Proof.
    intros E. unfold gross_cooling_outlet_state, cooling_conditions. rewrite E. reflexivity.
  Qed.
  Lemma heat_default u c :
    rc_H1_full (u_conds u) = Some c ->
    gross_heating_output_state psy M u None = gross_heating_output_state psy M u (Some c).
  Proof.
    intros E. unfold gross_heating_output_state, heating_conditions. rewrite E. reflexivity.
  Qed.

  Lemma adp_ok tol i o a :
    newton_finds_roots tol sol ->
    calculate_adp_state psy sol i o = Ok a ->
    ps_db i <> ps_db o
    /\ (ps_db o < ps_db i -> exists k, 0 <= k < 1 /\ apparatus_dew_point psy tol i o a k).
  Proof.
    intros N. unfold calculate_adp_state. cbv zeta. intros H.
    apply rbind_ok in H. destruct H as (wi & Hi & H).
    apply rbind_ok in H. destruct H as (wo & Ho & H).
    apply rbind_ok in H. destruct H as (ta & Ht & H).
    apply rbind_ok in H. destruct H as (wa & Hw & H).
    apply rbind_ok in Hw. destruct Hw as (s & Hs & Hw). pose proof Hs as Hs0.
    apply pydiv_inv in Hs.
    destruct Hs as (Z & Es). apply Ok_inj in Hw.
    unfold db_C, to_C in *. cbn [nsub nmul RNum] in *.
    set (k0 := lit (T:=R) 273.15) in *.
    split. { intros E. apply Z. rewrite E. ring. }
    intros Lt.
    destruct (N _ _ _ Ht) as (e & He & Ae).
    apply rbind_ok in He. destruct He as (sat & Hsat & He).
    rewrite Hs0 in He. cbn [rbind] in He. apply Ok_inj in He.
    destruct (orb _ _) eqn:B; [discriminate|]. apply orb_false_iff in B.
    cbn [nltb RNum] in B. destruct B as (B1 & B2).
    destruct (Rltb_spec (ps_db o - k0) ta) as [|L1]; [discriminate|].
    destruct (Rltb_spec wo wa) as [|L2]; [discriminate|].
    apply psych_w in H. destruct H as (D & P & Ha).
    unfold fr_C in D. fold k0 in D. cbn [nadd RNum] in D.
    assert (K : k0 = 273.15) by (unfold k0; rnum; lra).
    exists ((ps_db o - k0 - ta) / (ps_db i - k0 - ta)).
    assert (Pos : 0 < ps_db i - k0 - ta) by lra.
    split.
    { split.
      - apply Rmult_le_pos; [lra|]. left. apply Rinv_0_lt_compat. exact Pos.
      - apply (Rmult_lt_reg_r (ps_db i - k0 - ta)); [exact Pos|].
        unfold Rdiv. rewrite Rmult_assoc, Rinv_l by lra. lra. }
    exists wi, wo, wa, sat. split; [exact Hi|]. split; [exact Ho|]. split; [exact Ha|].
    split. { rewrite D, P, <- K. replace (ta + k0 - k0) with ta by ring.
      rewrite lit1_R in Hsat. exact Hsat. }
    split. { rewrite <- Hw. cbn [nsub RNum] in He. rewrite He. exact Ae. }
    split; [exact P|]. split; [lra|]. split; [lra|].
    split. { rewrite D. field. lra. }
    rewrite <- Hw, Es. field. split; lra.
  Qed.

  Lemma adp_equal_temperatures i o :
    ps_db o = ps_db i -> exists e, calculate_adp_state psy sol i o = Err e.
  Proof.
    intros E. destruct (calculate_adp_state psy sol i o) as [a|e] eqn:H; [|eauto]. exfalso.
    unfold calculate_adp_state in H. cbv zeta in H.
    apply rbind_ok in H. destruct H as (wi & Hi & H).
    apply rbind_ok in H. destruct H as (wo & Ho & H).
    apply rbind_ok in H. destruct H as (ta & Ht & H).
    apply rbind_ok in H. destruct H as (wa & Hw & H).
    apply rbind_ok in Hw. destruct Hw as (s & Hs & Hw).
    apply pydiv_inv in Hs. destruct Hs as (Z & _). apply Z.
    unfold db_C. rewrite E. cbn [nsub RNum]. ring.
  Qed.

  (** The whole method, from conditions. *)
  Lemma adp_state_ok tol u c a :
    newton_finds_roots tol sol ->
    adp_state psy sol M u (Some c) = Ok a ->
    exists m q qs o,
      c_mass_airflow c = Some m
      /\ gross_total_cooling_capacity M u (Some c) = Ok q
      /\ gross_sensible_cooling_capacity M u (Some c) = Ok qs
      /\ cooled psy m q qs (c_indoor c) o
      /\ qs <> 0
      /\ (0 < qs * m ->
          exists k, 0 <= k < 1 /\ apparatus_dew_point psy tol (c_indoor c) o a k).
  Proof.
    intros N H. unfold adp_state in H.
    apply rbind_ok in H. destruct H as (o & Ho & H). cbn [rbind need] in H.
    apply outlet_balance in Ho. destruct Ho as (m & q & qs & Hm & Zm & Hq & Hs & B).
    destruct (adp_ok tol _ _ _ N H) as (Ne & F).
    exists m, q, qs, o. do 4 (split; [assumption|]).
    destruct B as (h_i & h_o & _ & _ & _ & E & _).
    split.
    - intros Z. apply Ne. rewrite Z in E. apply Rmult_integral in E. destruct E as [E|E].
      + exfalso. apply Rmult_integral in E. destruct E; [auto|lra].
      + lra.
    - intros L. apply F. rewrite <- E in L.
      assert (S2 : 0 < m * m) by (apply Rsqr_pos_lt in Zm; exact Zm).
      apply Rnot_le_lt. intros C. nra.
  Qed.

  Lemma adp_state_none u :
    exists e, adp_state psy sol M u None = Err e.
  Proof.
    unfold adp_state. destruct (gross_cooling_outlet_state _ _ _ _ _); cbn [rbind need]; eauto.
  Qed.
  Lemma adp_state_none_attr u o :
    gross_cooling_outlet_state psy M u None None = Ok o ->
    adp_state psy sol M u None = Err AttributeError.
  Proof. intros E. unfold adp_state. rewrite E. reflexivity. Qed.
  Lemma adp_state_no_default u :
    (exists e, adp_state psy sol M u None = Err e)
    /\ forall o, gross_cooling_outlet_state psy M u None None = Ok o ->
       adp_state psy sol M u None = Err AttributeError.
  Proof. split; [apply adp_state_none | apply adp_state_none_attr]. Qed.
End C.
