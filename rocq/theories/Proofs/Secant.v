(** A sound root finder, and a coil calculated with it, for the examples beside the rating
    theorems. *)
From Coq Require Import Reals QArith Lra Psatz Lia List Bool String.
From Verif.Base Require Import Num Res Tac.
From Verif.Model Require Import Units Util Psychrometrics Conditions Defrost Fan Curves
  Tabular Unit NREL BaseModel Title24 Resnet DXUnit RatingSolver.
From Verif.Spec Require Import RatingSpec.
From Verif.Proofs Require Import UnitsR MakeCond ToyBuild.
Import ListNotations.
Local Open Scope R_scope.

(** Stops at [x] only if the function is zero there. *)
Definition check_root (x : R) (no : R -> prober R) : prober R :=
  PAsk x (fun e => if Req_EM_T e 0 then PDone x else no e).
(** One secant step from 3.5 and 4.5. *)
Definition secant : prober R :=
  check_root 3.5 (fun e0 => check_root 4.5 (fun e1 =>
    check_root (3.5 - e0 / (e1 - e0)) (fun _ => PFail RuntimeError))).
Definition rt_sol : solvers R := {| brentq := fun _ a _ => Ok a; newton := fun _ => secant |}.

Lemma check_root_sound f x no y :
  (forall e, run_prober_pure f (no e) = Ok y -> f y = Ok 0) ->
  run_prober_pure f (check_root x no) = Ok y -> f y = Ok 0.
Proof.
  intros N H. cbn [check_root run_prober_pure] in H. apply rbind_ok in H. destruct H as (e & E & H).
  destruct (Req_EM_T e 0) as [->|D]; [|exact (N _ H)].
  cbn [run_prober_pure] in H. apply Ok_inj in H. congruence.
Qed.
Lemma rt_sol_sound : newton_finds_roots 0 rt_sol.
Proof.
  intros f g x H. exists 0. split; [|rewrite Rabs_R0; lra].
  revert H. apply check_root_sound. intros e0. apply check_root_sound. intros e1.
  apply check_root_sound. intros e2 H. discriminate H.
Qed.

Lemma secant_affine f a b : (forall t, f t = Ok (a + b * t)) -> b <> 0 ->
  run_prober_pure f secant = Ok (- a / b).
Proof.
  intros F B. unfold secant, check_root. cbn [run_prober_pure]. rewrite F. cbn [rbind].
  destruct (Req_EM_T _ 0) as [E|E].
  { cbn [run_prober_pure]. f_equal. apply (Rmult_eq_reg_r b); [|exact B].
    replace (- a / b * b) with (- a) by (field; exact B). lra. }
  cbn [run_prober_pure]. rewrite F. cbn [rbind].
  destruct (Req_EM_T (a + b * 4.5) 0) as [E1|E1].
  { cbn [run_prober_pure]. f_equal. apply (Rmult_eq_reg_r b); [|exact B].
    replace (- a / b * b) with (- a) by (field; exact B). lra. }
  cbn [run_prober_pure]. rewrite F. cbn [rbind].
  assert (X : 3.5 - (a + b * 3.5) / (a + b * 4.5 - (a + b * 3.5)) = - a / b).
  { replace (a + b * 4.5 - (a + b * 3.5)) with b by lra. field. exact B. }
  rewrite X. destruct (Req_EM_T _ 0) as [_|E2]; [reflexivity|].
  exfalso. apply E2. field. exact B.
Qed.

Lemma coil_rt K s qs m q :
  16000 < K < 16500 -> 0.7 < s < 0.73 -> m <> 0 -> q / m = K -> qs = s * q ->
  exists outlet adp h_i h_o h_a,
    PsychState lin_psy (ps_db inC - qs / (m * 1006)) (ps_p inC)
      [("enthalpy"%string, (1006 * to_C (fr_F (lit 80)) + 2500000 * 0.0112) - q / m)]
    = Ok outlet
    /\ calculate_adp_state lin_psy rt_sol inC outlet = Ok adp
    /\ h_of lin_psy inC = Ok h_i /\ h_of lin_psy outlet = Ok h_o
    /\ h_of lin_psy adp = Ok h_a /\ h_a < h_o < h_i.
Proof.
  intros [B1 B2] [S1 S2] M Q ->.
  assert (T : s * q / (m * 1006) = s * K / 1006) by (rewrite <- Q; field; lra).
  rewrite T, Q. clear T Q.
  assert (L1 : 0.7 * 16000 <= s * K) by (apply Rmult_le_compat; lra).
  assert (L2 : s * K <= 0.73 * 16500) by (apply Rmult_le_compat; lra).
  assert (L3 : 0.27 * 16000 <= (1 - s) * K) by (apply Rmult_le_compat; lra).
  assert (L4 : (1 - s) * K <= 0.3 * 16500) by (apply Rmult_le_compat; lra).
  set (x := s * K) in *. set (y := (1 - s) * K) in *.
  assert (XY : K = x + y) by (unfold x, y; ring).
  assert (YX : y / x = (1 - s) / s) by (unfold x, y; field; split; lra).
  assert (Ti : to_C (T:=R) (fr_F (lit 80)) = 80 / 3).
  { unfold to_C, fr_F. rnum. lra. }
  assert (To : to_C (T:=R) (ps_db inC - x / 1006) = 80 / 3 - x / 1006).
  { change (ps_db inC) with (fr_F (T:=R) (lit 80)). revert Ti. unfold to_C. rnum.
    intros Ti. lra. }
  set (wo := (1006 * to_C (fr_F (lit 80)) + 2500000 * 0.0112 - K
       - 1006 * to_C (ps_db inC - x / 1006)) / 2500000).
  assert (Wo : wo = 0.0112 - y / 2500000).
  { unfold wo. rewrite Ti, To. lra. }
  set (sl := (0.0112 - wo) / (80 / 3 - (80 / 3 - x / 1006))).
  assert (Sl : sl = (1 - s) / s * (1006 / 2500000)).
  { unfold sl. rewrite Wo, <- YX.
    replace (80 / 3 - (80 / 3 - x / 1006)) with (x / 1006) by lra.
    replace (0.0112 - (0.0112 - y / 2500000)) with (y / 2500000) by lra. field. lra. }
  assert (R1 : 0.369 < (1 - s) / s).
  { apply (Rmult_lt_reg_r s); [lra|]. replace ((1 - s) / s * s) with (1 - s) by (field; lra). lra. }
  assert (R2 : (1 - s) / s < 0.429).
  { apply (Rmult_lt_reg_r s); [lra|]. replace ((1 - s) / s * s) with (1 - s) by (field; lra). lra. }
  assert (SB : 0.000148 < sl < 0.000173) by (rewrite Sl; lra).
  set (ta := - (0.0076 - 0.0112 + sl * (80 / 3)) / - sl).
  assert (TA : sl * (80 / 3 - ta) = 0.0036) .
  { unfold ta. set (z := 0.0076 - 0.0112 + sl * (80 / 3)).
    replace (sl * (80 / 3 - - z / - sl)) with (sl * (80 / 3) - z) by (field; lra). unfold z. lra. }
  assert (TB : ta < 80 / 3 - x / 1006).
  { apply Rnot_le_lt. intros C. assert (D : sl * (80 / 3 - ta) <= 0.000173 * 12).
    { destruct (Rle_dec 0 (80 / 3 - ta)); [apply Rmult_le_compat; lra|]. 
      assert (sl * (80 / 3 - ta) <= 0); [|lra].
      rewrite <- (Rmult_0_r sl). apply Rmult_le_compat_l; lra. }
    lra. }
  eexists. eexists. eexists. eexists. eexists.
  split; [reflexivity|]. split.
  { unfold calculate_adp_state. cbv zeta.
    change (hr_of lin_psy inC) with (Ok (A:=R) 0.0112).
    change (hr_of lin_psy _) with (Ok (A:=R) ((1006 * to_C (fr_F (lit 80)) + 2500000 * 0.0112 - K
       - 1006 * to_C (ps_db inC - x / 1006)) / 2500000)).
    fold wo.
    change (db_C (put_h _ _)) with (to_C (ps_db inC - x / 1006)).
    change (db_C inC) with (to_C (T:=R) (fr_F (lit 80))).
    rewrite Ti, To. cbn [rbind].
    change (newton rt_sol (80 / 3)) with secant.
    assert (NZ : 80 / 3 - (80 / 3 - x / 1006) <> 0) by (apply Rgt_not_eq; lra).
    rewrite (secant_affine _ (0.0076 - 0.0112 + sl * (80 / 3)) (- sl)).
    2:{ intros t. change (GetHumRatioFromRelHum lin_psy t (lit 1) (ps_p inC)) with (Ok (A:=R) 0.0076).
        cbn [rbind nsub nmul RNum]. rewrite pydiv_ok by exact NZ. cbn [rbind]. f_equal. fold sl. ring. }
    2:lra.
    cbn [rbind nsub nmul RNum]. rewrite pydiv_ok by exact NZ. fold sl. fold ta. cbn [rbind]. rewrite TA.
    cbn [nltb RNum].
    destruct (Rltb_spec (80 / 3 - x / 1006) ta) as [C|_]; [exfalso; lra|].
    destruct (Rltb_spec wo (0.0112 - 0.0036)) as [C|_]; [exfalso; lra|].
    cbn [orb]. reflexivity. }
  split; [reflexivity|]. split; [reflexivity|]. split; [reflexivity|].
  change (db_C _) with (to_C (fr_C (T:=R) ta)) at 1. cbn [snd].
  change (db_C inC) with (to_C (T:=R) (fr_F (lit 80))). rewrite Ti.
  replace (to_C (T:=R) (fr_C ta)) with ta by (unfold to_C, fr_C; rnum; lra).
  split; lra.
Qed.
