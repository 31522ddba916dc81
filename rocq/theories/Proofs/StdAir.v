(** Standard air (psychrometrics.py:130): dry air at 70 °F and one atmosphere. *)
From Coq Require Import QArith Reals Lra List String.
From Verif.Base Require Import Num Res Tac.
From Verif.Model Require Import Units Psychrometrics Conditions.
Import ListNotations.
Local Open Scope R_scope.

Lemma seventy : to_C (T:=R) (fr_F (lit 70)) = (70 - 32) * 5 / 9.
Proof. unfold to_C, fr_F. rnum. lra. Qed.
Lemma atm_pa : atm (T:=R) = 101325.
Proof. unfold atm. rnum. lra. Qed.

Lemma std_air : forall psy w rho,
  GetTWetBulbFromHumRatio psy ((70 - 32) * 5 / 9) 0 101325 = Ok w ->
  GetMoistAirDensity psy ((70 - 32) * 5 / 9) 0 101325 = Ok rho ->
  std_rho psy = Ok rho.
Proof.
  intros psy w rho W D. unfold std_rho, STANDARD_CONDITIONS, PsychState, rho_of, obs, get_rho, set_hr, get_hr.
  cbn [List.length Nat.ltb Nat.leb has_kw List.find String.eqb Ascii.eqb Bool.eqb fst snd].
  rewrite lit0_R, atm_pa.
  unfold sbind, sget, slift, smod, sret, set_wb, blank, put_wb, put_hr, set_rho, put_rho, db_C.
  cbn [ps_wb ps_db ps_p ps_hr ps_rho].
  rewrite seventy, W. cbn [rbind ps_wb ps_db ps_p ps_hr ps_rho].
  unfold smod, sret. cbn [ps_wb ps_db ps_p ps_hr ps_rho rbind fst snd].
  rewrite seventy, D. reflexivity.
Qed.
