(** Examples for C101: a damp and a dry room. *)
From Coq Require Import Reals QArith Lra Psatz Lia List Bool String.
From Verif.Base Require Import Num Res Tac.
From Verif.Model Require Import Units Util Psychrometrics Conditions Defrost Fan Curves
  Tabular Unit BaseModel NREL Resnet DXUnit.
From Verif.Spec Require Import PsychSpec NrelSpec RatingSpec SensibleSpec.
From Verif.Proofs Require Import UnitsR PsychProofs NrelProofs ToyUnit ToyBuild ToyIdf ToyCoil Sensible.
Import ListNotations.
Local Open Scope R_scope.

(** A room of humidity ratio [w]; a saturation line through that of 10 C. *)
Definition room_psy (w : R) : psychro R := {|
  GetHumRatioFromTWetBulb := fun _ _ _ => Ok w;
  GetTWetBulbFromHumRatio := GetTWetBulbFromHumRatio lin_psy;
  GetTWetBulbFromRelHum := GetTWetBulbFromRelHum lin_psy;
  GetMoistAirEnthalpy := fun t w => Ok (moist_enthalpy t w);
  GetHumRatioFromEnthalpyAndTDryBulb := GetHumRatioFromEnthalpyAndTDryBulb lin_psy;
  GetMoistAirDensity := GetMoistAirDensity lin_psy;
  GetSatHumRatio := fun t _ => Ok (Rmax 0.001 (0.0076 + 0.0005 * (t - 10)));
  GetSatAirEnthalpy := fun t _ => Ok (moist_enthalpy t (Rmax 0.001 (0.0076 + 0.0005 * (t - 10))));
  GetTDryBulbFromEnthalpyAndHumRatio := GetTDryBulbFromEnthalpyAndHumRatio lin_psy;
  GetRelHumFromTWetBulb := GetRelHumFromTWetBulb lin_psy;
  GetHumRatioFromRelHum := GetHumRatioFromRelHum lin_psy
|}.

(** [toy_unit] with a coil of bypass factor [b] at 1.2 kg/s. *)
Definition coil_unit (b : R) : dxunit R :=
  mkUnit [] (Some 14) (Some 12) (Some 8) None BETWEEN_LOW_FULL true 325
    (toy_defrost DCDemand DSReverseCycle) 283
    AHRI_210_240_2023 0 SINGLE_STAGE 240 None
    (toy_side [10000] [10300] [300] [4] [2500] [2200] [103 / 22] [1])
    (toy_side [10000] [9700] [300] [4] [2500] [2200] [97 / 22] [1])
    [None] [Some b] [Some (- 1.2 * ln b)] (Some 125) (Some toy_fan) (Some 0) toy_conds toy_rn.

Lemma room_air w : 1 / 10000000 <= w -> ashrae_air (room_psy w).
Proof.
  intros H. split; [reflexivity|]. intros t p v E. cbn [room_psy GetSatHumRatio] in E.
  apply Ok_inj in E. subst v. split; [|reflexivity].
  pose proof (Rmax_l 0.001 (0.0076 + 0.0005 * (t - 10))). lra.
Qed.

Definition cond_A : cond R := toy_cond 300 290 308 1.
Definition qtot : R := cool_cap_flow 1 * (cool_cap_T (curve_wb 290) (curve_odb 308) * 10300).

Lemma qtot_bounds : 9500 < qtot < 10500.
Proof.
  unfold qtot, cool_cap_flow, curve_wb, curve_odb, clamp, degF.
  replace (Rmax 57 (Rmin 72 (290 * 9 / 5 - 459.67))) with 62.33.
  2: { unfold Rmax, Rmin; repeat destruct (Rle_dec _ _); lra. }
  replace (Rmax 75 (308 * 9 / 5 - 459.67)) with 94.73.
  2: { unfold Rmax; repeat destruct (Rle_dec _ _); lra. }
  unfold cool_cap_T. lra.
Qed.

Lemma tot_at psy sol b : gross_total_cooling_capacity (NRELDXModel psy sol) (coil_unit b) (Some cond_A) = Ok qtot.
Proof.
  unfold gross_total_cooling_capacity, cooling_conditions, checked_product. cbn [rbind].
  cbn [NRELDXModel md_gtc md_f_gtc].
  rewrite (gtc_eq (coil_unit b) cond_A 290 1 10300 eq_refl eq_refl eq_refl). cbn [rbind].
  rewrite grading_zero by reflexivity. cbn [rbind nmul RNum].
  change (ps_db (c_outdoor cond_A)) with 308. fold qtot. rewrite Rmult_1_r.
  apply limit_check_pos. pose proof qtot_bounds. lra.
Qed.

Lemma bf_at b : 0 < b -> bypass_factor (coil_unit b) cond_A = Ok b.
Proof.
  intros B. unfold bypass_factor. change (arr (u_ntu (coil_unit b)) (c_speed cond_A)) with (Ok (- 1.2 * ln b)).
  cbn [rbind]. change (c_mass_airflow cond_A) with (Some (1 * 1.2)). cbn [need rbind].
  rewrite lit0_R. cbn [nsub RNum]. rewrite pydiv_ok by lra. cbn [rbind nexp RNumX].
  replace ((0 - - 1.2 * ln b) / (1 * 1.2)) with (ln b) by lra.
  f_equal. apply exp_ln. exact B.
Qed.

(** The humidity of the room for which the apparatus dew point is 10 C. *)
Definition room (b : R) : R :=
  (moist_enthalpy 10 0.0076 + qtot / (1.2 * (1 - b)) - 1006 * 26.85) / (2501000 + 1860 * 26.85).

Lemma room_enth b : moist_enthalpy 26.85 (room b) = moist_enthalpy 10 0.0076 + qtot / (1.2 * (1 - b)).
Proof.
  set (x := qtot / (1.2 * (1 - b))).
  assert (W : room b * (2501000 + 1860 * 26.85) = moist_enthalpy 10 0.0076 + x - 1006 * 26.85).
  { unfold room. fold x. unfold Rdiv. rewrite Rmult_assoc, Rinv_l by lra. ring. }
  set (r := room b) in *. clearbody r. revert W. unfold moist_enthalpy. lra.
Qed.

Lemma sens_at_room b : 0 < b < 1 ->
  0 <= qtot - 1.2 * (1 - b) * (room b - 0.0076) * (2501000 + 1860 * 26.85) ->
  1 / 10000000 <= room b ->
  let psy := room_psy (room b) in
  air_at psy (c_indoor cond_A) (room b)
  /\ gross_sensible_cooling_capacity (NRELDXModel psy ask_sol) (coil_unit b) (Some cond_A)
     = Ok (qtot - 1.2 * (1 - b) * (room b - 0.0076) * (2501000 + 1860 * 26.85)).
Proof.
  intros B P L psy.
  assert (TC : to_C (T:=R) 300 = 26.85) by (unfold to_C; rnum; lra).
  assert (A : h_of psy (c_indoor cond_A) = Ok (moist_enthalpy 26.85 (room b))).
  { change (h_of psy (c_indoor cond_A)) with (Ok (moist_enthalpy (to_C (T:=R) 300) (room b))).
    rewrite TC. reflexivity. }
  split.
  { split; [reflexivity|]. rewrite A. do 2 f_equal. unfold celsius. cbn. lra. }
  unfold gross_sensible_cooling_capacity, cooling_conditions. cbn [rbind].
  change (md_gsc (NRELDXModel psy ask_sol) (coil_unit b) cond_A) with
    (nrel_gross_sensible_cooling_capacity psy ask_sol
      (fun u c => gross_total_cooling_capacity (NRELDXModel psy ask_sol) u (Some c)) (coil_unit b) cond_A).
  unfold nrel_gross_sensible_cooling_capacity. rewrite tot_at. cbn [rbind]. rewrite A. cbn [rbind].
  change (c_mass_airflow cond_A) with (Some (1 * 1.2)). cbn [need rbind].
  rewrite bf_at by lra. cbn [rbind]. rewrite lit1_R. cbn [nmul nsub RNum].
  assert (K : 1 * 1.2 * (1 - b) <> 0) by (apply Rgt_not_eq; apply Rmult_lt_0_compat; lra).
  rewrite pydiv_ok by exact K. cbn [rbind]. cbv zeta. cbn [nsub RNum].
  replace (1 * 1.2 * (1 - b)) with (1.2 * (1 - b)) in * by ring.
  assert (E0 : moist_enthalpy 26.85 (room b) - qtot / (1.2 * (1 - b)) = moist_enthalpy 10 0.0076)
    by (rewrite room_enth; lra).
  rewrite E0.
  assert (MX : Rmax 0.001 (0.0076 + 0.0005 * (10 - 10)) = 0.0076).
  { replace (0.0076 + 0.0005 * (10 - 10)) with 0.0076 by lra. apply Rmax_right. lra. }
  cbn [ask_sol newton run_prober_pure].
  subst psy. cbn [room_psy GetSatAirEnthalpy rbind]. rewrite MX.
  destruct (Reqb_spec (moist_enthalpy 10 0.0076 - moist_enthalpy 10 0.0076) 0) as [_|Z]; [|exfalso; apply Z; ring].
  cbn [run_prober_pure rbind GetSatHumRatio room_psy]. rewrite MX. cbn [GetMoistAirEnthalpy rbind room_psy].
  change (db_C (c_indoor cond_A)) with (to_C (T:=R) 300). rewrite TC.
  pose proof qtot_bounds as QB.
  assert (X0 : 0 < qtot / (1.2 * (1 - b))).
  { apply Rmult_lt_0_compat; [lra|]. apply Rinv_0_lt_compat, Rmult_lt_0_compat; lra. }
  rewrite pydiv_ok by (apply Rgt_not_eq; lra). cbn [rbind].
  replace (moist_enthalpy 26.85 (room b) - moist_enthalpy 10 0.0076) with (qtot / (1.2 * (1 - b))) by lra.
  assert (D : moist_enthalpy 26.85 0.0076 - moist_enthalpy 10 0.0076
    = qtot / (1.2 * (1 - b)) - (room b - 0.0076) * (2501000 + 1860 * 26.85)).
  { revert E0. unfold moist_enthalpy. lra. }
  rewrite D.
  replace (qtot * (qtot / (1.2 * (1 - b)) - (room b - 0.0076) * (2501000 + 1860 * 26.85)) / (qtot / (1.2 * (1 - b))))
    with (qtot - 1.2 * (1 - b) * (room b - 0.0076) * (2501000 + 1860 * 26.85)).
  - apply limit_check_pos. exact P.
  - set (y := (room b - 0.0076) * (2501000 + 1860 * 26.85)). 
    replace (1.2 * (1 - b) * (room b - 0.0076) * (2501000 + 1860 * 26.85)) with (1.2 * (1 - b) * y) by (unfold y; ring).
    set (k := 1.2 * (1 - b)) in *. clearbody k y. field. split; [exact K|]. apply Rgt_not_eq. lra.
Qed.

Lemma room_dry : 0.003 < room (1 / 10) < 0.006.
Proof. pose proof qtot_bounds. unfold room, moist_enthalpy. lra. Qed.
Lemma room_damp : 0.008 < room (6 / 10) < 0.011.
Proof. pose proof qtot_bounds. unfold room, moist_enthalpy. lra. Qed.

Lemma damp_case : exists psy sol (u : dxunit R) c wi q s,
  ashrae_air psy /\ newton_finds_roots 0 sol
  /\ air_at psy (c_indoor c) wi /\ -1000 < celsius (c_indoor c)
  /\ gross_total_cooling_capacity (NRELDXModel psy sol) u (Some c) = Ok q
  /\ gross_sensible_cooling_capacity (NRELDXModel psy sol) u (Some c) = Ok s
  /\ (exists m bf, c_mass_airflow c = Some m /\ 0 < m /\ bypass_factor u c = Ok bf /\ bf < 1)
  /\ 0 < s < q.
Proof.
  pose proof room_damp as RD. pose proof qtot_bounds as QB.
  exists (room_psy (room (6 / 10))), ask_sol, (coil_unit (6 / 10)), cond_A, (room (6 / 10)), qtot.
  assert (P : 0 < qtot - 1.2 * (1 - 6 / 10) * (room (6 / 10) - 0.0076) * (2501000 + 1860 * 26.85)) by (set (r := room _) in *; clearbody r; lra).
  destruct (sens_at_room (6 / 10)) as [A S]; [lra|lra|lra|].
  eexists. split; [apply room_air; lra|]. split; [exact ask_sound|]. split; [exact A|].
  split; [unfold celsius; cbn; lra|]. split; [apply tot_at|]. split; [exact S|].
  split.
  - exists (1 * 1.2), (6 / 10). split; [reflexivity|]. split; [lra|]. split; [apply bf_at; lra|lra].
  - split; [lra|]. set (r := room _) in *; clearbody r; lra.
Qed.

Lemma dry_case : exists psy sol (u : dxunit R) c wi q s,
  ashrae_air psy /\ newton_finds_roots 0 sol
  /\ air_at psy (c_indoor c) wi
  /\ gross_total_cooling_capacity (NRELDXModel psy sol) u (Some c) = Ok q
  /\ gross_sensible_cooling_capacity (NRELDXModel psy sol) u (Some c) = Ok s
  /\ (exists m bf, c_mass_airflow c = Some m /\ 0 < m /\ bypass_factor u c = Ok bf /\ 0 < bf < 1)
  /\ celsius (c_indoor c) = 26.85 /\ 0.003 < wi
  /\ q < s /\ gross_shr (NRELDXModel psy sol) u (Some c) = Err PyException.
Proof.
  pose proof room_dry as RD. pose proof qtot_bounds as QB.
  set (psy := room_psy (room (1 / 10))).
  assert (P : qtot < qtot - 1.2 * (1 - 1 / 10) * (room (1 / 10) - 0.0076) * (2501000 + 1860 * 26.85)) by (set (r := room _) in *; clearbody r; lra).
  destruct (sens_at_room (1 / 10)) as [A S]; [lra|lra|lra|]. fold psy in A, S.
  assert (F : exists m bf, c_mass_airflow cond_A = Some m /\ 0 < m /\ bypass_factor (coil_unit (1 / 10)) cond_A = Ok bf /\ bf < 1).
  { exists (1 * 1.2), (1 / 10). split; [reflexivity|]. split; [lra|]. split; [apply bf_at; lra|lra]. }
  assert (C : celsius (c_indoor cond_A) = 26.85) by (unfold celsius; cbn; lra).
  destruct (shr_verdict psy ask_sol (NRELDXModel psy ask_sol) 0 (or_introl eq_refl)
    (room_air (room (1 / 10)) ltac:(lra)) ask_sound (coil_unit (1 / 10)) cond_A (room (1 / 10)) qtot _ A ltac:(lra) (tot_at _ _ _) S F)
    as (ta & wa & _ & _ & Up & Down).
  exists psy, ask_sol, (coil_unit (1 / 10)), cond_A, (room (1 / 10)), qtot.
  eexists. split; [apply room_air; lra|]. split; [exact ask_sound|]. split; [exact A|].
  split; [apply tot_at|]. split; [exact S|].
  split; [exists (1 * 1.2), (1 / 10); split; [reflexivity|]; split; [lra|]; split; [apply bf_at; lra|lra]|].
  split; [exact C|]. split; [lra|].
  destruct (Rle_dec wa (room (1 / 10))) as [L|L]; [apply Up in L; exfalso; lra|].
  apply Down. lra.
Qed.

(** A coil whose rated capacity is 0. *)
Definition idle_unit : dxunit R :=
  mkUnit [] (Some 14) (Some 12) (Some 8) None BETWEEN_LOW_FULL true 325
    (toy_defrost DCDemand DSReverseCycle) 283
    AHRI_210_240_2023 0 SINGLE_STAGE 240 None
    (toy_side [0] [0] [300] [4] [2500] [2200] [103 / 22] [1])
    (toy_side [10000] [9700] [300] [4] [2500] [2200] [97 / 22] [1])
    [None] [Some 0.1] [Some 2] (Some 125) (Some toy_fan) (Some 0) toy_conds toy_rn.

Lemma idle_case psy sol : exists (u : dxunit R) c,
  gross_total_cooling_capacity (NRELDXModel psy sol) u (Some c) = Ok 0.
Proof.
  exists idle_unit, cond_A.
  unfold gross_total_cooling_capacity, cooling_conditions, checked_product. cbn [rbind].
  cbn [NRELDXModel md_gtc md_f_gtc].
  rewrite (gtc_eq idle_unit cond_A 290 1 0 eq_refl eq_refl eq_refl). cbn [rbind].
  rewrite grading_zero by reflexivity. cbn [rbind nmul RNum].
  rewrite !Rmult_0_r, Rmult_0_l. apply limit_check_pos. lra.
Qed.
