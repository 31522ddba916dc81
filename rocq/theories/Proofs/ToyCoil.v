(** Examples for C67 and C68. *)
From Coq Require Import Reals QArith Lra Psatz Lia List Bool String.
From Verif.Base Require Import Num Res Tac.
From Verif.Model Require Import Units Util Psychrometrics Conditions Defrost Fan Curves
  Tabular Unit BaseModel DXUnit.
From Verif.Spec Require Import PsychSpec RatingSpec CoilSpec.
From Verif.Proofs Require Import UnitsR PsychProofs ToyUnit ToyBuild ToyIdf CoilProofs.
Import ListNotations.
Local Open Scope R_scope.

(** [lin_psy] with a saturation line that rises 0.001 per kelvin. *)
Definition wa : R := 0.0112 - 0.3 / 0.7 * 1006 / 2500000 * (300 - 273.15 - 10).
Definition sat_psy : psychro R := {|
  GetHumRatioFromTWetBulb := GetHumRatioFromTWetBulb lin_psy;
  GetTWetBulbFromHumRatio := GetTWetBulbFromHumRatio lin_psy;
  GetTWetBulbFromRelHum := GetTWetBulbFromRelHum lin_psy;
  GetMoistAirEnthalpy := GetMoistAirEnthalpy lin_psy;
  GetHumRatioFromEnthalpyAndTDryBulb := GetHumRatioFromEnthalpyAndTDryBulb lin_psy;
  GetMoistAirDensity := GetMoistAirDensity lin_psy;
  GetSatHumRatio := GetSatHumRatio lin_psy;
  GetSatAirEnthalpy := GetSatAirEnthalpy lin_psy;
  GetTDryBulbFromEnthalpyAndHumRatio := GetTDryBulbFromEnthalpyAndHumRatio lin_psy;
  GetRelHumFromTWetBulb := GetRelHumFromTWetBulb lin_psy;
  GetHumRatioFromRelHum := fun t _ _ => Ok (wa + 0.001 * (t - 10))
|}.
(** Tries 10 and raises unless it is a root. *)
Definition ask_sol : solvers R := {|
  brentq := fun _ a _ => Ok a;
  newton := fun _ => PAsk 10 (fun y => if Reqb y 0 then PDone 10 else PFail RuntimeError)
|}.

Lemma ask_sound : newton_finds_roots 0 ask_sol.
Proof.
  intros f g x. unfold ask_sol. cbn [newton run_prober_pure].
  destruct (f 10) as [y|e] eqn:E; cbn [rbind]; [|discriminate].
  destruct (Reqb_spec y 0) as [->|]; cbn [run_prober_pure]; [|discriminate].
  intros H. apply Ok_inj in H. subst x. exists 0. split; [exact E|].
  rewrite Rabs_R0. lra.
Qed.

Definition coil_cond : cond R := toy_cond 300 290 308 1.

Lemma sens_at : gross_sensible_cooling_capacity ConstantDXModel (idf_unit 255) (Some coil_cond)
  = Ok 7210.
Proof.
  unfold gross_sensible_cooling_capacity, cooling_conditions. cbn [rbind].
  change (md_gsc ConstantDXModel (idf_unit 255) coil_cond) with
    (let! q := gross_total_cooling_capacity ConstantDXModel (idf_unit 255) (Some coil_cond) in
     Ok (q * lit (T:=R) 0.7)).
  rewrite (proj1 (cool_at 255 coil_cond ltac:(cbn; lia))). cbn [rbind].
  change (c_speed coil_cond) with 0%nat. cbn [gross].
  replace (lit (T:=R) 0.7) with 0.7 by (unfold lit; rnum; lra).
  replace (10300 * 0.7) with 7210 by lra. rewrite limit_fine by lra. reflexivity.
Qed.

Lemma outlet_at :
  exists o, gross_cooling_outlet_state sat_psy ConstantDXModel (idf_unit 255) (Some coil_cond)
    None = Ok o /\ ps_db o = 300 - 7210 / (1.2 * 1006)
    /\ hr_of sat_psy o = Ok (0.0112 - 3090 / 1.2 / 2500000).
Proof.
  unfold gross_cooling_outlet_state. unfold cooling_conditions. cbn [rbind].
  rewrite sens_at. cbn [rbind].
  change (h_of sat_psy (c_indoor coil_cond)) with
    (Ok (A:=R) (1006 * to_C 300 + 2500000 * 0.0112)).
  cbn [rbind coil_cond toy_cond c_mass_airflow need].
  rewrite (proj1 (cool_at 255 coil_cond ltac:(cbn; lia))). cbn [rbind].
  change (c_speed coil_cond) with 0%nat. cbn [gross].
  rewrite cp_R. cbn [nmul RNum]. rewrite pydiv_ok by lra. cbn [rbind].
  rewrite pydiv_ok by lra. cbn [rbind].
  eexists. split; [reflexivity|]. split.
  - cbn. lra.
  - change (Ok (A:=R) ((1006 * to_C 300 + 2500000 * 0.0112 - 10300 / (1 * 1.2)
      - 1006 * to_C (300 - 7210 / (1 * 1.2 * 1006))) / 2500000)
      = Ok (0.0112 - 3090 / 1.2 / 2500000)).
    f_equal. unfold to_C. cbn [nsub RNum]. lra.
Qed.

Lemma outlet_example : exists (u : dxunit R) c o,
  gross_cooling_outlet_state sat_psy ConstantDXModel u (Some c) None = Ok o
  /\ ps_db o < ps_db (c_indoor c).
Proof.
  destruct outlet_at as (o & H & D & _). exists (idf_unit 255), coil_cond, o.
  split; [exact H|]. rewrite D. cbn. lra.
Qed.

Lemma adp_example : exists (u : dxunit R) c a q,
  newton_finds_roots 0 ask_sol
  /\ adp_state sat_psy ask_sol ConstantDXModel u (Some c) = Ok a
  /\ c_mass_airflow c = Some (1 * 1.2)
  /\ gross_sensible_cooling_capacity ConstantDXModel u (Some c) = Ok q /\ 0 < q.
Proof.
  exists (idf_unit 255), coil_cond. eexists. exists 7210.
  split; [exact ask_sound|]. split; [|split; [reflexivity|split; [exact sens_at|lra]]].
  destruct outlet_at as (o & H & D & W).
  unfold adp_state. rewrite H. cbn [rbind need].
  unfold calculate_adp_state. cbv zeta. rewrite W.
  change (hr_of sat_psy (c_indoor coil_cond)) with (Ok (A:=R) 0.0112). cbn [rbind].
  change (db_C (c_indoor coil_cond)) with (to_C (T:=R) 300). unfold db_C. rewrite D.
  set (ti := to_C (T:=R) 300). set (t0 := to_C (T:=R) (300 - 7210 / (1.2 * 1006))).
  assert (Ti : ti = 26.85) by (unfold ti, to_C; rnum; lra).
  assert (To : t0 = 26.85 - 7210 / (1.2 * 1006)) by (unfold t0, to_C; rnum; lra).
  assert (L : forall t : R, (let! s := pydiv (0.0112 - (0.0112 - 3090 / 1.2 / 2500000)) (ti - t0) in
      Ok (0.0112 - s * (ti - t)))
    = Ok (0.0112 - 0.3 / 0.7 * 1006 / 2500000 * (26.85 - t))).
  { intros t. rewrite Ti, To. cbn [nsub nmul RNum]. rewrite pydiv_ok by lra. cbn [rbind].
    f_equal.
    replace (26.85 - (26.85 - 7210 / (1.2 * 1006))) with (7210 / 1207.2) by lra.
    replace (0.0112 - (0.0112 - 3090 / 1.2 / 2500000)) with (3090 / 3000000) by lra.
    replace (3090 / 3000000 / (7210 / 1207.2)) with (0.3 / 0.7 * 1006 / 2500000) by lra.
    ring. }
  cbn [ask_sol newton run_prober_pure]. cbn [GetHumRatioFromRelHum sat_psy rbind].
  cbn [nsub nmul RNum] in *. rewrite L. cbn [rbind].
  destruct (Reqb_spec (wa + 0.001 * (10 - 10) - (0.0112 - 0.3 / 0.7 * 1006 / 2500000 * (26.85 - 10))) 0)
    as [_|N]; [|exfalso; apply N; unfold wa; lra].
  cbn [run_prober_pure rbind]. rewrite L. cbn [rbind].
  cbn [nltb RNum].
  destruct (Rltb_spec t0 10) as [C|_]; [exfalso; lra|].
  match goal with |- context [Rltb ?a ?b] => destruct (Rltb_spec a b) as [C|_] end;
    [exfalso; lra|].
  cbn [orb]. reflexivity.
Qed.

Lemma heating_example : exists (u : dxunit R) c o,
  gross_heating_output_state sat_psy ConstantDXModel u (Some c) = Ok o
  /\ ps_db (c_indoor c) < ps_db o.
Proof.
  exists (idf_unit 255), coil_cond. eexists.
  unfold gross_heating_output_state, heating_conditions. cbn [rbind].
  rewrite (proj1 (heat_at 255 coil_cond ltac:(cbn; lia))).
  change (c_speed coil_cond) with 0%nat. cbn [rbind gross].
  cbn [coil_cond toy_cond c_mass_airflow need rbind c_indoor].
  rewrite cp_R. cbn [nmul RNum]. rewrite pydiv_ok by lra. cbn [rbind].
  split; [reflexivity|]. cbn. lra.
Qed.
