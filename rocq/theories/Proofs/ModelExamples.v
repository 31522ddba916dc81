(** Concrete cases for C32-C35 and C57. *)
From Coq Require Import Reals QArith Lra Psatz Lia List Bool String.
From Verif.Base Require Import Num Res Tac.
From Verif.Model Require Import Units Util Psychrometrics Conditions Defrost Fan Curves
  Tabular Unit NREL BaseModel Title24 Resnet DXUnit.
From Verif.Spec Require Import TabularSpec NrelSpec ModelSpec.
From Verif.Proofs Require Import UnitsR PsychProofs DefrostProofs MakeCond NrelProofs ToyUnit
  NrelProofs2 T24Cache ModelProofs ResnetProofs.
From Verif.Props Require Import P_Psych P_Tabular.
Import ListNotations.
Local Open Scope R_scope.

(** A unit with one compressor speed that uses the tables of [g] at speed 1. *)
Definition toy_table_unit (g : perf R) : dxunit R :=
  wu_rn (mkRn (Some g) (Some g) None None None None (Some [1])) 
    (toy_unit 0 (toy_defrost DCTimed DSReverseCycle)).

Lemma value_rated_ok psy m look fn (u : dxunit R) c tv o rc a :
  uses_table u -> table_value look u c tv ->
  PsychState psy (ps_db (c_outdoor c)) atm [("rel_hum"%string, lit 0.4)] = Ok o ->
  make_condition psy m u (c_speed c) None (Some o) = Ok rc ->
  fn u c = Ok a -> fn u rc = Ok a -> a <> 0 ->
  resnet_value psy m look fn u c = Ok tv.
Proof.
  intros Hu (g & mp & s & Hg & Hm & Hs & Hl) Ho Hrc Ha Hb Hn. unfold resnet_value.
  unfold uses_table in Hu. destruct (rn_net (u_rn u)); [|congruence].
  unfold table_speed, correction_factor. rewrite Hg, Hm. cbn [need rbind].
  rewrite Hs. cbn [need rbind]. rewrite Hl. cbn [rbind]. rewrite Ho. cbn [rbind].
  rewrite Hrc. cbn [rbind]. rewrite Ha, Hb. cbn [rbind].
  rewrite (pydiv_ok a a) by auto. cbn [rbind]. f_equal. cbn [nmul RNum]. field. auto.
Qed.

Lemma table_example : exists g,
  let u := toy_table_unit g in
  let c := toy_cond (fr_F 70) (fr_F 67) 310 1 in
  uses_table u
  /\ resnet_gross_total_cooling_capacity toy_psy u c = Ok 12
  /\ resnet_gross_heating_capacity toy_psy u c = Ok 12
  /\ resnet_gross_cooling_power toy_psy u c = Ok 12
  /\ resnet_gross_heating_power toy_psy u c = Ok 12.
Proof.
  destruct (C20_table_ok CoolingTable) as (W & F & V1 & V2).
  destruct (C20_get_in_table CoolingTable) as (G1 & _).
  destruct (C24_well_formed_tables_interpolate _ W F) as (t & I); [discriminate|discriminate|].
  pose proof (C24_value_at_grid_points _ _ 1 310 12 I V1 G1) as E.
  set (g := mkPerf t t t t 2 2). exists g. cbv zeta.
  set (u := toy_table_unit g). set (c := toy_cond _ _ _ _).
  assert (Hu : uses_table u) by discriminate.
  assert (Hm : forall m o, make_condition toy_psy m u 0 None (Some o)
               = Ok (flow_cond o (default_indoor m) 0 (Some 0%nat)
                       (Some (125 * ((1 / 1) * (1 / 1)))) 1.2 1.2 1 10000 1 None)).
  { intros [] o; apply make_condition_ok with (mp := [Some 0%nat]); try reflexivity; lra. }
  assert (Hl : forall look, (forall p, p_cc p = t -> p_cp p = t -> p_hc p = t -> p_hp p = t ->
             look p 1 310 = calculate 1 310 t) -> table_value look u c 12).
  { intros look Hl. exists g, [1], 1. repeat split. rewrite Hl by reflexivity. exact E. }
  assert (Eo : degF 310 = 98.33) by (unfold degF; lra).
  assert (Eo' : curve_odb 310 = 98.33) by (unfold curve_odb, Rmax; rewrite Eo; destruct (Rle_dec _ _); lra).
  assert (G : forall c', ps_wb (c_indoor c') = Some (fr_F 67) ->
      ps_db (c_outdoor c') = 310 -> c_mass_airflow_ratio c' = Some 1 -> c_speed c' = 0%nat ->
      nrel_gross_cooling_power u c'
      = Ok (cool_eir_T 67 98.33 * cool_cap_T 67 98.33 * (10300 / (103 / 22)))).
  { intros c' H1 H2 H3 H4.
    destruct (gcp_rated u c' (fr_F 67) 10300 (103 / 22) H1 H3) as [K _];
      [rewrite H4; reflexivity|rewrite H4; reflexivity|lra|].
    rewrite H2, Eo', default_curve_wb in K. apply K.
    unfold cool_cap_T, cool_eir_T. lra. }
  split; [exact Hu|].
  split; [|split; [|split]].
  - eapply (value_rated_ok toy_psy Cooling); [exact Hu| |reflexivity|apply Hm| | |].
    + apply Hl. intros p <- _ _ _. reflexivity.
    + apply (gtc_eq u c (fr_F 67) 1 10300); reflexivity.
    + rewrite (gtc_eq u _ (fr_F 67) 1 10300); try reflexivity.
      cbn [flow_cond c_indoor]. apply default_wb.
    + rewrite default_curve_wb. change (ps_db (c_outdoor c)) with 310. rewrite Eo'.
      destruct flow_one as [-> _]. unfold cool_cap_T. lra.
  - eapply (value_rated_ok toy_psy Heating); [exact Hu| |reflexivity|apply Hm| | |].
    + apply Hl. intros p _ _ <- _. reflexivity.
    + apply (ghc_eq u c 1 9700); reflexivity.
    + rewrite (ghc_eq u _ 1 9700) by reflexivity.
      cbn [flow_cond c_indoor]. rewrite default_idb.
      change (ps_db (c_indoor c)) with (fr_F (T:=R) 70). rewrite degF_fr_F. reflexivity.
    + change (ps_db (c_indoor c)) with (fr_F (T:=R) 70). rewrite degF_fr_F.
      change (ps_db (c_outdoor c)) with 310. rewrite Eo.
      destruct flow_one as (_ & _ & -> & _). unfold heat_cap_T. lra.
  - eapply (value_rated_ok toy_psy Cooling); [exact Hu| |reflexivity|apply Hm| | |].
    + apply Hl. intros p _ <- _ _. reflexivity.
    + apply G; reflexivity.
    + apply G; try reflexivity. apply default_wb.
    + unfold cool_cap_T, cool_eir_T. lra.
  - eapply (value_rated_ok toy_psy Heating); [exact Hu| |reflexivity|apply Hm| | |].
    + apply Hl. intros p _ _ _ <-. reflexivity.
    + apply (ghp_rated u c 9700 (97 / 22)); try reflexivity. lra.
    + rewrite (ghp_rated u _ 9700 (97 / 22)) by (reflexivity || lra).
      cbn [flow_cond c_indoor]. rewrite default_idb.
      change (ps_db (c_indoor c)) with (fr_F (T:=R) 70). rewrite degF_fr_F. reflexivity.
    + change (ps_db (c_indoor c)) with (fr_F (T:=R) 70). rewrite degF_fr_F.
      change (ps_db (c_outdoor c)) with 310. rewrite Eo.
      unfold heat_cap_T, heat_eir_T. lra.
Qed.

(** An undercharged unit on a mild day, and its defrost. *)
Lemma charge_power_example sol :
  let u := toy_unit (-0.25) (toy_defrost DCTimed DSReverseCycle) in
  let c := toy_cond 294 289 290 1 in
  let M := RESNETDXModel toy_psy sol in
  in_defrost (u_defrost u) c = false
  /\ charge_only Heating false (degC (ps_db (c_indoor c))) (degC (ps_db (c_outdoor c)))
      (u_charge u) <> 1
  /\ exists s v, gross_steady_state_heating_power M u (Some c) = Ok s
     /\ gross_integrated_heating_power M u (Some c) = Ok v /\ s <> 0.
Proof.
  cbv zeta. set (u := toy_unit _ _). set (c := toy_cond _ _ _ _).
  assert (D : in_defrost (u_defrost u) c = false).
  { unfold in_defrost. cbn. rewrite (proj2 (Rltb_false 290 278)) by lra. reflexivity. }
  assert (Ek : charge_only Heating false (degC (ps_db (c_indoor c)))
                 (degC (ps_db (c_outdoor c))) (u_charge u) =
               1 + (0.0616 + 0 * degC 294 + 0.00446 * (290 - 273.15) + -0.26 * -0.25) * -0.25).
  { unfold charge_only, charge_poly. unfold u, toy_unit, degC.
    cbn [u_charge ps_db c_outdoor c_indoor toy_cond c psych_wetbulb put_wb blank].
    destruct (Rlt_dec (-0.25) 0); lra. }
  set (p := heat_eir_T (degF 294) (degF 290) * heat_cap_T (degF 294) (degF 290)
            * (9700 / (97 / 22))).
  assert (Hp : md_ghp (RESNETDXModel toy_psy sol) u c = Ok p).
  { cbn [md_ghp RESNETDXModel]. unfold resnet_gross_heating_power, resnet_value.
    cbn [u u_rn toy_unit toy_rn rn_net].
    apply (ghp_rated u c 9700 (97 / 22)); try reflexivity. lra. }
  assert (Pp : 0 < p).
  { unfold p, heat_eir_T, heat_cap_T, degF. lra. }
  split; [exact D|]. split; [rewrite Ek; lra|].
  assert (Hc : make_condition toy_psy Heating u (c_speed c) None None
               = Ok (flow_cond (default_outdoor Heating) (default_indoor Heating) 0 (Some 0%nat)
                       (Some (125 * ((1 / 1) * (1 / 1)))) 1.2 1.2 1 10000 1 None)).
  { apply make_condition_ok with (mp := [Some 0%nat]); try reflexivity; lra. }
  assert (Ed : degC (fr_F (lit 47)) = 25 / 3 /\ degF (fr_F (lit 47)) = 47).
  { unfold degC, degF, fr_F. rnum. lra. }
  set (k := 1 + (-0.0339 + 0 * degC (fr_F (lit 70)) + 0.0203 * (25 / 3) + -2.62 * -0.25) * -0.25).
  assert (Hk : 0.7 < k < 0.9) by (unfold k; lra).
  assert (Ek' : charge_only Heating true (degC (fr_F (lit 70))) (degC (fr_F (lit 47)))
                 (u_charge u) = k).
  { destruct Ed as [-> _]. unfold charge_only, charge_poly, k. unfold u, toy_unit.
    cbn [u_charge]. destruct (Rlt_dec (-0.25) 0); lra. }
  assert (Hi : 1 < 1 / k < 1.5).
  { assert (E : 1 / k * k = 1) by (field; lra). set (z := 1 / k) in *. clearbody z. nra. }
  assert (Hg : exists f, resnet_f_ghp toy_psy u c = Ok f).
  { unfold resnet_f_ghp, resnet_gross_heating_power, resnet_value.
    eapply (grading_rated_ok toy_psy Heating false _ u c _); [reflexivity| |exact Hc| | | | |].
    - unfold u, toy_unit. cbn [u_charge]. lra.
    - cbn [u u_rn toy_unit toy_rn rn_net].
      apply (ghp_eq u _ 1 9700 (97 / 22)); try reflexivity. lra.
    - cbv zeta. cbn [flow_cond c_outdoor c_indoor]. rewrite default_idb.
      change (degF (ps_db (default_outdoor Heating))) with (degF (fr_F (T:=R) (lit 47))).
      destruct Ed as [_ ->]. destruct flow_one as (_ & _ & -> & ->).
      unfold heat_eir_T, heat_cap_T. lra.
    - cbn [flow_cond c_outdoor c_indoor default_outdoor default_indoor ps_db psych_wetbulb put_wb blank].
      rewrite Ek'. lra.
    - cbn [flow_cond c_outdoor c_indoor default_outdoor default_indoor ps_db psych_wetbulb put_wb blank].
      rewrite Ek'. fold (flow_cond (default_outdoor Heating) (default_indoor Heating) 0 (Some 0%nat)
                       (Some (125 * ((1 / 1) * (1 / 1)))) 1.2 1.2 1 10000 1 None).
      rewrite set_ratio_flow_cond by (reflexivity || lra). cbn [rbind].
      cbn [u u_rn toy_unit toy_rn rn_net].
      apply (ghp_eq u _ (1 / k) 9700 (97 / 22)); try reflexivity. lra.
    - cbv zeta. cbn [flow_cond c_outdoor c_indoor]. 
      change (psych_wetbulb (fr_F (lit 70)) atm (fr_F (lit 60))) with (default_indoor (T:=R) Heating).
      change (ps_db (psych_wetbulb (fr_F (lit 47)) atm (fr_F (lit 43)))) with (fr_F (T:=R) (lit 47)).
      rewrite default_idb.
      destruct Ed as [_ ->]. set (r := 1 / k) in *. clearbody r.
      assert (0 < heat_cap_flow r) by (unfold heat_cap_flow; nra).
      assert (0 < heat_eir_flow r) by (unfold heat_eir_flow; nra).
      assert (0 < heat_eir_T 70 47 * heat_cap_T 70 47 * (9700 / (97 / 22)))
        by (unfold heat_eir_T, heat_cap_T; lra).
      apply Rgt_not_eq. apply Rmult_lt_0_compat; [nra|lra]. }
  destruct Hg as [f Hf].
  pose proof (resnet_power_derate toy_psy sol u c p Hp) as Hv.
  exists (p * f). eexists. split; [|split; [exact Hv|]].
  - unfold gross_steady_state_heating_power, heating_conditions. cbn [rbind].
    unfold product. rewrite Hp. cbn [rbind].
    change (md_f_ghp (RESNETDXModel toy_psy sol) u c) with (resnet_f_ghp toy_psy u c).
    rewrite Hf. reflexivity.
  - apply grading_rated in Hf; [|reflexivity]. rewrite Hf, Ek.
    apply Rgt_not_eq. apply Rmult_lt_0_compat; lra.
Qed.

Section T24Ex.
  Variable sol : solvers R.
  Let u0 := wu_kwargs [] (toy_unit 0 (toy_defrost DCTimed DSReverseCycle)).
  Let u1 := wu_kwargs [("cap17"%string, KList [7000]); ("cap35"%string, KList [8000])]
              (toy_unit 0 (toy_defrost DCTimed DSReverseCycle)).

  Ltac go t :=
    cbn [md_ghc md_gihc Title24DXModel]; unfold fresh, t24_integrated_capacity;
    set (c := toy_cond 294 289 t 1);
    repeat match goal with |- context [if ?b then _ else _] => destruct b end.
  Lemma t24_total_default t : exists v v',
    md_ghc (Title24DXModel sol) u0 (toy_cond 294 289 t 1) = Ok v
    /\ md_gihc (Title24DXModel sol) u0 (toy_cond 294 289 t 1) = Ok v'.
  Proof.
    go t; eexists _, _; (split; [reflexivity|]); reflexivity.
  Qed.
  Lemma t24_total_supplied t : exists v v',
    md_ghc (Title24DXModel sol) u1 (toy_cond 294 289 t 1) = Ok v
    /\ md_gihc (Title24DXModel sol) u1 (toy_cond 294 289 t 1) = Ok v'.
  Proof.
    go t; eexists _, _; (split; [reflexivity|]); reflexivity.
  Qed.
  Lemma t24_cache_example :
    sd_n (u_h u0) = 1%nat
    /\ (exists v, snd (t24_call sol IntegratedCapacity u0 (toy_cond 294 289 270 1) blank_t24) = Ok v)
    /\ t24_after sol u0 [(IntegratedCapacity, toy_cond 294 289 280 1)] blank_t24 <> blank_t24.
  Proof.
    split; [reflexivity|]. split.
    - destruct (t24_total_default 270) as (_ & v' & _ & H). exists v'. exact H.
    - unfold t24_after, t24_call. cbn [fold_left fst snd].
      unfold t24_integrated_capacity.
      repeat match goal with |- context [if ?b then _ else _] => destruct b end; discriminate.
  Qed.
End T24Ex.
