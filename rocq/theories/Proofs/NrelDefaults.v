(** The NREL model: default ratings (C93), charge factors (C30) and defrost power (C31). *)
From Coq Require Import Reals QArith Lra Psatz Lia List Bool.
From Verif.Base Require Import Num Res Tac.
From Verif.Model Require Import Units Util Psychrometrics Conditions Defrost Fan Curves
  Tabular Unit NREL Resnet DXUnit.
From Verif.Spec Require Import NrelSpec DefrostSpec DefaultSpec NrelUnitSpec.
From Verif.Proofs Require Import UnitsR DefrostProofs MakeCond NrelProofs NrelProofs2 Frame UnitProofs UnitProofs2 ToyUnit.
From Verif.Props Require Import P_Psych.
Import ListNotations.
Local Open Scope R_scope.

Notation U := (dxunit R).

Lemma cfm_per_ton_is x : fr_cfm_per_ton (T:=R) x = per_ton x.
Proof. unfold fr_cfm_per_ton, per_ton, cfm, ton_ref, btu_h. rnum. field. Qed.

Lemma w_per_cfm_is x : fr_W_per_cfm (T:=R) x = per_cfm x.
Proof. unfold fr_W_per_cfm, per_cfm, cfm. rnum. field. Qed.

Lemma efficacy_by_seer s : nrel_fan_efficacy (T:=R) s = per_cfm (watts_per_cfm s).
Proof.
  unfold nrel_fan_efficacy. rewrite !w_per_cfm_is. destruct s as [s|]; cbn [watts_per_cfm].
  2:{ f_equal. }
  unfold per_cfm. set (k := 0.028316846592 / 60). assert (K : 0 < / k) by (apply Rinv_0_lt_compat; unfold k; lra).
  unfold Rdiv. set (j := / k) in *. clearbody j. clear k.
  rnum. unfold Rmin, Rmax.
  repeat match goal with |- context [Rle_dec ?a ?b] => destruct (Rle_dec a b) end;
  repeat match goal with |- context [Rleb ?a ?b] => destruct (Rleb_spec a b) end; try lra; try field.
  1,2: exfalso; destruct (Rle_dec _ _) in r; lra.
  replace s with 16 by lra. field.
Qed.

Lemma mode_flows m n one two low :
  (match m with Cooling => one = 394.2 /\ two = 344.1 /\ low = 0.86
              | Heating => one = 384.1 /\ two = 352.2 /\ low = 0.8 end) ->
  forall l, nrel_flows m n = Some l ->
  match n with
  | 1%nat => [fr_cfm_per_ton (T:=R) one]
  | 2%nat => [fr_cfm_per_ton two; fr_cfm_per_ton two * low]
  | _ => []
  end = l.
Proof.
  intros H l E. destruct m; destruct H as (-> & -> & ->); destruct n as [|[|[|n]]]; try discriminate;
    injection E as <-; rewrite !cfm_per_ton_is; try reflexivity; f_equal; f_equal; apply Rmult_comm.
Qed.

(** What [set_rated_fan_characteristics(None)] assigns. *)
Lemma characteristics (u u' : U) : nrel_set_rated_fan_characteristics false u = (u', Ok tt) -> forall m,
  sd_fan_efficacy (side_of m u') = repeat (per_cfm (watts_per_cfm (u_seer u))) (sd_n (side_of m u))
  /\ sd_n (side_of m u') = sd_n (side_of m u)
  /\ sd_flow_per_cap (side_of m u')
     = match nrel_flows m (sd_n (side_of m u)) with
       | Some l => Some (Many l)
       | None => sd_flow_per_cap (side_of m u)
       end.
Proof.
  unfold nrel_set_rated_fan_characteristics. rewrite <- efficacy_by_seer.
  intros H. apply sbind_ok in H. destruct H as (v & x & E & H). unfold sget in E.
  apply pair_ok_inj in E. destruct E as [<- <-].
  unfold on_side, smod in H. apply sbind_ok in H. destruct H as (v & [] & E & H).
  apply pair_ok_inj in E. destruct E as [<- _]. apply pair_ok_inj in H. destruct H as [<- _].
  assert (Q : forall (s : side R) m one two low, 
    (match m with Cooling => one = 394.2 /\ two = 344.1 /\ low = 0.86
              | Heating => one = 384.1 /\ two = 352.2 /\ low = 0.8 end) -> forall e,
    let s' := match sd_n s with
          | 1%nat => ws_flow_per_cap (Some (Many [fr_cfm_per_ton (T:=R) one])) (ws_fan_efficacy e s)
          | 2%nat => ws_flow_per_cap (Some (Many [fr_cfm_per_ton two; fr_cfm_per_ton two * low]))
                       (ws_fan_efficacy e s)
          | _ => ws_fan_efficacy e s
          end in
    sd_fan_efficacy s' = e /\ sd_n s' = sd_n s
    /\ sd_flow_per_cap s' = match nrel_flows m (sd_n s) with
       | Some l => Some (Many l)
       | None => sd_flow_per_cap s
       end).
  { intros s m one two low P e. pose proof (mode_flows m (sd_n s) one two low P) as F.
    destruct m, (sd_n s) as [|[|[|n]]] eqn:N; cbn zeta;
      cbn [ws_flow_per_cap ws_fan_efficacy sd_fan_efficacy sd_n sd_flow_per_cap nrel_flows] in *;
      (split; [reflexivity|]); (split; [exact N|]); try reflexivity;
      rewrite (F _ eq_refl); reflexivity. }
  intros m. destruct m.
  - exact (Q (u_c u) Cooling (lit 394.2) (lit 344.1) (lit 0.86)
      ltac:(repeat split; rnum; lra) _).
  - exact (Q (u_h u) Heating (lit 384.1) (lit 352.2) (lit 0.8)
      ltac:(repeat split; rnum; lra) _).
Qed.

Lemma lower_capacity m (s : side R) x y :
  nrel_lower_capacity (match m with Cooling => nadd | Heating => nsub end) s x = Ok y ->
  exists e0 a0 e1 a1, fan_share s 0 e0 a0 /\ fan_share s 1 e1 a1
    /\ gross_with m y e1 a1 = 0.72 * gross_with m x e0 a0.
Proof.
  unfold nrel_lower_capacity, flow_per_cap. intros H.
  apply rbind_ok in H. destruct H as (e0 & E0 & H). apply rbind_ok in H. destruct H as (a0 & A0 & H).
  apply rbind_ok in H. destruct H as (e1 & E1 & H). apply rbind_ok in H. destruct H as (a1 & A1 & H).
  apply geti_ok in E0, E1. destruct (sd_flow_per_cap s) as [[|l]|] eqn:L; try discriminate.
  apply geti_ok in A0, A1. apply pydiv_inv in H. destruct H as (N & ->).
  exists e0, a0, e1, a1. split; [split; eauto|]. split; [split; eauto|].
  unfold gross_with, gross_of_net.
  destruct m; rnum_in N; rnum; field; lra.
Qed.

Lemma cooling_capacity (u u' : U) x : nrel_set_rated_net_total_cooling_capacity (Scalar x) u = (u', Ok tt) ->
  u_h u' = u_h u /\
  (sd_n (u_c u) = 1%nat /\ sd_net_cap (u_c u') = [x]
  \/ sd_n (u_c u) = 2%nat /\ exists y e0 a0 e1 a1, sd_net_cap (u_c u') = [x; y]
    /\ fan_share (u_c u) 0 e0 a0 /\ fan_share (u_c u) 1 e1 a1
    /\ gross_with Cooling y e1 a1 = 0.72 * gross_with Cooling x e0 a0).
Proof.
  unfold nrel_set_rated_net_total_cooling_capacity. intros H.
  apply sbind_ok in H. destruct H as (v & w & E & H). unfold sget in E.
  apply pair_ok_inj in E. destruct E as [<- <-].
  destruct (sd_n (u_c u)) as [|[|[|n]]] eqn:N.
  - unfold slift in H. discriminate.
  - unfold on_side, smod in H. apply pair_ok_inj in H. destruct H as [<- _]. split; [reflexivity|].
    left. split; reflexivity.
  - apply sbind_ok in H. destruct H as (v & y & E & H). apply slift_ok in E. destruct E as [-> E].
    unfold on_side, smod in H. apply pair_ok_inj in H. destruct H as [<- _]. split; [reflexivity|].
    right. split; [reflexivity|]. destruct (lower_capacity Cooling _ _ _ E) as (e0 & a0 & e1 & a1 & P & Q & G).
    exists y, e0, a0, e1, a1. split; [reflexivity|]. auto.
  - unfold slift in H. discriminate.
Qed.

(** The capacity a heating side is given, or the first cooling capacity. *)
Lemma heating_capacity (u u' : U) o : nrel_set_rated_net_heating_capacity o u = (u', Ok tt) ->
  forall x, (match o with Some v => v = Scalar x | None => nth_error (sd_net_cap (u_c u)) 0 = Some x end) ->
  u_c u' = u_c u /\
  (sd_n (u_h u) = 1%nat /\ sd_net_cap (u_h u') = [x]
  \/ (sd_n (u_h u) = 2%nat /\ exists y e0 a0 e1 a1, sd_net_cap (u_h u') = [x; y]
    /\ fan_share (u_h u) 0 e0 a0 /\ fan_share (u_h u) 1 e1 a1
    /\ gross_with Heating y e1 a1 = 0.72 * gross_with Heating x e0 a0)
  \/ sd_n (u_h u) <> 1%nat /\ sd_n (u_h u) <> 2%nat /\ u' = u).
Proof.
  unfold nrel_set_rated_net_heating_capacity. intros H x X.
  apply sbind_ok in H. destruct H as (v & w & E & H). unfold sget in E.
  apply pair_ok_inj in E. destruct E as [<- <-].
  apply sbind_ok in H. destruct H as (v & q & E & H). apply slift_ok in E. destruct E as [-> E].
  apply geti_ok in E.
  assert (I : match o with Some v => v | None => Scalar q end = Scalar x).
  { destruct o as [v|]; [exact X|]. congruence. }
  rewrite I in H. clear I X E.
  destruct (sd_n (u_h u)) as [|[|[|n]]] eqn:N.
  - unfold sret in H. apply pair_ok_inj in H. destruct H as [<- _]. split; [reflexivity|]. right. right. auto.
  - unfold on_side, smod in H. apply pair_ok_inj in H. destruct H as [<- _]. split; [reflexivity|].
    left. split; reflexivity.
  - apply sbind_ok in H. destruct H as (v & y & E & H). apply slift_ok in E. destruct E as [-> E].
    unfold on_side, smod in H. apply pair_ok_inj in H. destruct H as [<- _]. split; [reflexivity|].
    right. left. split; [reflexivity|]. destruct (lower_capacity Heating _ _ _ E) as (e0 & a0 & e1 & a1 & P & Q & G).
    exists y, e0, a0, e1, a1. split; [reflexivity|]. auto.
  - unfold sret in H. apply pair_ok_inj in H. destruct H as [<- _]. split; [reflexivity|]. right. right.
    repeat split; lia.
Qed.

(** * Charge factors and defrost power of the NREL model *)
Lemma nrel_factors_rated psy sol u c v :
  c_mass_airflow_ratio c = Some 1 ->
  let M := NRELDXModel (T:=R) psy sol in
  let ti := degC (ps_db (c_indoor c)) in
  let to := degC (ps_db (c_outdoor c)) in
  (md_f_gtc M u c = Ok v -> v = charge_only Cooling true ti to (u_charge u))
  /\ (md_f_gcp M u c = Ok v -> v = charge_only Cooling false ti to (u_charge u))
  /\ (md_f_ghc M u c = Ok v -> v = charge_only Heating true ti to (u_charge u))
  /\ (md_f_ghp M u c = Ok v -> v = charge_only Heating false ti to (u_charge u)).
Proof.
  intros H. cbv zeta. cbn [NRELDXModel md_f_gtc md_f_gcp md_f_ghc md_f_ghp].
  repeat split; apply grading_rated; auto.
Qed.

(** A resistive defroster: the compressor's power falls, the heater's is added for its time. *)
Lemma integrated_power psy steady (u : U) c t s p :
  in_defrost (u_defrost u) c = true -> df_strategy (u_defrost u) = DSResistive ->
  df_control (u_defrost u) = DCDemand ->
  df_time_fraction (u_defrost u) c = Ok t -> 0 <= t <= 1 -> steady u c = Ok s -> 0 <= s ->
  nrel_gross_integrated_heating_power psy steady u c = Ok p ->
  p = 0.954 * (1 - t) ^ 2 * s + t * df_resistive_power (u_defrost u)
  /\ p <= (1 - t) * s + t * df_resistive_power (u_defrost u).
Proof.
  intros D S C T Ht St Hs H. unfold nrel_gross_integrated_heating_power in H.
  rewrite D, T, S, C in H. cbn [rbind] in H. rewrite St in H. cbn [rbind] in H. apply Ok_inj in H.
  rnum_in H. subst p. split; [replace 0.954 with (954 / 1000) by lra; field|].
  assert (0 <= (1 - t) * s) by nra. nra.
Qed.

(** * The defaults of a two-speed unit, put together *)
Lemma watts_bounds s : 0.18 <= watts_per_cfm s <= 0.25.
Proof. destruct s; cbn [watts_per_cfm]; [|lra]. unfold Rmin, Rmax. repeat destruct (Rle_dec _ _); lra. Qed.

Lemma share_small e a : 0.18 <= e <= 0.25 -> 0 <= a <= 352.2 -> 0 <= per_cfm e * per_ton a < 0.03.
Proof.
  intros E A. replace (per_cfm e * per_ton a) with (e * a / (12000 * (1055.056 / 3600)))
    by (unfold per_cfm, per_ton;
        assert (0.028316846592 / 60 <> 0) by lra; assert (12000 * (1055.056 / 3600) <> 0) by lra;
        generalize dependent (0.028316846592 / 60); generalize dependent (12000 * (1055.056 / 3600));
        intros; field; auto).
  assert (0 <= e * a) by nra. assert (e * a <= 0.25 * 352.2) by nra. lra.
Qed.

Lemma lower_ok m (s : side R) x e f k : sd_fan_efficacy s = [e; e] -> sd_flow_per_cap s = Some (Many [f; k * f]) ->
  0 <= e * (k * f) < 1 ->
  exists y, nrel_lower_capacity (match m with Cooling => nadd | Heating => nsub end) s x = Ok y
    /\ gross_with m y e (k * f) = 0.72 * gross_with m x e f.
Proof.
  intros E F B.
  assert (N : match m with Cooling => (nadd (lit 1) (nmul e (k * f))) | Heating => nsub (lit 1) (nmul e (k * f)) end <> 0)
    by (destruct m; rnum; lra).
  assert (H : exists y, nrel_lower_capacity (match m with Cooling => nadd | Heating => nsub end) s x = Ok y).
  { unfold nrel_lower_capacity, flow_per_cap. rewrite E, F. cbn [geti nth_error rbind].
    unfold geti; cbn [nth_error rbind]. eexists. apply pydiv_ok. destruct m; exact N. }
  destruct H as (y & H). exists y. split; [exact H|].
  destruct (lower_capacity m s x y H) as (e0 & a0 & e1 & a1 & (A & l & L & P) & (A' & l' & L' & P') & G).
  rewrite E in A, A'. rewrite F in L, L'. injection A as <-. injection A' as <-.
  injection L as <-. injection L' as <-. injection P as <-. injection P' as <-. exact G.
Qed.

Lemma two_speed_defaults (u : U) x : sd_n (u_c u) = 2%nat -> sd_n (u_h u) = 2%nat ->
  let e := per_cfm (watts_per_cfm (u_seer u)) in
  let fc := per_ton 344.1 in
  let fh := per_ton 352.2 in
  exists u' yc yh,
    (nrel_set_rated_fan_characteristics false ;;;
     nrel_set_rated_net_total_cooling_capacity (Scalar x) ;;;
     nrel_set_rated_net_heating_capacity None) u = (u', Ok tt)
    /\ sd_net_cap (u_c u') = [x; yc] /\ sd_net_cap (u_h u') = [x; yh]
    /\ gross_with Cooling yc e (0.86 * fc) = 0.72 * gross_with Cooling x e fc
    /\ gross_with Heating yh e (0.8 * fh) = 0.72 * gross_with Heating x e fh.
Proof.
  intros Nc Nh e fc fh. pose proof (watts_bounds (u_seer u)) as Wb.
  destruct (nrel_set_rated_fan_characteristics false u) as [u1 r1] eqn:E1.
  assert (R1 : r1 = Ok tt).
  { unfold nrel_set_rated_fan_characteristics in E1. unfold sbind, sget, on_side, smod in E1.
    apply (f_equal snd) in E1. symmetry. exact E1. }
  subst r1. pose proof (characteristics _ _ E1) as Ch.
  destruct (Ch Cooling) as (C1 & C2 & C3). destruct (Ch Heating) as (H1 & H2 & H3).
  cbn [side_of] in *. rewrite Nc in C1, C2, C3. rewrite Nh in H1, H2, H3. cbn [nrel_flows repeat] in *.
  fold e in C1, H1. fold fc in C3. fold fh in H3.
  assert (Bc : 0 <= e * (0.86 * fc) < 1).
  { replace (e * (0.86 * fc)) with (0.86 * (e * fc)) by ring.
    pose proof (share_small _ 344.1 Wb ltac:(lra)) as B. fold e fc in B. lra. }
  assert (Bh : 0 <= e * (0.8 * fh) < 1).
  { replace (e * (0.8 * fh)) with (0.8 * (e * fh)) by ring.
    pose proof (share_small _ 352.2 Wb ltac:(lra)) as B. fold e fh in B. lra. }
  destruct (lower_ok Cooling _ x e fc 0.86 C1 C3 Bc) as (yc & Lc & Gc).
  destruct (lower_ok Heating _ x e fh 0.8 H1 H3 Bh) as (yh & Lh & Gh).
  eexists. exists yc, yh. split; [|split; [|split; [|split; [exact Gc|exact Gh]]]].
  - unfold sbind at 1. rewrite E1. unfold sbind at 1. unfold nrel_set_rated_net_total_cooling_capacity.
    unfold sbind at 1, sget at 1. rewrite C2. unfold sbind at 1, slift at 1. rewrite Lc. unfold on_side at 1, smod at 1.
    unfold nrel_set_rated_net_heating_capacity. unfold sbind at 1, sget at 1.
    cbn [wu_side u_c u_h ws_net_cap sd_net_cap].
    unfold sbind at 1, slift at 1. cbn [geti nth_error]. unfold geti. cbn [nth_error].
    set (v := wu_c (ws_net_cap [x; yc] (side_of Cooling u1)) u1).
    change (sd_net_cap (u_c v)) with [x; yc]. change (u_h v) with (u_h u1). cbn [need].
    rewrite H2. unfold sbind at 1, slift at 1. rewrite Lh. unfold on_side, smod. reflexivity.
  - reflexivity.
  - reflexivity.
Qed.

Lemma nrel_outside psy sol (u : U) c : in_defrost (u_defrost u) c = false ->
  let M := NRELDXModel psy sol in
  gross_integrated_heating_capacity M u (Some c) = gross_steady_state_heating_capacity M u (Some c)
  /\ gross_integrated_heating_power M u (Some c) = gross_steady_state_heating_power M u (Some c).
Proof.
  intros D M. unfold gross_integrated_heating_capacity, gross_integrated_heating_power,
    gross_steady_state_heating_capacity, gross_steady_state_heating_power.
  cbn [heating_conditions rbind M NRELDXModel md_gihc md_gihp md_ghc md_ghp md_f_ghc md_f_ghp].
  unfold nrel_gross_integrated_heating_capacity, nrel_gross_integrated_heating_power. rewrite D. auto.
Qed.

(** With a resistive demand defroster. *)
Lemma nrel_inside psy sol (u : U) c t s p q r :
  in_defrost (u_defrost u) c = true -> df_strategy (u_defrost u) = DSResistive ->
  df_control (u_defrost u) = DCDemand ->
  df_time_fraction (u_defrost u) c = Ok t -> 0 <= t <= 1 ->
  let M := NRELDXModel psy sol in
  gross_steady_state_heating_capacity M u (Some c) = Ok q ->
  gross_steady_state_heating_power M u (Some c) = Ok s -> 0 <= s ->
  gross_integrated_heating_capacity M u (Some c) = Ok r ->
  gross_integrated_heating_power M u (Some c) = Ok p ->
  r = 0.875 * (1 - t) ^ 2 * q
  /\ p = 0.954 * (1 - t) ^ 2 * s + t * df_resistive_power (u_defrost u)
  /\ p <= (1 - t) * s + t * df_resistive_power (u_defrost u).
Proof.
  intros D S C T Ht M Hq Hs Ps Hr Hp. split.
  - unfold gross_integrated_heating_capacity in Hr. cbn [heating_conditions rbind M NRELDXModel md_gihc] in Hr.
    unfold nrel_gross_integrated_heating_capacity in Hr. rewrite D, T, S, C in Hr. cbn [rbind] in Hr.
    unfold gross_steady_state_heating_capacity in Hq. cbn [heating_conditions rbind M NRELDXModel md_ghc md_f_ghc] in Hq.
    rewrite Hq in Hr. cbn [rbind] in Hr. apply Ok_inj in Hr. rnum_in Hr. subst r.
    replace 0.875 with (875 / 1000) by lra. field.
  - exact (integrated_power psy _ u c t s p D S C T Ht Hs Ps Hp).
Qed.

Lemma nrel_defrost_case sol :
  let u := toy_unit 0 (toy_defrost DCDemand DSResistive) in
  let c := toy_cond 294 289 270 1 in
  let M := NRELDXModel toy_psy sol in
  in_defrost (u_defrost u) c = true
  /\ (exists t, df_time_fraction (u_defrost u) c = Ok t /\ 0 <= t <= 1)
  /\ exists q s r p, gross_steady_state_heating_capacity M u (Some c) = Ok q
  /\ gross_steady_state_heating_power M u (Some c) = Ok s /\ 0 <= s
  /\ gross_integrated_heating_capacity M u (Some c) = Ok r
  /\ gross_integrated_heating_power M u (Some c) = Ok p.
Proof.
  intros u c M.
  assert (D : in_defrost (u_defrost u) c = true) by exact (proj1 (proj2 epri_example)).
  split; [exact D|].
  assert (F : forall m b fn, resnet_grading_model toy_psy m b fn u c = Ok 1).
  { intros m b fn. unfold resnet_grading_model. change (u_charge u) with 0.
    rewrite lit0_R, lit1_R. cbn [neqb RNum]. destruct (Reqb_spec 0 0); [reflexivity|lra]. }
  assert (Q : nrel_gross_heating_capacity u c
    = Ok (heat_cap_flow 1 * (heat_cap_T (degF 294) (degF 270) * 9700))) by (apply ghc_eq; reflexivity).
  assert (P : nrel_gross_heating_power u c
    = Ok (heat_eir_T (degF 294) (degF 270) * heat_cap_T (degF 294) (degF 270) * (9700 / (97 / 22)))).
  { apply ghp_rated; try reflexivity. lra. }
  assert (T : df_time_fraction (u_defrost u) c = Ok (3.5 / 60)).
  { unfold u, toy_unit, toy_defrost. cbn [u_defrost df_time_fraction]. unfold default_time_fraction.
    f_equal. unfold fr_min. rnum. lra. }
  split; [eexists; split; [exact T|lra]|].
  set (q := heat_cap_flow 1 * (heat_cap_T (degF 294) (degF 270) * 9700)) in *.
  set (s := heat_eir_T (degF 294) (degF 270) * heat_cap_T (degF 294) (degF 270) * (9700 / (97 / 22))) in *.
  assert (E1 : gross_steady_state_heating_capacity M u (Some c) = Ok (q * 1)).
  { unfold gross_steady_state_heating_capacity, product. cbn [heating_conditions rbind M NRELDXModel md_ghc md_f_ghc].
    rewrite Q. cbn [rbind]. rewrite F. reflexivity. }
  assert (E2 : gross_steady_state_heating_power M u (Some c) = Ok (s * 1)).
  { unfold gross_steady_state_heating_power, product. cbn [heating_conditions rbind M NRELDXModel md_ghp md_f_ghp].
    rewrite P. cbn [rbind]. rewrite F. reflexivity. }
  do 4 eexists. split; [exact E1|]. split; [exact E2|]. split.
  { unfold s, heat_eir_T, heat_cap_T, degF. lra. }
  split.
  - unfold gross_integrated_heating_capacity. cbn [heating_conditions rbind M NRELDXModel md_gihc].
    unfold nrel_gross_integrated_heating_capacity. rewrite D, T.
    unfold u at 1, toy_unit, toy_defrost. cbn [u_defrost df_control df_strategy rbind].
    unfold gross_steady_state_heating_capacity in E1. cbn [heating_conditions rbind M NRELDXModel md_ghc md_f_ghc] in E1.
    rewrite E1. cbn [rbind]. reflexivity.
  - unfold gross_integrated_heating_power. cbn [heating_conditions rbind M NRELDXModel md_gihp].
    unfold nrel_gross_integrated_heating_power. rewrite D, T.
    unfold u at 1, toy_unit, toy_defrost. cbn [u_defrost df_control df_strategy rbind].
    unfold gross_steady_state_heating_power in E2. cbn [heating_conditions rbind M NRELDXModel md_ghp md_f_ghp] in E2.
    rewrite E2. cbn [rbind]. reflexivity.
Qed.

Lemma two_speed_case : exists u : U,
  sd_n (u_c u) = 2%nat /\ sd_n (u_h u) = 2%nat /\ watts_per_cfm (u_seer u) = 0.25.
Proof.
  pose (s := toy_side [10000; 7000] [10300; 7200] [300; 200] [4; 4] [2500; 1800] [2200; 1600] [4; 4] [1; 0.8]).
  exists (wu_h s (wu_c s (toy_unit 0 (toy_defrost DCDemand DSResistive)))).
  split; [reflexivity|]. split; [reflexivity|]. change (watts_per_cfm (Some 14) = 0.25).
  cbn [watts_per_cfm]. unfold Rmin, Rmax. repeat destruct (Rle_dec _ _); lra.
Qed.
