(** Lemmas for C117: NREL heating including defrost in moister weather. *)
From Coq Require Import String Reals QArith Lra Psatz List.
From Verif.Base Require Import Num Res Tac.
From Verif.Model Require Import Units Util Psychrometrics Conditions Defrost Fan Unit NREL BaseModel Resnet DXUnit.
From Verif.Spec Require Import NrelSpec ModelSpec FrostHumidSpec.
From Verif.Proofs Require Import UnitsR NrelProofs ToyUnit NrelProofs2 NrelDefaults HeatRatio Weather.
From Verif.Props Require Import P_Psych.
Import ListNotations.
Local Open Scope R_scope.

Section Humid.
  Variable psy : psychro R.

  Lemma gap c w h : coil_saturation psy c w -> hr_of psy (c_outdoor c) = Ok h ->
    coil_diff_outdoor_air_humidity psy c = Ok (Rmax 0.000001 (h - w)).
  Proof.
    intros S H. unfold coil_diff_outdoor_air_humidity, coil_saturation in *. cbv zeta.
    match goal with |- context [GetSatHumRatio psy ?a ?b] =>
      replace a with (0.82 * degC (ps_db (c_outdoor c)) - 8.589) by (unfold degC, to_C; rnum; lra) end.
    rewrite S. cbn [rbind]. rewrite H. cbn [rbind]. f_equal. unfold pymax. unfold Rmax. rnum.
    rcases; destruct Rle_dec; lra.
  Qed.

  Lemma saturation_same c c' h h' w : moister psy c c' h h' -> coil_saturation psy c w -> coil_saturation psy c' w.
  Proof. intros (_ & _ & _ & O & P & _) S. unfold coil_saturation. rewrite O, P. exact S. Qed.

  Lemma gaps h h' w : h < h' -> Rmax 0.000001 (h - w) <= Rmax 0.000001 (h' - w)
    /\ 0.000001 <= Rmax 0.000001 (h - w) /\ (w + 0.000001 < h' -> Rmax 0.000001 (h - w) < Rmax 0.000001 (h' - w)).
  Proof. intros. unfold Rmax. repeat split; repeat destruct Rle_dec; lra. Qed.

  Lemma epri_eq c d : coil_diff_outdoor_air_humidity psy c = Ok d -> 0 < d ->
    epri_defrost_time_fraction psy c = Ok (d / (d + 0.01446)).
  Proof.
    intros D P. unfold epri_defrost_time_fraction. rewrite D. cbn [rbind].
    replace (lit 0.01446) with 0.01446 by (rnum; lra). rewrite lit1_R.
    rewrite pydiv_ok by lra. cbn [rbind nadd RNum].
    assert (0 < 0.01446 / d) by (apply Rdiv_lt_0_compat; lra).
    rewrite pydiv_ok by lra. f_equal. field. lra.
  Qed.

  Lemma longer_defrost c c' h h' w t t' : moister psy c c' h h' -> coil_saturation psy c w ->
    epri_defrost_time_fraction psy c = Ok t -> epri_defrost_time_fraction psy c' = Ok t' ->
    t <= t' /\ (w + 0.000001 < h' -> t < t').
  Proof.
    intros Mo S T T'. pose proof (saturation_same _ _ _ _ _ Mo S) as S'.
    destruct Mo as (_ & _ & _ & _ & _ & H & H' & L). destruct (gaps h h' w L) as (G1 & G2 & G3).
    rewrite (epri_eq c _ (gap c w h S H)) in T by lra. rewrite (epri_eq c' _ (gap c' w h' S' H')) in T' by lra.
    apply Ok_inj in T, T'. subst t t'. set (d := Rmax _ (h - w)) in *. set (d' := Rmax _ (h' - w)) in *. clearbody d d'.
    assert (E : d' / (d' + 0.01446) - d / (d + 0.01446) = (d' - d) * (0.01446 / ((d + 0.01446) * (d' + 0.01446)))) by (field; lra).
    assert (K : 0 < 0.01446 / ((d + 0.01446) * (d' + 0.01446))) by (apply Rdiv_lt_0_compat; nra).
    split; [nra|]. intros X. specialize (G3 X). nra.
  Qed.

  Variable sol : solvers R.
  Variable u : dxunit R.
  Notation M := (NRELDXModel psy sol).

  (** Without frost the humidity is not read. *)
  Lemma cap_same c c' h h' : moister psy c c' h h' ->
    gross_steady_state_heating_capacity M u (Some c') = gross_steady_state_heating_capacity M u (Some c).
  Proof.
    intros (S & R1 & I & O & _). unfold gross_steady_state_heating_capacity, product.
    cbn [heating_conditions rbind NRELDXModel md_ghc md_f_ghc].
    assert (E : nrel_gross_heating_capacity u c' = nrel_gross_heating_capacity u c)
      by (unfold nrel_gross_heating_capacity; rewrite S, R1, I, O; reflexivity).
    rewrite E. unfold resnet_grading_model, db_C. rewrite S, R1, I, O. reflexivity.
  Qed.
  Lemma pow_same c c' h h' : moister psy c c' h h' ->
    gross_steady_state_heating_power M u (Some c') = gross_steady_state_heating_power M u (Some c).
  Proof.
    intros (S & R1 & I & O & _). unfold gross_steady_state_heating_power, product.
    cbn [heating_conditions rbind NRELDXModel md_ghp md_f_ghp].
    assert (E : nrel_gross_heating_power u c' = nrel_gross_heating_power u c)
      by (unfold nrel_gross_heating_power; rewrite S, R1, I, O; reflexivity).
    rewrite E. unfold resnet_grading_model, db_C. rewrite S, R1, I, O. reflexivity.
  Qed.

  Lemma frost_cap c w h t s q : in_defrost (u_defrost u) c = true -> coil_saturation psy c w ->
    hr_of psy (c_outdoor c) = Ok h -> df_time_fraction (u_defrost u) c = Ok t ->
    gross_steady_state_heating_capacity M u (Some c) = Ok s ->
    gross_integrated_heating_capacity M u (Some c) = Ok q ->
    exists qd, q = s * (match df_control (u_defrost u) with
                        | DCTimed => 0.909 - 107.33 * Rmax 0.000001 (h - w) | _ => 0.875 * (1 - t) end) * (1 - t) - qd * t
      /\ match df_strategy (u_defrost u) with
         | DSReverseCycle => exists g, entry (sd_gross_cap (u_h u)) (c_speed c) g
              /\ qd = 0.01 * (7.222 - degC (ps_db (c_outdoor c))) * (g / 1.01667)
         | _ => qd = 0 end.
  Proof.
    intros D S H T St I. unfold gross_integrated_heating_capacity in I.
    cbn [heating_conditions rbind NRELDXModel md_gihc] in I.
    unfold nrel_gross_integrated_heating_capacity in I. rewrite D, T, (gap c w h S H) in I. cbn [rbind] in I.
    unfold gross_steady_state_heating_capacity in St. cbn [heating_conditions rbind NRELDXModel md_ghc md_f_ghc] in St.
    rewrite St in I.
    assert (X : exists m, (match df_control (u_defrost u) with
               | DCTimed => Ok (nsub (lit 0.909) (nmul (lit 107.33) (Rmax 0.000001 (h - w))))
               | _ => Ok (nmul (lit 0.875) (nsub (lit 1) t)) end) = Ok m
            /\ m = match df_control (u_defrost u) with
                        | DCTimed => 0.909 - 107.33 * Rmax 0.000001 (h - w) | _ => 0.875 * (1 - t) end).
    { destruct (df_control (u_defrost u)); eexists; (split; [reflexivity|]); rnum; lra. }
    destruct X as (m & X & <-). rewrite X in I. cbn [rbind] in I.
    apply rbind_ok in I. destruct I as (qd & Q & I). cbn [rbind] in I. apply Ok_inj in I.
    exists qd. split; [rewrite <- I; rnum; lra|].
    destruct (df_strategy (u_defrost u)); try (apply Ok_inj in Q; rewrite <- Q, lit0_R; reflexivity).
    apply rbind_ok in Q. destruct Q as (g & G & Q). apply arr_ok in G. exists g. split; [exact G|].
    apply Ok_inj in Q. rewrite <- Q. unfold degC, to_C. rnum. field.
  Qed.

  Lemma less_heat c c' h h' w t t' s q q' : moister psy c c' h h' -> coil_saturation psy c w ->
    in_defrost (u_defrost u) c = true ->
    df_time_fraction (u_defrost u) c = Ok t -> df_time_fraction (u_defrost u) c' = Ok t' -> 0 <= t <= t' -> t' < 1 ->
    gross_steady_state_heating_capacity M u (Some c) = Ok s -> 0 < s ->
    (df_control (u_defrost u) = DCTimed -> h' <= w + 0.0084) ->
    (df_strategy (u_defrost u) = DSReverseCycle -> degC (ps_db (c_outdoor c)) <= 7.222
       /\ forall g, entry (sd_gross_cap (u_h u)) (c_speed c) g -> 0 <= g) ->
    gross_integrated_heating_capacity M u (Some c) = Ok q ->
    gross_integrated_heating_capacity M u (Some c') = Ok q' ->
    q' <= q /\ (df_control (u_defrost u) = DCTimed /\ w + 0.000001 < h' \/ t < t' -> q' < q).
  Proof.
    intros Mo S D T T' Ht Ht' St Ps Dry Rev I I'.
    pose proof (saturation_same _ _ _ _ _ Mo S) as S'. pose proof (cap_same _ _ _ _ Mo) as St'. rewrite St in St'.
    assert (D' : in_defrost (u_defrost u) c' = true).
    { destruct Mo as (_ & _ & _ & O & _). unfold in_defrost in *. rewrite O. exact D. }
    pose proof Mo as (Sp & _ & _ & O & _ & H & H' & L).
    destruct (frost_cap c w h t s q D S H T St I) as (qd & E & Q).
    destruct (frost_cap c' w h' t' s q' D' S' H' T' St' I') as (qd' & E' & Q').
    assert (Qd : qd' = qd /\ 0 <= qd).
    { destruct (df_strategy (u_defrost u)); try (subst; lra).
      destruct Q as (g & G & ->), Q' as (g' & G' & ->). rewrite Sp in G'. unfold entry in *.
      assert (g' = g) by congruence. subst g'. rewrite O. split; [reflexivity|].
      destruct (Rev eq_refl) as (Tm & Gp). specialize (Gp g G).
      assert (0 <= g / 1.01667) by (unfold Rdiv; nra). nra. }
    destruct Qd as (-> & Pq). destruct (gaps h h' w L) as (G1 & G2 & G3).
    set (d := Rmax _ (h - w)) in *. set (d' := Rmax _ (h' - w)) in *.
    assert (Other : q = s * (0.875 * (1 - t)) * (1 - t) - qd * t ->
        q' = s * (0.875 * (1 - t')) * (1 - t') - qd * t' -> q' <= q /\ (t < t' -> q' < q)).
    { clear - Ht Ht' Ps Pq. intros E E'.
      assert (K : (1 - t') * (1 - t') <= (1 - t) * (1 - t)) by (apply Rmult_le_compat; lra).
      assert (K1 : s * ((1 - t') * (1 - t')) <= s * ((1 - t) * (1 - t))) by (apply Rmult_le_compat_l; lra).
      assert (K2 : qd * t <= qd * t') by (apply Rmult_le_compat_l; lra).
      split; [rewrite E, E'; lra|]. intros X.
      assert (Z : (1 - t') * (1 - t') < (1 - t) * (1 - t)) by nra.
      apply (Rmult_lt_compat_l s) in Z; [|exact Ps]. rewrite E, E'. lra. }
    destruct (df_control (u_defrost u));
      try (destruct (Other E E') as (O1 & O2); split; [exact O1|intros [(X & _)|X]; [discriminate X|exact (O2 X)]]; fail).
    - assert (B : d' <= 0.0084).
      { specialize (Dry eq_refl). unfold d', Rmax. destruct Rle_dec; lra. }
      clearbody d d'. set (m := 0.909 - 107.33 * d) in *. set (m' := 0.909 - 107.33 * d') in *.
      assert (Mm : 0 < m' <= m) by (unfold m, m'; lra).
      assert (Ms : w + 0.000001 < h' -> m' < m) by (intros X; specialize (G3 X); unfold m, m'; lra).
      clearbody m m'.
      assert (K : m' * (1 - t') <= m * (1 - t)) by (apply Rmult_le_compat; lra).
      assert (K1 : s * (m' * (1 - t')) <= s * (m * (1 - t))) by (apply Rmult_le_compat_l; lra).
      assert (K2 : qd * t <= qd * t') by (apply Rmult_le_compat_l; lra).
      split; [rewrite E, E'; lra|]. intros [(_ & X)|X].
      + specialize (Ms X).
        assert (Z : m' * (1 - t') < m * (1 - t)).
        { apply Rle_lt_trans with (m' * (1 - t)); [apply Rmult_le_compat_l; lra|apply Rmult_lt_compat_r; lra]. }
        apply (Rmult_lt_compat_l s) in Z; [|exact Ps]. rewrite E, E'. lra.
      + assert (Z : m' * (1 - t') < m * (1 - t)).
        { apply Rlt_le_trans with (m' * (1 - t)); [apply Rmult_lt_compat_l; lra|apply Rmult_le_compat_r; lra]. }
        apply (Rmult_lt_compat_l s) in Z; [|exact Ps]. rewrite E, E'. lra.
  Qed.

  Lemma frost_pow c w h t p e : in_defrost (u_defrost u) c = true -> coil_saturation psy c w ->
    hr_of psy (c_outdoor c) = Ok h -> df_time_fraction (u_defrost u) c = Ok t ->
    df_control (u_defrost u) = DCTimed -> df_strategy (u_defrost u) = DSResistive ->
    gross_steady_state_heating_power M u (Some c) = Ok p ->
    gross_integrated_heating_power M u (Some c) = Ok e ->
    e = p * (0.9 - 36.45 * Rmax 0.000001 (h - w)) * (1 - t) + df_resistive_power (u_defrost u) * t.
  Proof.
    intros D S H T C R1 St I. unfold gross_integrated_heating_power in I.
    cbn [heating_conditions rbind NRELDXModel md_gihp] in I.
    unfold nrel_gross_integrated_heating_power in I. rewrite D, T, C, R1, (gap c w h S H) in I. cbn [rbind] in I.
    unfold gross_steady_state_heating_power in St. cbn [heating_conditions rbind NRELDXModel md_ghp md_f_ghp] in St.
    rewrite St in I. cbn [rbind] in I. apply Ok_inj in I. rewrite <- I. rnum. lra.
  Qed.

  (** Timed resistive defrost of unchanging length. *)
  Lemma timed_resistive c c' h h' w t s p : moister psy c c' h h' -> coil_saturation psy c w ->
    in_defrost (u_defrost u) c = true -> df_control (u_defrost u) = DCTimed -> df_strategy (u_defrost u) = DSResistive ->
    df_time_fraction (u_defrost u) c = Ok t -> df_time_fraction (u_defrost u) c' = Ok t -> 0 <= t < 1 ->
    gross_steady_state_heating_capacity M u (Some c) = Ok s -> 0 < s ->
    gross_steady_state_heating_power M u (Some c) = Ok p -> 0 < p -> 0 <= df_resistive_power (u_defrost u) ->
    w + 0.000001 < h' <= w + 0.0084 ->
    (forall e e', gross_integrated_heating_power M u (Some c) = Ok e ->
       gross_integrated_heating_power M u (Some c') = Ok e' -> 0 < e' < e)
    /\ (forall n n', gross_integrated_heating_cop M u (Some c) = Ok n ->
       gross_integrated_heating_cop M u (Some c') = Ok n' -> n' < n).
  Proof.
    intros Mo S D C R1 T T' Ht St Ps Pw Pp Rs Hh.
    pose proof (saturation_same _ _ _ _ _ Mo S) as S'. pose proof (cap_same _ _ _ _ Mo) as St'. rewrite St in St'.
    pose proof (pow_same _ _ _ _ Mo) as Pw'. rewrite Pw in Pw'.
    assert (D' : in_defrost (u_defrost u) c' = true).
    { destruct Mo as (_ & _ & _ & O & _). unfold in_defrost in *. rewrite O. exact D. }
    pose proof Mo as (Sp & _ & _ & O & _ & H & H' & L).
    destruct (gaps h h' w L) as (G1 & G2 & G3). specialize (G3 ltac:(lra)).
    assert (B : Rmax 0.000001 (h' - w) <= 0.0084) by (unfold Rmax; destruct Rle_dec; lra).
    assert (V : forall e e', gross_integrated_heating_power M u (Some c) = Ok e ->
       gross_integrated_heating_power M u (Some c') = Ok e' ->
       e = p * (0.9 - 36.45 * Rmax 0.000001 (h - w)) * (1 - t) + df_resistive_power (u_defrost u) * t
       /\ e' = p * (0.9 - 36.45 * Rmax 0.000001 (h' - w)) * (1 - t) + df_resistive_power (u_defrost u) * t).
    { intros e e' E E'. split; [apply (frost_pow c w h t p e)|apply (frost_pow c' w h' t p e')]; assumption. }
    assert (Q : forall q q', gross_integrated_heating_capacity M u (Some c) = Ok q ->
       gross_integrated_heating_capacity M u (Some c') = Ok q' ->
       q = s * (0.909 - 107.33 * Rmax 0.000001 (h - w)) * (1 - t)
       /\ q' = s * (0.909 - 107.33 * Rmax 0.000001 (h' - w)) * (1 - t)).
    { intros q q' E E'. destruct (frost_cap c w h t s q D S H T St E) as (x & X1 & X2).
      destruct (frost_cap c' w h' t s q' D' S' H' T' St' E') as (y & Y1 & Y2).
      rewrite C, R1 in *. subst x y. split; lra. }
    set (d := Rmax _ (h - w)) in *. set (d' := Rmax _ (h' - w)) in *.
    set (K := df_resistive_power (u_defrost u) * t) in *.
    assert (PK : 0 <= K) by (unfold K; nra). clearbody d d' K. clear - G2 G3 B V Q PK Ps Pp Ht.
    assert (A1 : 0 < p * (1 - t)) by nra. assert (A2 : 0 < s * (1 - t)) by nra.
    split.
    - intros e e' E E'. destruct (V e e' E E') as (-> & ->). nra.
    - intros n n' N N'. apply ratio_inv in N as (q & e & E1 & E2 & _ & ->). apply ratio_inv in N' as (q' & e' & E1' & E2' & _ & ->).
      destruct (V e e' E2 E2') as (-> & ->). destruct (Q q q' E1 E1') as (-> & ->).
      set (a := p * (1 - t)) in *. set (b := s * (1 - t)) in *.
      replace (p * (0.9 - 36.45 * d) * (1 - t)) with (a * (0.9 - 36.45 * d)) by (unfold a; ring).
      replace (p * (0.9 - 36.45 * d') * (1 - t)) with (a * (0.9 - 36.45 * d')) by (unfold a; ring).
      replace (s * (0.909 - 107.33 * d) * (1 - t)) with (b * (0.909 - 107.33 * d)) by (unfold b; ring).
      replace (s * (0.909 - 107.33 * d') * (1 - t)) with (b * (0.909 - 107.33 * d')) by (unfold b; ring).
      clearbody a b. clear - G2 G3 B PK A1 A2.
      assert (Y : 0 < a * (0.9 - 36.45 * d) + K) by nra. assert (Y' : 0 < a * (0.9 - 36.45 * d') + K) by nra.
      assert (E : forall x y v z, a * (v - z * d) + K <> 0 -> a * (v - z * d') + K <> 0 ->
        b * (x - y * d) / (a * (v - z * d) + K) - b * (x - y * d') / (a * (v - z * d') + K)
        = b * ((d' - d) * (a * (y * v - x * z) + y * K)) / ((a * (v - z * d) + K) * (a * (v - z * d') + K)))
        by (intros; field; split; assumption).
      specialize (E 0.909 107.33 0.9 36.45 ltac:(lra) ltac:(lra)).
      replace (107.33 * 0.9 - 0.909 * 36.45) with 63.46395 in E by lra.
      assert (Z : 0 < b * ((d' - d) * (a * 63.46395 + 107.33 * K)) / ((a * (0.9 - 36.45 * d) + K) * (a * (0.9 - 36.45 * d') + K))).
      { apply Rdiv_lt_0_compat; [|apply Rmult_lt_0_compat; assumption]. repeat apply Rmult_lt_0_compat; lra. }
      lra.
  Qed.

  (** Other controls read the humidity only through the defrost time. *)
  Lemma demand_same c c' h h' : moister psy c c' h h' -> df_control (u_defrost u) <> DCTimed ->
    df_time_fraction (u_defrost u) c' = df_time_fraction (u_defrost u) c ->
    gross_integrated_heating_capacity M u (Some c') = gross_integrated_heating_capacity M u (Some c)
    /\ gross_integrated_heating_power M u (Some c') = gross_integrated_heating_power M u (Some c).
  Proof.
    intros Mo C T. pose proof (cap_same _ _ _ _ Mo) as Q. pose proof (pow_same _ _ _ _ Mo) as P.
    destruct Mo as (S & _ & _ & O & _).
    unfold gross_integrated_heating_capacity, gross_integrated_heating_power.
    unfold gross_steady_state_heating_capacity in Q. unfold gross_steady_state_heating_power in P.
    cbn [heating_conditions rbind NRELDXModel md_gihc md_gihp md_ghc md_f_ghc md_ghp md_f_ghp] in *.
    unfold nrel_gross_integrated_heating_capacity, nrel_gross_integrated_heating_power.
    unfold in_defrost. rewrite T, S, O, Q, P. destruct (df_control (u_defrost u)); try congruence; split; reflexivity.
  Qed.
End Humid.
