(** Lemmas for C118: NREL heating including defrost in warmer weather. *)
From Coq Require Import String Reals QArith Lra Psatz List.
From Verif.Base Require Import Num Res Tac.
From Verif.Model Require Import Units Util Psychrometrics Conditions Defrost Fan Unit NREL BaseModel Resnet DXUnit.
From Verif.Spec Require Import NrelSpec ModelSpec WeatherSpec FrostHumidSpec FrostWeatherSpec FrostWarmSpec.
From Verif.Proofs Require Import UnitsR NrelProofs ToyUnit NrelProofs2 NrelDefaults HeatRatio Weather FrostWeather FrostHumid.
From Verif.Props Require Import P_Psych.
Import ListNotations.
Local Open Scope R_scope.

Section Warm.
  Variable psy : psychro R.

  Lemma floor_le g g' : g' <= g -> 0.000001 <= Rmax 0.000001 g' <= Rmax 0.000001 g
    /\ (0.000001 < g -> g' < g -> Rmax 0.000001 g' < Rmax 0.000001 g)
    /\ (g <= 0.0084 -> Rmax 0.000001 g <= 0.0084).
  Proof. intros. unfold Rmax. repeat split; repeat destruct Rle_dec; lra. Qed.

  Lemma shorter_defrost c c' g g' t t' : coil_gap psy c g -> coil_gap psy c' g' -> g' <= g ->
    epri_defrost_time_fraction psy c = Ok t -> epri_defrost_time_fraction psy c' = Ok t' ->
    t' <= t /\ (0.000001 < g -> g' < g -> t' < t).
  Proof.
    intros (h & w & H & S & ->) (h' & w' & H' & S' & ->) L T T'.
    destruct (floor_le _ _ L) as (G1 & G2 & _).
    rewrite (epri_eq psy c _ (gap psy c w h S H)) in T by lra.
    rewrite (epri_eq psy c' _ (gap psy c' w' h' S' H')) in T' by lra.
    apply Ok_inj in T, T'. subst t t'. set (d := Rmax _ (h - w)) in *. set (d' := Rmax _ (h' - w')) in *. clearbody d d'.
    assert (E : d / (d + 0.01446) - d' / (d' + 0.01446) = (d - d') * (0.01446 / ((d + 0.01446) * (d' + 0.01446)))) by (field; lra).
    assert (K : 0 < 0.01446 / ((d + 0.01446) * (d' + 0.01446))) by (apply Rdiv_lt_0_compat; nra).
    split; [nra|]. intros X Y. specialize (G2 X Y). nra.
  Qed.

  Variable sol : solvers R.
  Variable u : dxunit R.
  Notation M := (NRELDXModel psy sol).

  Definition cap_factor (g t : R) : R :=
    match df_control (u_defrost u) with DCTimed => 0.909 - 107.33 * Rmax 0.000001 g | _ => 0.875 * (1 - t) end.
  Definition pow_factor (g t : R) : R :=
    match df_control (u_defrost u) with DCTimed => 0.9 - 36.45 * Rmax 0.000001 g | _ => 0.954 * (1 - t) end.

  Lemma factors g g' t t' : g' <= g -> 0 <= t' <= t -> t < 1 -> (df_control (u_defrost u) = DCTimed -> g <= 0.0084) ->
    0 < cap_factor g t <= cap_factor g' t' /\ cap_factor g' t' <= 0.909 /\ 0 < pow_factor g t /\ 0 < pow_factor g' t'
    /\ cap_factor g t * pow_factor g' t' <= cap_factor g' t' * pow_factor g t.
  Proof.
    intros L Ht Ht1 B. destruct (floor_le _ _ L) as (G1 & _ & G3). unfold cap_factor, pow_factor.
    destruct (df_control (u_defrost u)); try (repeat split; nra).
    specialize (G3 (B eq_refl)). set (d := Rmax _ g) in *. set (d' := Rmax _ g') in *. clearbody d d'.
    repeat split; nra.
  Qed.

  Lemma frost_cap_at c g t s q : in_defrost (u_defrost u) c = true -> coil_gap psy c g ->
    df_time_fraction (u_defrost u) c = Ok t ->
    gross_steady_state_heating_capacity M u (Some c) = Ok s ->
    gross_integrated_heating_capacity M u (Some c) = Ok q ->
    exists qd, q = s * cap_factor g t * (1 - t) - qd * t
      /\ match df_strategy (u_defrost u) with
         | DSReverseCycle => exists x, entry (sd_gross_cap (u_h u)) (c_speed c) x
              /\ qd = 0.01 * (7.222 - degC (ps_db (c_outdoor c))) * (x / 1.01667)
         | _ => qd = 0 end.
  Proof. intros D (h & w & H & S & ->) T St I. exact (frost_cap psy sol u c w h t s q D S H T St I). Qed.

  Lemma dry_cap c : in_defrost (u_defrost u) c = false ->
    gross_integrated_heating_capacity M u (Some c) = gross_steady_state_heating_capacity M u (Some c).
  Proof.
    intros D. unfold gross_integrated_heating_capacity. cbn [heating_conditions rbind NRELDXModel md_gihc].
    unfold nrel_gross_integrated_heating_capacity. rewrite D. reflexivity.
  Qed.

  Lemma capacity_follows c c' g g' t t' s s' q q' :
    milder_frost psy u c c' g g' t t' -> proper_frost u c g ->
    gross_steady_state_heating_capacity M u (Some c) = Ok s ->
    gross_steady_state_heating_capacity M u (Some c') = Ok s' ->
    gross_integrated_heating_capacity M u (Some c) = Ok q ->
    gross_integrated_heating_capacity M u (Some c') = Ok q' ->
    0 <= s -> (s <= s' -> q <= q') /\ (s < s' -> q < q').
  Proof.
    intros ((W & Df) & Sp & G & G' & Lg & T & T' & Ht & Ht1) (Bt & Rv) S S' I I' Ps.
    destruct (factors g g' t t' Lg Ht Ht1 Bt) as (F1 & F2 & _).
    assert (A : in_defrost (u_defrost u) c = true -> q <= s /\ exists qd, 0 <= qd /\ q = s * cap_factor g t * (1 - t) - qd * t
      /\ match df_strategy (u_defrost u) with
         | DSReverseCycle => exists x, entry (sd_gross_cap (u_h u)) (c_speed c) x /\ 0 <= x
              /\ qd = 0.01 * (7.222 - degC (ps_db (c_outdoor c))) * (x / 1.01667)
         | _ => qd = 0 end).
    { intros D. destruct (frost_cap_at c g t s q D G T S I) as (qd & E & Q).
      assert (P : 0 <= qd /\ match df_strategy (u_defrost u) with
         | DSReverseCycle => exists x, entry (sd_gross_cap (u_h u)) (c_speed c) x /\ 0 <= x
              /\ qd = 0.01 * (7.222 - degC (ps_db (c_outdoor c))) * (x / 1.01667)
         | _ => qd = 0 end).
      { destruct (df_strategy (u_defrost u)); try (split; [lra|exact Q]).
        destruct Q as (x & X & Q). destruct (Rv eq_refl) as (Tm & Gp). specialize (Gp x X).
        split; [|eauto]. subst qd. assert (0 <= x / 1.01667) by (unfold Rdiv; nra). nra. }
      destruct P as (P & Q'). split; [|eauto].
      assert (X : cap_factor g t * (1 - t) <= 1) by nra.
      assert (Y : s * (cap_factor g t * (1 - t)) <= s * 1) by (apply Rmult_le_compat_l; lra).
      assert (Z : 0 <= qd * t) by nra. rewrite E. lra. }
    destruct (in_defrost (u_defrost u) c') eqn:D'.
    - destruct (A (Df eq_refl)) as (_ & qd & P & E & Q).
      destruct (frost_cap_at c' g' t' s' q' D' G' T' S' I') as (qd' & E' & Q').
      assert (Qq : qd' <= qd).
      { destruct (df_strategy (u_defrost u)); try lra.
        destruct Q as (x & X & Px & ->), Q' as (x' & X' & ->). rewrite Sp in X'. unfold entry in *.
        assert (x' = x) by congruence. subst x'. assert (0 <= x / 1.01667) by (unfold Rdiv; nra).
        assert (degC (ps_db (c_outdoor c)) <= degC (ps_db (c_outdoor c'))) by (unfold degC; lra).
        set (z := x / 1.01667) in *. clearbody z. nra. }
      set (m := cap_factor g t) in *. set (m' := cap_factor g' t') in *. clearbody m m'.
      assert (K : m * (1 - t) <= m' * (1 - t')) by (apply Rmult_le_compat; lra).
      assert (K0 : 0 < m * (1 - t)) by (apply Rmult_lt_0_compat; lra).
      assert (Z : qd' * t' <= qd * t) by (apply Rle_trans with (qd * t'); nra).
      set (a := m * (1 - t)) in *. set (a' := m' * (1 - t')) in *.
      replace (s * m * (1 - t)) with (s * a) in E by (unfold a; ring).
      replace (s' * m' * (1 - t')) with (s' * a') in E' by (unfold a'; ring).
      clearbody a a'. split; intros L; subst q q'; nra.
    - rewrite (dry_cap c' D'), S' in I'. apply Ok_inj in I'. subst q'.
      destruct (in_defrost (u_defrost u) c) eqn:D.
      + destruct (A eq_refl) as (X & _). lra.
      + rewrite (dry_cap c D), S in I. apply Ok_inj in I. lra.
  Qed.

  Lemma frost_pow_at c g t p e : in_defrost (u_defrost u) c = true -> coil_gap psy c g ->
    df_time_fraction (u_defrost u) c = Ok t -> df_strategy (u_defrost u) = DSResistive ->
    gross_steady_state_heating_power M u (Some c) = Ok p ->
    gross_integrated_heating_power M u (Some c) = Ok e ->
    e = p * pow_factor g t * (1 - t) + df_resistive_power (u_defrost u) * t.
  Proof.
    intros D (h & w & H & S & ->) T R1 St I. unfold gross_integrated_heating_power in I.
    cbn [heating_conditions rbind NRELDXModel md_gihp] in I.
    unfold nrel_gross_integrated_heating_power in I. rewrite D, T, R1, (gap psy c w h S H) in I. cbn [rbind] in I.
    unfold gross_steady_state_heating_power in St. cbn [heating_conditions rbind NRELDXModel md_ghp md_f_ghp] in St.
    rewrite St in I. unfold pow_factor.
    destruct (df_control (u_defrost u)); cbn [rbind] in I; apply Ok_inj in I; rewrite <- I; rnum; lra.
  Qed.

  (** The COP with a resistive defrost. *)
  Lemma frost_cop_at c g t s y n : in_defrost (u_defrost u) c = true -> coil_gap psy c g ->
    df_time_fraction (u_defrost u) c = Ok t -> 0 <= t < 1 -> df_strategy (u_defrost u) = DSResistive ->
    0 <= df_resistive_power (u_defrost u) -> (df_control (u_defrost u) = DCTimed -> g <= 0.0084) ->
    gross_steady_state_heating_capacity M u (Some c) = Ok s -> 0 < s ->
    gross_steady_state_heating_cop M u (Some c) = Ok y -> 0 < y ->
    gross_integrated_heating_cop M u (Some c) = Ok n ->
    exists p, gross_steady_state_heating_power M u (Some c) = Ok p /\ 0 < p /\ y = s / p
      /\ 0 < p * pow_factor g t * (1 - t) + df_resistive_power (u_defrost u) * t
      /\ n = s * cap_factor g t * (1 - t) / (p * pow_factor g t * (1 - t) + df_resistive_power (u_defrost u) * t).
  Proof.
    intros D G T Ht R1 Rp B S Ps Y Py N.
    apply ratio_inv in Y as (s0 & p & S0 & P & Np & ->). rewrite S in S0. apply Ok_inj in S0. subst s0.
    apply ratio_inv in N as (q & e & I & E & Ne & ->).
    assert (Pp : 0 < p).
    { destruct (Rtotal_order p 0) as [X|[X|X]]; [|contradiction|exact X]. exfalso.
      assert (Z : s / p * p = s) by (field; lra). set (z := s / p) in *. clearbody z. nra. }
    destruct (frost_cap_at c g t s q D G T S I) as (qd & Q & Qd). rewrite R1 in Qd. subst qd.
    pose proof (frost_pow_at c g t p e D G T R1 P E) as Ee.
    destruct (factors g g t t (Rle_refl g) ltac:(lra) ltac:(lra) B) as (_ & _ & F & _).
    exists p. split; [exact P|]. split; [exact Pp|]. split; [reflexivity|].
    split; [assert (0 < p * pow_factor g t * (1 - t)) by (repeat apply Rmult_lt_0_compat; lra); nra|].
    subst q e. f_equal. ring.
  Qed.

  Lemma cop_follows c c' g g' t t' s s' y y' n n' :
    milder_frost psy u c c' g g' t t' -> in_defrost (u_defrost u) c' = true ->
    df_strategy (u_defrost u) = DSResistive -> 0 <= df_resistive_power (u_defrost u) ->
    (df_control (u_defrost u) = DCTimed -> g <= 0.0084) ->
    gross_steady_state_heating_capacity M u (Some c) = Ok s ->
    gross_steady_state_heating_capacity M u (Some c') = Ok s' -> 0 < s <= s' ->
    gross_steady_state_heating_cop M u (Some c) = Ok y ->
    gross_steady_state_heating_cop M u (Some c') = Ok y' -> 0 < y <= y' ->
    gross_integrated_heating_cop M u (Some c) = Ok n ->
    gross_integrated_heating_cop M u (Some c') = Ok n' -> n <= n' /\ (y < y' -> n < n').
  Proof.
    intros ((W & Df) & Sp & G & G' & Lg & T & T' & Ht & Ht1) D' R1 Rp Bt S S' Ls Y Y' Ly N N'.
    pose proof (Df D') as D.
    destruct (factors g g' t t' Lg Ht Ht1 Bt) as (F1 & F2 & F3 & F4 & F5).
    destruct (frost_cop_at c g t s y n D G T ltac:(lra) R1 Rp Bt S ltac:(lra) Y ltac:(lra) N) as (p & P & Pp & Ey & X & En).
    destruct (frost_cop_at c' g' t' s' y' n' D' G' T' ltac:(lra) R1 Rp ltac:(intros Z; specialize (Bt Z); lra)
      S' ltac:(lra) Y' ltac:(lra) N') as (p' & P' & Pp' & Ey' & X' & En').
    set (m := cap_factor g t) in *. set (m' := cap_factor g' t') in *.
    set (k := pow_factor g t) in *. set (k' := pow_factor g' t') in *. set (R0 := df_resistive_power _) in *.
    clearbody m m' k k' R0. clear - Ht Ht1 Ls Ly F1 F3 F4 F5 Rp Pp Ey X En Pp' Ey' X' En'.
    assert (C1 : y' - y = (s' * p - s * p') * (1 / (p * p'))) by (subst y y'; field; lra).
    assert (I0 : 0 < 1 / (p * p')) by (apply Rdiv_lt_0_compat; nra).
    assert (Xc : s * p' <= s' * p) by nra.
    assert (Xs : y < y' -> s * p' < s' * p) by (intros; nra).
    clear C1 I0.
    set (b := p * k * (1 - t) + R0 * t) in *. set (b' := p' * k' * (1 - t') + R0 * t') in *.
    assert (E : n' - n = (s' * m' * (1 - t') * b - s * m * (1 - t) * b') * (1 / (b * b'))) by (subst n n'; field; lra).
    assert (I0 : 0 < 1 / (b * b')) by (apply Rdiv_lt_0_compat; nra).
    assert (Z1 : (s * p') * (m * k') <= (s' * p) * (m' * k))
      by (apply Rmult_le_compat; [nra|nra|lra|lra]).
    assert (Z1s : y < y' -> (s * p') * (m * k') < (s' * p) * (m' * k)).
    { intros L. specialize (Xs L). assert (0 < m * k') by nra. assert (0 < s' * p) by nra.
      apply Rlt_le_trans with ((s' * p) * (m * k')); [apply Rmult_lt_compat_r; lra|apply Rmult_le_compat_l; lra]. }
    assert (Z2 : (s * m) * ((1 - t) * (R0 * t')) <= (s' * m') * ((1 - t') * (R0 * t))).
    { assert (0 <= R0 * t' <= R0 * t) by (split; [nra|apply Rmult_le_compat_l; lra]).
      apply Rmult_le_compat; [nra|nra|apply Rmult_le_compat; lra|apply Rmult_le_compat; lra]. }
    assert (V : 0 < (1 - t) * (1 - t')) by nra.
    assert (Dd : s' * m' * (1 - t') * b - s * m * (1 - t) * b'
      = (1 - t) * (1 - t') * ((s' * p) * (m' * k) - (s * p') * (m * k'))
        + ((s' * m') * ((1 - t') * (R0 * t)) - (s * m) * ((1 - t) * (R0 * t')))) by (unfold b, b'; ring).
    set (A := (s' * p) * (m' * k) - (s * p') * (m * k')) in *.
    set (B := (s' * m') * ((1 - t') * (R0 * t)) - (s * m) * ((1 - t) * (R0 * t'))) in *.
    set (v := (1 - t) * (1 - t')) in *. set (i := 1 / (b * b')) in *.
    assert (HA : 0 <= A) by (unfold A; lra). assert (HB : 0 <= B) by (unfold B; lra).
    assert (HAs : y < y' -> 0 < A) by (intros L; specialize (Z1s L); unfold A; lra).
    rewrite Dd in E. clearbody A B v i. clear - E HA HB HAs V I0.
    assert (0 <= v * A) by nra.
    split; [nra|]. intros L. specialize (HAs L). assert (0 < v * A) by nra. nra.
  Qed.

  (** Against the COP without frost. *)
  Lemma timed_cop c g t s p y n : in_defrost (u_defrost u) c = true -> coil_gap psy c g ->
    df_time_fraction (u_defrost u) c = Ok t -> 0 <= t < 1 -> df_strategy (u_defrost u) = DSResistive ->
    0 <= df_resistive_power (u_defrost u) ->
    gross_steady_state_heating_capacity M u (Some c) = Ok s -> 0 < s ->
    gross_steady_state_heating_power M u (Some c) = Ok p ->
    gross_steady_state_heating_cop M u (Some c) = Ok y -> 0 < y ->
    gross_integrated_heating_cop M u (Some c) = Ok n ->
    (df_control (u_defrost u) <> DCTimed -> n < y)
    /\ (df_control (u_defrost u) = DCTimed -> g <= 0.0084 ->
        (y < n <-> df_resistive_power (u_defrost u) * t < p * (1 - t) * (0.009 - 70.88 * Rmax 0.000001 g))).
  Proof.
    intros D G T Ht R1 Rp S Ps P0 Y Py N.
    assert (Q : (df_control (u_defrost u) = DCTimed -> g <= 0.0084) ->
      0 < p /\ exists z, 0 < z /\ n - y = z * (p * (cap_factor g t - pow_factor g t) * (1 - t) - df_resistive_power (u_defrost u) * t)).
    { intros B. destruct (frost_cop_at c g t s y n D G T Ht R1 Rp B S Ps Y Py N) as (p1 & P & Pp & Ey & X & En).
      rewrite P0 in P. apply Ok_inj in P. subst p1. split; [exact Pp|].
      set (b := p * pow_factor g t * (1 - t) + _) in *.
      exists (s / (p * b)). split; [apply Rdiv_lt_0_compat; nra|].
      subst n y. unfold b in *. field. split; lra. }
    unfold cap_factor, pow_factor in Q.
    split; intros C.
    - destruct Q as (Pp & z & Pz & E); [intros; contradiction|].
      assert (L : p * (0.875 * (1 - t) - 0.954 * (1 - t)) * (1 - t) - df_resistive_power (u_defrost u) * t < 0).
      { assert (0 < p * ((1 - t) * (1 - t))) by (repeat apply Rmult_lt_0_compat; lra). nra. }
      destruct (df_control (u_defrost u)); try congruence; nra.
    - intros B. destruct Q as (Pp & z & Pz & E); [intros; exact B|]. rewrite C in E.
      replace (p * (0.909 - 107.33 * Rmax 0.000001 g - (0.9 - 36.45 * Rmax 0.000001 g)) * (1 - t))
        with (p * (1 - t) * (0.009 - 70.88 * Rmax 0.000001 g)) in E by lra.
      split; intros L; nra.
  Qed.

  Lemma nrel_cap_steady k q : gross_integrated_heating_capacity M u (Some k) = Ok q ->
    exists s, gross_steady_state_heating_capacity M u (Some k) = Ok s.
  Proof.
    intros I. destruct (in_defrost (u_defrost u) k) eqn:D; [|rewrite (dry_cap k D) in I; eauto].
    unfold gross_integrated_heating_capacity in I. cbn [heating_conditions rbind NRELDXModel md_gihc] in I.
    unfold nrel_gross_integrated_heating_capacity in I. rewrite D in I.
    apply rbind_ok in I. destruct I as (t & _ & I). apply rbind_ok in I. destruct I as (m & _ & I).
    apply rbind_ok in I. destruct I as (qd & _ & I). apply rbind_ok in I. destruct I as (s & S & _).
    exists s. exact S.
  Qed.

  Lemma warmer_frost_nrel c c' r q0 cop g g' t t' : u_charge u = 0 ->
    same_heating c c' r -> 0 <= r <= 1.5 -> rated_at (u_h u) (c_speed c) q0 cop ->
    60 <= in_F c <= 80 -> -40 <= out_F c < out_F c' -> out_F c' <= 65 ->
    milder_frost psy u c c' g g' t t' -> proper_frost u c g ->
    (forall q q', gross_integrated_heating_capacity M u (Some c) = Ok q ->
       gross_integrated_heating_capacity M u (Some c') = Ok q' -> q < q')
    /\ (in_defrost (u_defrost u) c' = true -> df_strategy (u_defrost u) = DSResistive ->
        0 <= df_resistive_power (u_defrost u) ->
        forall y y' n n', gross_steady_state_heating_cop M u (Some c) = Ok y ->
        gross_steady_state_heating_cop M u (Some c') = Ok y' ->
        gross_integrated_heating_cop M u (Some c) = Ok n ->
        gross_integrated_heating_cop M u (Some c') = Ok n' -> n < n').
  Proof.
    intros U (Sp & Id & R1 & R2) Hr K In O O' Mf Pf.
    assert (G : by_curves psy sol M u) by (split; [exact U|left; reflexivity]).
    destruct (warmer_heating psy sol M u G c c' r q0 cop Sp Id R1 R2 Hr K In O O') as (A & B).
    split.
    - intros q q' I I'. destruct (nrel_cap_steady _ _ I) as (s & S). destruct (nrel_cap_steady _ _ I') as (s' & S').
      specialize (A s s' S S'). apply (capacity_follows c c' g g' t t' s s' q q' Mf Pf S S' I I'); lra.
    - intros D R0 Rp y y' n n' Y Y' N N'. specialize (B y y' Y Y').
      pose proof N as N0. pose proof N' as N0'.
      apply ratio_inv in N0 as (q & e & I & _). apply ratio_inv in N0' as (q' & e' & I' & _).
      destruct (nrel_cap_steady _ _ I) as (s & S). destruct (nrel_cap_steady _ _ I') as (s' & S').
      specialize (A s s' S S').
      apply (cop_follows c c' g g' t t' s s' y y' n n' Mf D R0 Rp (proj1 Pf) S S' ltac:(lra) Y Y' ltac:(lra) N N'). lra.
  Qed.
End Warm.
