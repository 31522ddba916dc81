(** Property C94: performance maps between and beyond the rated temperatures
    (models/tabular_data.py). *)
From Coq Require Import Reals QArith Lra Lia List Bool Sorted ZArith.
From Verif.Base Require Import Num Res Tac.
From Verif.Model Require Import Units Util Curves Tabular.
From Verif.Spec Require Import TabularSpec MapShapeSpec.
From Verif.Proofs Require Import UnitsR TabTotal TabNeep2 MapShape.
Import ListNotations.
Local Open Scope R_scope.

(** Single- and two-speed data: at every speed the heating maps are one straight
    line up to 47 °F and level above. *)
Theorem C94_single_speed_maps :
  forall q95 seer eer q47 q17 hspf tmax tmin cop47 cd p,
  make_single_speed_model_data q95 seer eer q47 q17 hspf tmax tmin cop47 cd = Ok p ->
  tmin < fr_F 5 -> fr_F 95 < tmax ->
  (forall z, heating_shape (heating_capacity p z) (fr_F 17) (fr_F 47)
    /\ heating_shape (heating_power p z) (fr_F 17) (fr_F 47)) /\ cooling_maps p 1.
Proof. exact single_shape. Qed.
Print Assumptions C94_single_speed_maps.

Theorem C94_two_speed_maps :
  forall q95 seer eer q47 q17 hspf tmax tmin cop82 cop47 p,
  make_two_speed_model_data q95 seer eer q47 q17 hspf tmax tmin cop82 cop47 = Ok p ->
  tmin < fr_F 5 -> fr_F 95 < tmax ->
  (forall z, heating_shape (heating_capacity p z) (fr_F 17) (fr_F 47)
    /\ heating_shape (heating_power p z) (fr_F 17) (fr_F 47)) /\ cooling_maps p 2.
Proof. exact two_shape. Qed.
Print Assumptions C94_two_speed_maps.

Theorem C94_variable_speed_maps :
  forall q95 seer eer q47 q17 hspf tmax tmin ratio cop82 cop47 p,
  make_neep_statistical_model_data q95 seer eer q47 q17 hspf tmax tmin ratio cop82 cop47 = Ok p ->
  tmin < fr_F 5 -> fr_F 95 < tmax ->
  (forall z, joined_shape (heating_capacity p z) [tmin; fr_F 5; fr_F 17; fr_F 47]
    /\ joined_shape (heating_power p z) [tmin; fr_F 5; fr_F 17; fr_F 47]) /\ cooling_maps p 3.
Proof. exact stat_shape. Qed.
Print Assumptions C94_variable_speed_maps.

(** Listed data, with or without a lowest catalogued temperature. *)
Theorem C94_listed_maps : forall lct tmax tmin a a' p,
  make_neep_model_data lct tmax tmin a = (a', Ok p) ->
  let T := match lct with
           | Some l => [fr_F l; fr_F 5; fr_F 17; fr_F 47]
           | None => [fr_F 5; fr_F 17; fr_F 47]
           end in
  (forall d, In d [n_cc a; n_cp a] -> length d = 2%nat /\ Forall (fun r => length r = 3%nat) d) ->
  (forall d, In d [n_hc a; n_hp a] -> length d = length T /\ Forall (fun r => length r = 3%nat) d) ->
  tmin < fr_F 5 -> fr_F 95 < tmax -> (forall l, lct = Some l -> fr_F l < fr_F 5) ->
  (forall z, joined_shape (heating_capacity p z) T /\ joined_shape (heating_power p z) T)
  /\ cooling_maps p 3.
Proof. exact neep_shape. Qed.
Print Assumptions C94_listed_maps.

(** In terms of the two rated capacities, at any temperature in °F. *)
Theorem C94_single_speed_heating_capacity :
  forall q95 seer eer q47 q17 hspf tmax tmin cop47 cd p f,
  make_single_speed_model_data q95 seer eer q47 (Some q17) hspf tmax tmin cop47 cd = Ok p ->
  q95 <> 0 -> q47 <> 0 -> tmin < fr_F 5 -> fr_F 95 < tmax ->
  heating_capacity p 1 (fr_F f) = Ok (if Rle_dec f 47 then line 17 q17 47 q47 f else q47).
Proof. exact single_heating. Qed.
Print Assumptions C94_single_speed_heating_capacity.

(** Nothing keeps the extrapolated capacity positive: with three tenths of the
    capacity left at 17 °F it is negative at -10 °F, above the minimum heating
    temperature. *)
Theorem C94_capacity_positive_above_minimum_temperature_refuted : exists p,
  make_single_speed_model_data 10000 14.3 11.5 10000 (Some 3000) 7.5 (fr_F 125) (fr_F (-20)) None 0.25 = Ok p
  /\ exists q, heating_capacity p 1 (fr_F (-10)) = Ok q /\ q < 0.
Proof. exact single_negative. Qed.
Print Assumptions C94_capacity_positive_above_minimum_temperature_refuted.

(** 10 kW at 47 °F and 6.5 kW at 17 °F give 4.4 kW at -1 °F and 10 kW at 60 °F. *)
Example C94_single_nonvacuous : exists p,
  make_single_speed_model_data 10000 14.3 11.5 10000 (Some 6500) 7.5 (fr_F 125) (fr_F (-20)) None 0.25 = Ok p
  /\ heating_capacity p 1 (fr_F (-1)) = Ok 4400 /\ heating_capacity p 1 (fr_F 60) = Ok 10000.
Proof.
  assert (fr_F 95 < fr_F 125) by (apply fr_F_lt; lra).
  assert (fr_F (-20) < fr_F 5) by (apply fr_F_lt; lra).
  destruct (single_total 10000 14.3 11.5 10000 (Some 6500) 7.5 (fr_F 125) (fr_F (-20)) None 0.25)
    as (p & E); auto; try lra; try (intros c Q; inversion Q; lra).
  exists p. split; auto.
  rewrite !(C94_single_speed_heating_capacity _ _ _ _ _ _ _ _ _ _ _ _ E) by (auto; lra).
  destruct (Rle_dec (-1) 47), (Rle_dec 60 47); try lra. split; f_equal. unfold line. lra.
Qed.

Example C94_multi_nonvacuous :
  (exists p, make_two_speed_model_data 10000 16 12 10000 None 8.5 (fr_F 125) (fr_F (-20)) None None = Ok p)
  /\ (exists p, make_neep_statistical_model_data 10000 19 12.8 10000 (Some 7000) 9 (fr_F 125) (fr_F (-20)) None None None = Ok p)
  /\ fr_F (-20) < fr_F 5 /\ fr_F 95 < fr_F 125.
Proof.
  assert (fr_F 95 < fr_F 125) by (apply fr_F_lt; lra).
  assert (fr_F (-20) < fr_F 5) by (apply fr_F_lt; lra).
  assert (fr_F (-78) <= fr_F (-20)) by (apply fr_F_le; lra).
  split; [|split; [|auto]].
  - apply two_total; auto; try lra; intros c E; inversion E; lra.
  - apply statistical_total; auto; try lra; intros c E; inversion E; lra.
Qed.

(** A listing: the intermediate heating capacity at -7 °F is on the line through
    those at 5 °F and 17 °F. *)
Example C94_listed_nonvacuous : exists a a' p,
  make_neep_model_data (T:=R) None (fr_F 125) (fr_F (-20)) a = (a', Ok p)
  /\ (forall d, In d [n_cc a; n_cp a] -> length d = 2%nat /\ Forall (fun r => length r = 3%nat) d)
  /\ (forall d, In d [n_hc a; n_hp a] -> length d = 3%nat /\ Forall (fun r => length r = 3%nat) d)
  /\ heating_capacity p 3 (fr_F (-7)) = Ok (fr_Btuh 13600).
Proof.
  destruct (neep_first_call
    (mkNeep [[Some 10650; None; Some 24960]; [Some 10650; Some 21600; Some 24750]]
            [[Some 0.52; None; Some 1.95]; [Some 0.78; Some 1.66; Some 2.52]]
            [[Some 10700; None; Some 18700]; [Some 14000; Some 18900; Some 23800]; [Some 9200; Some 21600; Some 29200]]
            [[Some 1.46; None; Some 2.49]; [Some 1.57; Some 2.05; Some 2.77]; [Some 0.56; Some 1.67; Some 2.73]])
    (fr_F 125) (fr_F (-20)) _ _ _ _ _ _ _ _ _ _ _ _ _ _ _ _ _ _ _ _ _ _ _ _ _ _ _ _ _ _ eq_refl ltac:(lra) eq_refl ltac:(lra)
    eq_refl ltac:(lra) eq_refl ltac:(lra)) as (a' & p & E & H).
  - apply fr_F_lt; lra.
  - apply fr_F_lt; lra.
  - assert (DC : forall d, In d [n_cc (mkNeep (T:=R) [[Some 10650; None; Some 24960]; [Some 10650; Some 21600; Some 24750]]
            [[Some 0.52; None; Some 1.95]; [Some 0.78; Some 1.66; Some 2.52]] [] []);
       n_cp (mkNeep (T:=R) [[Some 10650; None; Some 24960]; [Some 10650; Some 21600; Some 24750]]
            [[Some 0.52; None; Some 1.95]; [Some 0.78; Some 1.66; Some 2.52]] [] [])] ->
       length d = 2%nat /\ Forall (fun r => length r = 3%nat) d).
    { intros d [<-|[<-|[]]]; cbn; auto. }
    eexists _, a', p. split; [exact E|]. split; [exact DC|].
    assert (DH : forall d, In d [
            [[Some 10700; None; Some 18700]; [Some 14000; Some 18900; Some 23800]; [Some 9200; Some 21600; Some 29200]];
            [[Some 1.46; None; Some 2.49]; [Some 1.57; Some 2.05; Some 2.77]; [Some 0.56; Some 1.67; Some 2.73]]] ->
       length d = 3%nat /\ Forall (fun r => length r = 3%nat) d).
    { intros d [<-|[<-|[]]]; cbn; auto. }
    split; [exact DH|].
    destruct (C94_listed_maps _ _ _ _ _ _ E DC DH) as (J & _).
    + apply fr_F_lt; lra.
    + apply fr_F_lt; lra.
    + discriminate.
    + destruct (J 3) as ((_ & J2 & _) & _).
      destruct (J2 (fr_F 5) (fr_F 17) [fr_F 47] (fr_F (-7)) eq_refl) as (va & vb & A & B & C).
      { apply fr_F_le; lra. }
      destruct (H 0%nat 2%nat 5 18700) as (_ & H0). destruct (H0 eq_refl) as (H0' & _).
      destruct (H 1%nat 2%nat 17 23800) as (_ & H1). destruct (H1 eq_refl) as (H1' & _).
      specialize (H0' eq_refl). specialize (H1' eq_refl). cbn [Z.of_nat Pos.of_succ_nat Pos.succ] in H0', H1'.
      rewrite H0' in A. rewrite H1' in B. apply Ok_inj in A, B. subst va vb.
      rewrite C. f_equal. unfold line. rewrite !fr_F_affine. unfold fr_Btuh. cbn [nmul RNum]. field.
Qed.
