(** Properties C25 (for units), C72 and C73: RESNET units and their performance tables. *)
From Coq Require Import Reals Lra Lia List String.
From Verif.Base Require Import Num Res Tac.
From Verif.Model Require Import Units Util Psychrometrics Conditions Fan Tabular Unit Resnet DXUnit RatingSolver.
From Verif.Spec Require Import NrelSpec TabularSpec RatingSpec TestSpec UnitModels RatedSpec FanSpec.
From Verif.Proofs Require Import UnitsR ToyBuild ToyResnetTable ToyResnet Secant SingleTable SingleRating SingleRating2 RatedTable RatedValues RatedEer MissedRatings.
Import ListNotations.
Local Open Scope R_scope.

(** C25: a table given by the caller is the unit's net table, and the gross table of the
    unit differs from it by the rated fan power of the unit speed that stands for the table
    speed: a speed-dependent shift of all four tables. *)
Theorem C25_unit_gross_table : forall psy sol a (u : dxunit R) net,
  DXUnit psy sol (RESNETDXModel psy sol) a = Ok u -> rn_net (u_rn u) = Some net ->
  (forall p, get_kwarg_value "tabular_data" (a_kwargs a) = KTable p -> interpolators_set p) ->
  (forall p, get_kwarg_value "tabular_data" (a_kwargs a) = KTable p -> net = p)
  /\ exists gross fc fh, rn_gross (u_rn u) = Some gross
     /\ (forall m i k w, In (i, k) (table_columns (u_staging u)) -> (k <= table_speeds m net)%nat ->
           entry (sd_fan_power (side_of m u)) i w ->
           match m with Cooling => fc | Heating => fh end (INR k) = w)
     /\ forall s x v,
        (cooling_capacity net s x = Ok v -> cooling_capacity gross s x = Ok (v + fc s)) /\
        (cooling_power net s x = Ok v -> cooling_power gross s x = Ok (v - fc s)) /\
        (heating_capacity net s x = Ok v -> heating_capacity gross s x = Ok (v - fh s)) /\
        (heating_power net s x = Ok v -> heating_power gross s x = Ok (v - fh s)).
Proof. exact unit_gross_table. Qed.
Print Assumptions C25_unit_gross_table.

(** C72: at the rated indoor state and airflow, and any outdoor state, the net capacity and
    power of the unit are those of its table, up to the difference between the fan power at
    the condition and the stored rated fan power. *)
Theorem C72_net_values_follow_table : forall psy sol a (u : dxunit R) net m i k o c w0 w q p,
  DXUnit psy sol (RESNETDXModel psy sol) a = Ok u -> a_charge a = 0 -> rn_net (u_rn u) = Some net ->
  (forall p, get_kwarg_value "tabular_data" (a_kwargs a) = KTable p -> interpolators_set p) ->
  In (i, k) (table_columns (u_staging u)) -> (k <= table_speeds m net)%nat ->
  make_condition psy m u i None o = Ok c ->
  entry (sd_fan_power (side_of m u)) i w0 -> fan_power sol u c = Ok w ->
  table_capacity m net (INR k) (ps_db (c_outdoor c)) = Ok q ->
  table_power m net (INR k) (ps_db (c_outdoor c)) = Ok p ->
  (forall v, net_capacity sol (RESNETDXModel psy sol) m u (Some c) = Ok v -> v = q + fan_heat m (w - w0))
  /\ (forall v, net_power sol (RESNETDXModel psy sol) m u (Some c) = Ok v -> v = p + (w - w0)).
Proof. exact rated_values. Qed.
Print Assumptions C72_net_values_follow_table.

(** There is no difference for a unit without a fan of its own and a PSC motor, or whose
    rated pressure of that speed is the pressure of the condition. *)
Theorem C72_net_values_are_table_values : forall psy sol a (u : dxunit R) net m i k o c q p,
  DXUnit psy sol (RESNETDXModel psy sol) a = Ok u -> a_fan a = None -> a_charge a = 0 ->
  rn_net (u_rn u) = Some net ->
  (forall p, get_kwarg_value "tabular_data" (a_kwargs a) = KTable p -> interpolators_set p) ->
  In (i, k) (table_columns (u_staging u)) -> (k <= table_speeds m net)%nat ->
  fan_at_rated_pressure u m c ->
  make_condition psy m u i None o = Ok c ->
  table_capacity m net (INR k) (ps_db (c_outdoor c)) = Ok q ->
  table_power m net (INR k) (ps_db (c_outdoor c)) = Ok p ->
  (forall v, net_capacity sol (RESNETDXModel psy sol) m u (Some c) = Ok v -> v = q)
  /\ (forall v, net_power sol (RESNETDXModel psy sol) m u (Some c) = Ok v -> v = p).
Proof. exact rated_values_at_pressure. Qed.
Print Assumptions C72_net_values_are_table_values.

Theorem C72_net_cop_is_table_cop : forall psy sol a (u : dxunit R) net m i k o c x v,
  DXUnit psy sol (RESNETDXModel psy sol) a = Ok u -> a_fan a = None -> a_charge a = 0 ->
  rn_net (u_rn u) = Some net ->
  (forall p, get_kwarg_value "tabular_data" (a_kwargs a) = KTable p -> interpolators_set p) ->
  In (i, k) (table_columns (u_staging u)) -> (k <= table_speeds m net)%nat ->
  make_condition psy m u i None o = Ok c -> fan_at_rated_pressure u m c ->
  table_cop m net (INR k) (ps_db (c_outdoor c)) = Ok x ->
  net_cop sol (RESNETDXModel psy sol) m u (Some c) = Ok v -> v = x.
Proof. exact rated_cop. Qed.
Print Assumptions C72_net_cop_is_table_cop.

(** C73: a unit of any staging made from its ratings has, at the rating conditions, the
    capacities, EER and heating COP it was given. *)
Theorem C73_ratings_met : forall psy sol a (u : dxunit R) q h,
  DXUnit psy sol (RESNETDXModel psy sol) a = Ok u -> rated_unit a (u_staging u) q h ->
  (u_staging u = VARIABLE_SPEED -> u_heating_off u < fr_F 5) ->
  exists ca ch, rc_A_full (u_conds u) = Some ca /\ rc_H1_full (u_conds u) = Some ch
  /\ (fan_at_rated_pressure u Cooling ca ->
      (forall v, net_total_cooling_capacity sol (RESNETDXModel psy sol) u None = Ok v -> v = q)
      /\ (forall e v, a_eer a = Some e -> eer sol (RESNETDXModel psy sol) u None = Ok v -> v = e))
  /\ (fan_at_rated_pressure u Heating ch ->
      (forall v, net_steady_state_heating_capacity sol (RESNETDXModel psy sol) u None = Ok v -> v = h)
      /\ (forall c v, a_net_hcop a = Some (Scalar c) ->
            net_steady_state_heating_cop sol (RESNETDXModel psy sol) u None = Ok v -> v = c)).
Proof. exact ratings_met. Qed.
Print Assumptions C73_ratings_met.

(** C73: with a BPM motor the ratings are missed, on a side that depends on the airflows.
    Where speed 0 of a mode moves less air than the larger of the two full speeds, the unit
    cools less and less efficiently, or heats more and less efficiently, than it was rated
    to; where it moves more, the other way round. (Validate/MissedRuns.v shows each on a
    unit of the tests.) *)
Theorem C73_ratings_missed : forall psy sol a (u : dxunit R) f q h P vc vc0 vh vh0,
  sound_brentq 0 sol -> DXUnit psy sol (RESNETDXModel psy sol) a = Ok u ->
  a_fan a = None -> u_fan u = Some f -> f_class f = RESNETBPMFan ->
  rated_unit a (u_staging u) q h -> (u_staging u = VARIABLE_SPEED -> u_heating_off u < fr_F 5) ->
  get_rated_full_flow_rated_pressure u = Ok P -> 0 < P ->
  entry (sd_airflow (u_c u)) (sd_full (u_c u)) vc -> entry (sd_airflow (u_c u)) 0 vc0 ->
  entry (sd_airflow (u_h u)) (sd_full (u_h u)) vh -> entry (sd_airflow (u_h u)) 0 vh0 ->
  0 < vc /\ 0 < vc0 /\ 0 < vh /\ 0 < vh0 -> 0 < q -> 0 < h ->
  (vc0 < Rmax vc vh ->
     (forall v, net_total_cooling_capacity sol (RESNETDXModel psy sol) u None = Ok v -> v < q)
     /\ (forall e v, a_eer a = Some e -> 0 < e -> eer sol (RESNETDXModel psy sol) u None = Ok v -> v < e))
  /\ (Rmax vc vh < vc0 ->
     (forall v, net_total_cooling_capacity sol (RESNETDXModel psy sol) u None = Ok v -> q < v)
     /\ (forall e v, a_eer a = Some e -> 0 < e -> eer sol (RESNETDXModel psy sol) u None = Ok v -> 0 < v -> e < v))
  /\ (vh0 < Rmax vc vh ->
     (forall v, net_steady_state_heating_capacity sol (RESNETDXModel psy sol) u None = Ok v -> h < v)
     /\ (forall c v, a_net_hcop a = Some (Scalar c) -> 1 < c ->
          net_steady_state_heating_cop sol (RESNETDXModel psy sol) u None = Ok v -> v < c))
  /\ (Rmax vc vh < vh0 ->
     (forall v, net_steady_state_heating_capacity sol (RESNETDXModel psy sol) u None = Ok v -> v < h)
     /\ (forall c v, a_net_hcop a = Some (Scalar c) -> 1 < c ->
          net_steady_state_heating_cop sol (RESNETDXModel psy sol) u None = Ok v -> 1 < v -> c < v)).
Proof.
  intros psy sol a u f q h P vc vc0 vh vh0 S D Fa Ff Fk Ru Off HP Pp Vc Vc0 Vh Vh0 Pos.
  exact (ratings_missed psy sol a u f S D Fa Ff Fk q h P vc vc0 vh vh0 Ru Off HP Pp Vc Vc0 Vh Vh0 Pos).
Qed.
Print Assumptions C73_ratings_missed.

(** A single-stage unit with a PSC motor. *)
Example C72_C73_nonvacuous : exists (u : dxunit R) net c q p,
  DXUnit lin_psy rt_sol (RESNETDXModel lin_psy rt_sol) (toy_args 8 3.5) = Ok u
  /\ rated_unit (toy_args 8 3.5) (u_staging u) 10000 10000
  /\ a_eer (toy_args 8 3.5) = Some 12 /\ a_net_hcop (toy_args 8 3.5) = Some (Scalar 3.5)
  /\ rn_net (u_rn u) = Some net
  /\ In (0, 1)%nat (table_columns (u_staging u)) /\ (1 <= table_speeds Cooling net)%nat
  /\ make_condition lin_psy Cooling u 0 None None = Ok c /\ fan_at_rated_pressure u Cooling c
  /\ table_capacity Cooling net (INR 1) (ps_db (c_outdoor c)) = Ok q
  /\ table_power Cooling net (INR 1) (ps_db (c_outdoor c)) = Ok p /\ 0 < q /\ 0 < p.
Proof.
  destruct (toy_table 3.5 8) as (net & N & _ & Cl); [lra|].
  destruct (toy_built 8 3.5 net) as (g & P & s & b & n & E & _ & B & W & _); [lra|exact N|exact Cl|].
  eexists _, net, _, 10000, P. split; [exact E|].
  split; [repeat split; [lra|lra|exact lit0_R]|].
  split; [reflexivity|]. split; [reflexivity|]. split; [reflexivity|]. split; [left; reflexivity|].
  destruct (single_n _ _ _ _ _ _ _ _ _ _ _ N) as (N1 & _).
  split; [cbn [table_speeds]; rewrite N1; lia|].
  split; [apply rcd_ok|]. split; [left; reflexivity|].
  cbn [table_capacity table_power INR]. rewrite lit1_R in W.
  assert (O : ps_db (c_outdoor (rcd Cooling None)) = fr_F 95) by exact (outdoor_db Cooling).
  rewrite O. split; [exact (proj1 (single_caps _ _ _ _ _ _ _ _ _ _ _ N))|].
  split; [|lra]. rewrite <- O. exact W.
Qed.
