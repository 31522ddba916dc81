(** Reading the rating-unit properties: other heating efficiencies, and what a root finder
    promises. *)
From Coq Require Import Reals List String.
From Verif.Base Require Import Num Res.
From Verif.Model Require Import Units Util Psychrometrics Fan Tabular Unit DXUnit.
Import ListNotations.
Local Open Scope R_scope.

(** The constructor's arguments with other heating efficiency inputs: gross and net heating
    COP, heating degradation coefficient and HSPF. *)
Definition with_heating_efficiency (gross net : option (num_or_list R)) (cd hspf : option R)
    (a : dxargs R) : dxargs R :=
  mkArgs (a_staging a) (a_ccap a) (a_gross_ccop a) (a_net_ccop a) (a_cflow a) (a_cd_c a)
    (a_cooling_off a) (a_hcap a) gross net (a_hflow a) cd (a_heating_off a) (a_heating_on a)
    (a_defrost a) (a_fan a) (a_hfan_speed a) (a_cfan_speed a) (a_rated_hfan_speed a)
    (a_rated_cfan_speed a) (a_crank a) (a_crank_setpoint a) (a_charge a) (a_cycling a)
    (a_cfull a) (a_cint a) (a_hfull a) (a_hint a) (a_ducted a) (a_standard a)
    (a_seer a) (a_eer a) hspf (a_kwargs a).

(** Same cooling results (values and exceptions) whatever the conditions. *)
Definition same_cooling (sol : solvers R) (M : dxmodel R) (u u' : dxunit R) : Prop :=
  seer sol M u' = seer sol M u /\
  forall c,
    eer sol M u' c = eer sol M u c /\
    net_total_cooling_capacity sol M u' c = net_total_cooling_capacity sol M u c /\
    net_sensible_cooling_capacity sol M u' c = net_sensible_cooling_capacity sol M u c /\
    net_cooling_power sol M u' c = net_cooling_power sol M u c.
(** Same heating capacities, steady state and with defrost. *)
Definition same_heating_capacity (sol : solvers R) (M : dxmodel R) (u u' : dxunit R) : Prop :=
  forall c,
    net_steady_state_heating_capacity sol M u' c = net_steady_state_heating_capacity sol M u c /\
    net_integrated_heating_capacity sol M u' c = net_integrated_heating_capacity sol M u c.

(** [optimize.newton] returns a point where the function it was given is within [tol] of
    zero, or raises ([tol = 0]: an exact root). *)
Definition newton_finds_roots (tol : R) (sol : solvers R) : Prop :=
  forall f guess x, run_prober_pure f (newton sol guess) = Ok x ->
  exists e, f x = Ok e /\ Rabs e <= tol.

(** The inputs of a single-stage unit whose tables are made from its ratings: one rated
    cooling capacity, no list of heating capacities, no fan or performance tables of its
    own, nominal refrigerant charge. *)
Definition rated_single_stage (a : dxargs R) : Prop :=
  (a_staging a = Some SINGLE_STAGE \/ a_staging a = None)
  /\ (exists q, a_ccap a = Scalar q)
  /\ (a_hcap a = None \/ exists q, a_hcap a = Some (Scalar q))
  /\ a_fan a = None
  /\ get_kwarg_value "tabular_data" (a_kwargs a) = KNone
  /\ a_charge a = 0.

(** The rated heating airflow does not exceed the rated cooling airflow. *)
Definition heating_flow_within_cooling (u : dxunit R) : Prop :=
  exists ac ah, nth_error (sd_airflow (u_c u)) 0 = Some (Some ac)
    /\ nth_error (sd_airflow (u_h u)) 0 = Some (Some ah) /\ ah <= ac.

(** psychrolib can make the outdoor states (40% relative humidity) at which the model looks
    up its correction factors for the A and B tests. *)
Definition outdoor_states_exist (psy : psychro R) : Prop :=
  forall t, t = 82 \/ t = 95 ->
  exists s, PsychState psy (fr_F t) atm [("rel_hum"%string, 0.4)] = Ok s.
