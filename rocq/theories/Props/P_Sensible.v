(** Property C101: the sensible capacity of the NREL and RESNET models
    (nrel.py:278-291, dx_unit.py:697-710). *)
From Coq Require Import String Reals Lra List.
From Verif.Base Require Import Num Res Tac.
From Verif.Model Require Import Units Psychrometrics Conditions Defrost Fan Unit BaseModel NREL Resnet DXUnit.
From Verif.Spec Require Import RatingSpec SensibleSpec.
From Verif.Proofs Require Import Sensible Sensible2.
Import ListNotations.
Local Open Scope R_scope.

(** The part of the air the coil treats goes to one saturated state, and the
    two capacities are its heat and moisture. *)
Theorem C101_split : forall psy sol M tol,
  M = NRELDXModel psy sol \/ M = RESNETDXModel psy sol ->
  ashrae_air psy -> newton_finds_roots tol sol ->
  forall (u : dxunit R) c wi q s,
  air_at psy (c_indoor c) wi ->
  gross_total_cooling_capacity M u (Some c) = Ok q ->
  gross_sensible_cooling_capacity M u (Some c) = Ok s ->
  exists m bf ta wa,
    c_mass_airflow c = Some m /\ bypass_factor u c = Ok bf
    /\ GetSatHumRatio psy ta (ps_p (c_indoor c)) = Ok wa
    /\ coil_split tol (m * (1 - bf)) (celsius (c_indoor c)) wi ta wa q s
    /\ q <> 0 /\ 0 <= s.
Proof. exact split. Qed.
Print Assumptions C101_split.

(** So the sensible heat ratio is at most 1 while the treated air is no moister
    than the room, and cannot be had otherwise. *)
Theorem C101_ratio : forall psy sol M tol,
  M = NRELDXModel psy sol \/ M = RESNETDXModel psy sol ->
  ashrae_air psy -> newton_finds_roots tol sol ->
  forall (u : dxunit R) c wi q s,
  air_at psy (c_indoor c) wi -> -1000 < celsius (c_indoor c) ->
  gross_total_cooling_capacity M u (Some c) = Ok q ->
  gross_sensible_cooling_capacity M u (Some c) = Ok s ->
  (exists m bf, c_mass_airflow c = Some m /\ 0 < m /\ bypass_factor u c = Ok bf /\ bf < 1) ->
  exists ta wa,
    GetSatHumRatio psy ta (ps_p (c_indoor c)) = Ok wa
    /\ (exists k, 0 < k /\ coil_split tol k (celsius (c_indoor c)) wi ta wa q s)
    /\ (wa <= wi -> s <= q /\ gross_shr M u (Some c) = Ok (s / q))
    /\ (wi < wa -> q < s /\ gross_shr M u (Some c) = Err PyException).
Proof. exact shr_verdict. Qed.
Print Assumptions C101_ratio.

(** A damp room. *)
Example C101_nonvacuous : exists psy sol (u : dxunit R) c wi q s,
  ashrae_air psy /\ newton_finds_roots 0 sol
  /\ air_at psy (c_indoor c) wi /\ -1000 < celsius (c_indoor c)
  /\ gross_total_cooling_capacity (NRELDXModel psy sol) u (Some c) = Ok q
  /\ gross_sensible_cooling_capacity (NRELDXModel psy sol) u (Some c) = Ok s
  /\ (exists m bf, c_mass_airflow c = Some m /\ 0 < m /\ bypass_factor u c = Ok bf /\ bf < 1)
  /\ 0 < s < q.
Proof. exact damp_case. Qed.

(** Expected of any coil: no more sensible than total capacity.  False in a dry
    room, here at 26.85 C and 20 % relative humidity. *)
Theorem C101_at_most_total_refuted : exists psy sol (u : dxunit R) c wi q s,
  ashrae_air psy /\ newton_finds_roots 0 sol
  /\ air_at psy (c_indoor c) wi
  /\ gross_total_cooling_capacity (NRELDXModel psy sol) u (Some c) = Ok q
  /\ gross_sensible_cooling_capacity (NRELDXModel psy sol) u (Some c) = Ok s
  /\ (exists m bf, c_mass_airflow c = Some m /\ 0 < m /\ bypass_factor u c = Ok bf /\ 0 < bf < 1)
  /\ celsius (c_indoor c) = 26.85 /\ 0.003 < wi
  /\ q < s /\ gross_shr (NRELDXModel psy sol) u (Some c) = Err PyException.
Proof. exact dry_case. Qed.
Print Assumptions C101_at_most_total_refuted.

(** A unit without capacity has no sensible capacity either, not even 0. *)
Theorem C101_no_capacity : forall psy sol M u c,
  M = NRELDXModel psy sol \/ M = RESNETDXModel psy sol ->
  gross_total_cooling_capacity M u (Some c) = Ok 0 ->
  forall s, gross_sensible_cooling_capacity M u (Some c) <> Ok s.
Proof. exact no_capacity. Qed.
Print Assumptions C101_no_capacity.

Example C101_no_capacity_nonvacuous : forall psy sol, exists (u : dxunit R) c,
  gross_total_cooling_capacity (NRELDXModel psy sol) u (Some c) = Ok 0.
Proof. exact idle_case. Qed.
