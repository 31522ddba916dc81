(** Properties C83, C84 and C85: arguments no unit can be built from, and units built from a table. *)
From Coq Require Import Reals Lra Lia List String.
From Verif.Base Require Import Num Res Tac.
From Verif.Model Require Import Units Psychrometrics Conditions Defrost Fan Tabular Unit
  NREL BaseModel Title24 Resnet DXUnit.
From Verif.Spec Require Import UnitSpec UnitModels BuildSpec.
From Verif.Proofs Require Import LowerSpeed ToyBuild ToyDefault ToyResnetTable Secant ToyResnet SettingsProofs
  Unbuildable OwnTable ToyOwn T24FanSpeeds CutIn.
Import ListNotations.
Local Open Scope R_scope.

(** * C83 *)
(** The NREL model is documented as a model to pass to [DXUnit], but every construction with
    it raises. *)
Theorem C83_nrel_refuted : forall psy sol a u, DXUnit psy sol (NRELDXModel psy sol) a <> Ok u.
Proof. exact nrel_rejected. Qed.
Print Assumptions C83_nrel_refuted.

(** A net or gross COP is required for each mode, even for RESNET units whose tables decide
    the efficiency. *)
Theorem C83_efficiency_required : forall psy sol M a u, DXUnit psy sol M a = Ok u ->
  (a_net_ccop a <> None \/ a_gross_ccop a <> None)
  /\ (a_net_hcop a <> None \/ a_gross_hcop a <> None).
Proof. exact no_cop. Qed.
Print Assumptions C83_efficiency_required.

(** Every speed a rating needs exists. *)
Theorem C83_speeds_exist : forall psy sol M a u, library_model psy sol M -> DXUnit psy sol M a = Ok u ->
  forall m, (sd_full (side_of m u) < sd_n (side_of m u))%nat
    /\ (u_staging u <> SINGLE_STAGE ->
        exists l, sd_low (side_of m u) = Some l /\ (l < sd_n (side_of m u))%nat)
    /\ (u_staging u = VARIABLE_SPEED -> (sd_int (side_of m u) < sd_n (side_of m u))%nat).
Proof. exact speeds_exist. Qed.
Print Assumptions C83_speeds_exist.

Theorem C83_title24_one_speed : forall psy sol a u, DXUnit psy sol (Title24DXModel sol) a = Ok u ->
  sd_n (u_c u) = 1%nat /\ sd_n (u_h u) = 1%nat.
Proof. exact t24_one_speed. Qed.
Print Assumptions C83_title24_one_speed.

(** It takes neither a fan nor fan speeds. *)
Theorem C83_title24_own_fan : forall psy sol a u, DXUnit psy sol (Title24DXModel sol) a = Ok u ->
  a_fan a = None /\ a_cfan_speed a = None /\ a_hfan_speed a = None.
Proof. exact t24_no_fan_speeds. Qed.
Print Assumptions C83_title24_own_fan.

(** A table of more than three speeds, of more heating than cooling speeds, or passed with a
    list of heating capacities is never accepted. *)
Theorem C83_resnet_tables : forall psy sol a u p,
  get_kwarg_value "tabular_data" (a_kwargs a) = KTable p ->
  DXUnit psy sol (RESNETDXModel psy sol) a = Ok u ->
  (1 <= p_nc p <= 3)%nat /\ (p_nh p <= p_nc p)%nat
  /\ (forall l, a_hcap a <> Some (Many l)) /\ (p_nc p = 3%nat -> exists x, a_ccap a = Scalar x).
Proof. exact resnet_tables. Qed.
Print Assumptions C83_resnet_tables.

(** Without a table, the capacities are two lists or two numbers. *)
Theorem C83_resnet_lists : forall psy sol a u,
  (forall p, get_kwarg_value "tabular_data" (a_kwargs a) <> KTable p) ->
  DXUnit psy sol (RESNETDXModel psy sol) a = Ok u ->
  is_list (a_ccap a) = match a_hcap a with Some q => is_list q | None => false end.
Proof. exact resnet_lists. Qed.
Print Assumptions C83_resnet_lists.

(** A two-stage unit is never accepted with one capacity in a list, though the code goes on to
    derive a lower speed from it. *)
Theorem C83_two_stage_lists : forall psy sol a u,
  (forall p, get_kwarg_value "tabular_data" (a_kwargs a) <> KTable p) ->
  DXUnit psy sol (RESNETDXModel psy sol) a = Ok u -> u_staging u = TWO_STAGE ->
  forall x, a_ccap a <> Many [x].
Proof. exact two_stage_lists. Qed.
Print Assumptions C83_two_stage_lists.

(** * C84 *)
(** A RESNET unit passed the very table it derived is the same unit. *)
Theorem C84_own_table : forall psy sol a u net,
  (forall p, get_kwarg_value "tabular_data" (a_kwargs a) <> KTable p) ->
  DXUnit psy sol (RESNETDXModel psy sol) a = Ok u -> rn_net (u_rn u) = Some net ->
  DXUnit psy sol (RESNETDXModel psy sol) (with_table net a)
    = Ok (remembering (a_kwargs (with_table net a)) u).
Proof. exact own_table. Qed.
Print Assumptions C84_own_table.

(** What a RESNET unit remembers of its arguments has no influence on its results. *)
Theorem C84_same_results : forall psy sol kw (u : dxunit R), let M := RESNETDXModel psy sol in
  seer sol M (remembering kw u) = seer sol M u
  /\ (forall r, hspf sol M (remembering kw u) r = hspf sol M u r)
  /\ forall c, eer sol M (remembering kw u) c = eer sol M u c
    /\ net_total_cooling_capacity sol M (remembering kw u) c = net_total_cooling_capacity sol M u c
    /\ net_sensible_cooling_capacity sol M (remembering kw u) c
       = net_sensible_cooling_capacity sol M u c
    /\ net_cooling_power sol M (remembering kw u) c = net_cooling_power sol M u c
    /\ net_integrated_heating_capacity sol M (remembering kw u) c
       = net_integrated_heating_capacity sol M u c
    /\ net_integrated_heating_power sol M (remembering kw u) c
       = net_integrated_heating_power sol M u c.
Proof. exact same_results. Qed.
Print Assumptions C84_same_results.

(** * C85 *)
(** With a table, ratings and COPs decide nothing: whatever else is given in their place, the
    unit is the same but for the ratings it remembers. *)
Theorem C85_table_overrides_ratings : forall psy sol a u p s e h nc gc nh gh,
  get_kwarg_value "tabular_data" (a_kwargs a) = KTable p ->
  (nc <> None \/ gc <> None) -> (nh <> None \/ gh <> None) ->
  DXUnit psy sol (RESNETDXModel psy sol) a = Ok u ->
  exists e', DXUnit psy sol (RESNETDXModel psy sol) (with_efficiency s e h nc gc nh gh a)
    = Ok (rated_as s e' h nh u).
Proof. exact ratings_overridden. Qed.
Print Assumptions C85_table_overrides_ratings.

Theorem C85_same_results : forall psy sol s e h c (u : dxunit R), let M := RESNETDXModel psy sol in
  seer sol M (rated_as s e h c u) = seer sol M u
  /\ (forall r, hspf sol M (rated_as s e h c u) r = hspf sol M u r)
  /\ forall k, eer sol M (rated_as s e h c u) k = eer sol M u k
    /\ net_total_cooling_capacity sol M (rated_as s e h c u) k = net_total_cooling_capacity sol M u k
    /\ net_sensible_cooling_capacity sol M (rated_as s e h c u) k
       = net_sensible_cooling_capacity sol M u k
    /\ net_cooling_power sol M (rated_as s e h c u) k = net_cooling_power sol M u k
    /\ net_integrated_heating_capacity sol M (rated_as s e h c u) k
       = net_integrated_heating_capacity sol M u k
    /\ net_integrated_heating_power sol M (rated_as s e h c u) k
       = net_integrated_heating_power sol M u k.
Proof. exact same_ratings. Qed.
Print Assumptions C85_same_results.

(** The same of the steady-state heating results, for C84 and C85. *)
Theorem C85_same_heating : forall psy sol kw s e h c (u : dxunit R),
  let M := RESNETDXModel psy sol in forall k,
  net_steady_state_heating_capacity sol M (remembering kw u) k
    = net_steady_state_heating_capacity sol M u k
  /\ net_steady_state_heating_power sol M (remembering kw u) k
    = net_steady_state_heating_power sol M u k
  /\ net_steady_state_heating_capacity sol M (rated_as s e h c u) k
    = net_steady_state_heating_capacity sol M u k
  /\ net_steady_state_heating_power sol M (rated_as s e h c u) k
    = net_steady_state_heating_power sol M u k.
Proof. exact same_heating. Qed.
Print Assumptions C85_same_heating.

(** A single-stage 10 kW unit: accepted by the constant model, refused with the NREL model. *)
Example C83_nonvacuous : exists u,
  library_model lin_psy lin_sol ConstantDXModel
  /\ DXUnit lin_psy lin_sol ConstantDXModel one_args = Ok u
  /\ (exists e, DXUnit lin_psy lin_sol (NRELDXModel lin_psy lin_sol) one_args = Err e)
  /\ sd_n (u_c u) = 1%nat /\ a_gross_ccop one_args <> None.
Proof.
  destruct one_rated as (u & n & B & Q & _).
  assert (LM : library_model lin_psy lin_sol ConstantDXModel) by (unfold library_model; simpl; tauto).
  exists u. split; [exact LM|]. split; [exact B|]. split.
  - destruct (DXUnit lin_psy lin_sol (NRELDXModel lin_psy lin_sol) one_args) as [v|e] eqn:E; [|eauto].
    exfalso. exact (C83_nrel_refuted _ _ _ _ E).
  - assert (PM : plain_model lin_sol ConstantDXModel) by (unfold plain_model; simpl; tauto).
    destruct (plain_numbers _ _ _ _ _ PM B) as (_ & (S & _) & _). split; [exact S|discriminate].
Qed.

(** A RESNET unit of SEER 14 derives its table; passing that table back gives it again. *)
Example C84_nonvacuous : exists u net,
  let a := toy_args 8 3.5 in
  (forall p, get_kwarg_value "tabular_data" (a_kwargs a) <> KTable p)
  /\ DXUnit lin_psy rt_sol (RESNETDXModel lin_psy rt_sol) a = Ok u /\ rn_net (u_rn u) = Some net
  /\ p_nc net = 1%nat
  /\ get_kwarg_value "tabular_data" (a_kwargs (with_table net a)) = KTable net
  /\ exists v, DXUnit lin_psy rt_sol (RESNETDXModel lin_psy rt_sol) (with_table net a) = Ok v
    /\ rn_net (u_rn v) = Some net.
Proof.
  destruct toy_seer as (u & net & E & N & N1 & _). exists u, net. cbv zeta.
  assert (K : forall p, get_kwarg_value "tabular_data" (a_kwargs (toy_args 8 3.5)) <> KTable p) by discriminate.
  split; [exact K|]. split; [exact E|]. split; [exact N|]. split; [exact N1|]. split; [reflexivity|]. eexists.
  split; [exact (C84_own_table _ _ _ _ _ K E N)|exact N].
Qed.

(** The unit with the table, now claiming SEER 30 and COPs of 9: still SEER 14. *)
Example C85_nonvacuous : exists a u p,
  get_kwarg_value "tabular_data" (a_kwargs a) = KTable p
  /\ DXUnit lin_psy rt_sol (RESNETDXModel lin_psy rt_sol) a = Ok u
  /\ exists v, DXUnit lin_psy rt_sol (RESNETDXModel lin_psy rt_sol)
        (with_efficiency (Some 30) None None (Some (Scalar 9)) None (Some (Scalar 9)) None a) = Ok v
    /\ u_seer v = Some 30
    /\ seer rt_sol (RESNETDXModel lin_psy rt_sol) v = Ok 14.
Proof.
  destruct toy_seer as (u & net & E & N & _ & S).
  assert (K : forall p, get_kwarg_value "tabular_data" (a_kwargs (toy_args 8 3.5)) <> KTable p) by discriminate.
  pose proof (C84_own_table _ _ _ _ _ K E N) as D.
  assert (C : Some (Scalar 9) <> None \/ @None (num_or_list R) <> None) by (left; discriminate).
  destruct (C85_table_overrides_ratings lin_psy rt_sol (with_table net (toy_args 8 3.5)) _ net (Some 30) None None
    (Some (Scalar 9)) None (Some (Scalar 9)) None eq_refl C C D) as (e' & V).
  exists (with_table net (toy_args 8 3.5)). eexists. exists net.
  split; [reflexivity|]. split; [exact D|].
  eexists. split; [exact V|]. split; [reflexivity|].
  rewrite (proj1 (C85_same_results _ _ _ _ _ _ _)).
  rewrite (proj1 (C84_same_results _ _ _ _)). exact S.
Qed.
