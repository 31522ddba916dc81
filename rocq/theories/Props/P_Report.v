(** C74, C75: what is printed and plotted about a unit. *)
From Coq Require Import Reals Lra Lia List String Sorting.Sorted.
From Verif.Base Require Import Num Res.
From Verif.Model Require Import Units Psychrometrics Conditions Fan Tabular Unit NREL BaseModel Title24 Resnet DXUnit Idf Report.
From Verif.Spec Require Import UnitSpec RatedSpec ReportSpec.
From Verif.Proofs Require Import UnitsR ToyBuild Secant ToyResnet ReportProofs Layout ToyReport.
Import ListNotations.
Local Open Scope R_scope.

(** ** C74 *)
Theorem C74_cooling_listing : forall psy sol M pu cu u before after,
  print_cooling_info psy sol M pu cu u before = (after, Ok tt) ->
  exists s text, seer sol M u = Ok s /\ after = (before ++ text)%list
    /\ listing (sd_n (u_c u)) (Line "SEER: " s 2 "") (cooling_block psy sol M pu cu u) text.
Proof. exact cooling_printed. Qed.
Print Assumptions C74_cooling_listing.

Theorem C74_heating_listing : forall psy sol M pu cu region u before after,
  print_heating_info psy sol M pu cu region u before = (after, Ok tt) ->
  exists s text, hspf sol M u region = Ok s /\ after = (before ++ text)%list
    /\ listing (sd_n (u_h u)) (Line ("HSPF (region " ++ show region ++ "): ") s 2 "")
         (heating_block psy sol M pu cu u) text.
Proof. exact heating_printed. Qed.
Print Assumptions C74_heating_listing.

(** The printed EER is 12000 Btu/h per ton times the printed tons over the printed W. *)
Theorem C74_printed_eer : forall psy sol M u before after k,
  print_cooling_info psy sol M watts tons u before = (after, Ok tt) ->
  (1 <= k <= sd_n (u_c u))%nat ->
  exists p q e,
    In (Line (stage_label "Net cooling power" k) p 2 " W") after
    /\ In (Line (stage_label "Net cooling capacity" k) q 2 " ton_ref") after
    /\ In (Line (stage_label "Net cooling EER" k) e 2 "") after
    /\ p <> 0 /\ e = 12000 * q / p.
Proof. exact printed_eer. Qed.
Print Assumptions C74_printed_eer.

(** ** C75 *)
Theorem C75_curves : forall psy sol M u f c,
  plot psy sol M u = Ok f ->
  Forall2 (drawn psy sol M u c) (seq 0 (sd_n (side_of (curve_mode c) u))) (under_legend f c).
Proof. exact plot_curves. Qed.
Print Assumptions C75_curves.

Theorem C75_every_curve_has_a_legend : forall psy sol M u f s,
  plot psy sol M u = Ok f -> In s (fg_series f) -> exists c, In s (under_legend f c).
Proof. exact plot_complete. Qed.
Print Assumptions C75_every_curve_has_a_legend.

(** The temperatures of the plot increase exactly if heating stops below 5 F and cooling
    above 95 F. *)
Theorem C75_axis : forall psy sol M u f,
  plot psy sol M u = Ok f ->
  fg_x f = (axis Heating u ++ tl (axis Cooling u))%list
  /\ (StronglySorted Rlt (fg_x f) <-> u_heating_off u < deg_F 5 /\ deg_F 95 < u_cooling_off u).
Proof. exact plot_axis. Qed.
Print Assumptions C75_axis.

Theorem C75_speed_names : forall psy sol M u f c,
  plot psy sol M u = Ok f -> regular_speeds (side_of (curve_mode c) u) ->
  exists labels,
    speed_labels (sd_n (side_of (curve_mode c) u)) (sd_full (side_of (curve_mode c) u)) = Some labels
    /\ map s_name (under_legend f c) = map (fun x => x ++ " Speed")%string labels.
Proof. exact plot_labels. Qed.
Print Assumptions C75_speed_names.

Theorem C75_resnet_speed_names : forall psy sol a u f c,
  DXUnit psy sol (RESNETDXModel psy sol) a = Ok u -> plain_speeds a ->
  plot psy sol (RESNETDXModel psy sol) u = Ok f ->
  map s_name (under_legend f c) = map (fun x => x ++ " Speed")%string (stage_labels (u_staging u)).
Proof. exact resnet_labels. Qed.
Print Assumptions C75_resnet_speed_names.

(** The curve of the rated speed passes through the rated capacities. *)
Theorem C75_resnet_rated_point : forall psy sol a u f q h,
  DXUnit psy sol (RESNETDXModel psy sol) a = Ok u -> rated_unit a (u_staging u) q h -> plain_speeds a ->
  (u_staging u = VARIABLE_SPEED -> u_heating_off u < fr_F 5) ->
  rn_motor (u_rn u) = Some MotorPSC -> plot psy sol (RESNETDXModel psy sol) u = Ok f ->
  (exists s, In s (under_legend f (CoolingCurve Net false false)) /\ s_name s = "Rated Speed"%string
     /\ In (deg_F 95, q) (combine (s_x s) (s_values s)))
  /\ (exists s, In s (under_legend f (HeatingCurve Net false Capacity)) /\ s_name s = "Rated Speed"%string
     /\ In (deg_F 47, h) (combine (s_x s) (s_values s))).
Proof. exact rated_point. Qed.
Print Assumptions C75_resnet_rated_point.

(** A single-stage RESNET unit meets the hypotheses of all theorems above. *)
Example C74_C75_nonvacuous : exists u f lc lh,
  DXUnit lin_psy rt_sol (RESNETDXModel lin_psy rt_sol) (toy_args 8 3.5) = Ok u
  /\ rated_unit (toy_args 8 3.5) (u_staging u) 10000 10000 /\ plain_speeds (toy_args 8 3.5)
  /\ u_staging u = SINGLE_STAGE /\ rn_motor (u_rn u) = Some MotorPSC
  /\ (forall m, regular_speeds (side_of m u))
  /\ plot lin_psy rt_sol (RESNETDXModel lin_psy rt_sol) u = Ok f
  /\ print_cooling_info lin_psy rt_sol (RESNETDXModel lin_psy rt_sol) watts tons u [] = (lc, Ok tt)
  /\ print_heating_info lin_psy rt_sol (RESNETDXModel lin_psy rt_sol) watts tons 4 u [] = (lh, Ok tt)
  /\ List.length (fg_series f) = 22%nat /\ List.length lc = 7%nat /\ List.length lh = 5%nat.
Proof. exact toy_report_example. Qed.
