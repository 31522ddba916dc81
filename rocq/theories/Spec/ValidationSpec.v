(** The input table for the AHRI rating calculator (C71). *)
From Coq Require Import Reals List String.
From Verif.Base Require Import Num Res.
From Verif.Model Require Import Units Psychrometrics Conditions Defrost Fan Tabular Unit
  DXUnit Validation.
From Verif.Spec Require Import UnitSpec TestSpec.
Import ListNotations.
Local Open Scope R_scope.
Local Open Scope string_scope.

(** A column is named by a quantity and a test point: outdoor temperature (F) and stage. *)
Inductive quantity := HeatCapacity | Power | Airflow.
Definition column (q : quantity) (point : string) : string :=
  (match q with
   | HeatCapacity => "heatCapacity" | Power => "powerConsumption" | Airflow => "scfm"
   end ++ point)%string.
Definition heat_points : list (string * test) :=
  [("62min", H0_low);
   ("47full", H1_full); ("47nominal", H1_full); ("47min", H1_low);
   ("35full", H2_full); ("35inter", H2_int); ("35min", H2_low);
   ("17full", H3_full); ("17min", H3_low);
   ("5full", H4_full)].

(** Frost forms in the tests at 35 F. *)
Definition frost (t : test) : bool :=
  match t with H2_full | H2_int | H2_low => true | _ => false end.

(** cubic feet per minute *)
Definition ft3_min (x : R) : R := x * (0.028316846592 / 60).

(** [v] is the quantity of the unit in the test: Btu/h, W, cfm. *)
Definition measured (sol : solvers R) (M : dxmodel R) (q : quantity) (t : test)
    (u : dxunit R) (v : R) : Prop :=
  exists c, stored t (u_conds u) = Some c /\
  match q with
  | HeatCapacity =>
      (if frost t then net_integrated_heating_capacity sol M u (Some c)
       else net_steady_state_heating_capacity sol M u (Some c)) = Ok (Btu_h v)
  | Power =>
      (if frost t then net_integrated_heating_power sol M u (Some c)
       else net_steady_state_heating_power sol M u (Some c)) = Ok v
  | Airflow => c_rated_standard_volumetric_airflow c = Some (ft3_min v)
  end.

(** The value below a heading. *)
Definition under (header : list string) (row : list (cell R)) (name : string)
    (x : cell R) : Prop :=
  exists i, nth_error header i = Some name /\ nth_error row i = Some x.

(** The cells of the table that are not measured in a heating test. *)
Definition unit_cells (sol : solvers R) (M : dxmodel R) (u : dxunit R)
    (header : list string) (row : list (cell R)) : Prop :=
  let cell := under header row in
  (exists t, u_heating_off u = deg_F t /\ cell "T_off" (CNum t))
  /\ (exists t, u_heating_on u = Some (deg_F t) /\ cell "T_on" (CNum t))
  /\ (exists b, cell "isDemandDefrost" (CBool b)
                /\ (b = true <-> df_control (u_defrost u) = DCDemand))
  /\ (exists x, demand_credit (u_defrost u) = Ok x /\ cell "demandDefrostCredit" (CNum x))
  /\ cell "degCoeffHeat" (CNum (sd_cd (u_h u)))
  /\ (exists c q, stored A_full (u_conds u) = Some c
        /\ net_total_cooling_capacity sol M u (Some c) = Ok (Btu_h q)
        /\ cell "coolCapacity95Full" (CNum q))
  /\ (exists v, measured sol M Airflow A_full u v /\ cell (column Airflow "95full") (CNum v)).

(** The answers to the calculator's questions about the unit, and the kind of its blower. *)
Definition answers : list (string * bool) :=
  [("needCoilOnlyAdjust", false); ("isNonCommunicating", false);
   ("isMobileHomeAndSpaceConstrained", false);
   ("isNonmobileHomeAndNonSpaceConstrained", false); ("isSplit", true);
   ("minSpeedLimiting", false); ("H12Tested", true); ("H22Tested", true); ("H42Tested", true);
   ("H1NspeedMax17", false)].
Definition has_blower (f : fan R) (x : cell R) : Prop :=
  match f_class f with
  | ConstantEfficacyFan => x = CNone
  | PSCFan | RESNETPSCFan => x = CText "Fixed Speed/PSC"
  | ECMFlowFan _ | RESNETBPMFan => x = CText "Fixed Speed/Constant Torque"
  | EEREFan _ => True
  end.
