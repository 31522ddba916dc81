(** Model of [write_validation_tables] of /repo/resdx/dx_unit.py. *)
From Coq Require Import QArith List String.
From Verif.Base Require Import Num Res.
From Verif.Model Require Import Units Util Psychrometrics Conditions Defrost Fan Tabular
  Unit DXUnit.
Import ListNotations.
Local Open Scope nat_scope.

(** A value of the dictionary [heating_data]. *)
Inductive cell (T : Type) : Type :=
| CText (s : string)
| CNone
| CBool (b : bool)
| CNum (x : T).
Arguments CText {T}. Arguments CNone {T}. Arguments CBool {T}. Arguments CNum {T}.

(** The file [<file_name>-heating.csv]: not yet opened, opened for writing (and so
    empty), or closed after the header and the rows were written.  How [DictWriter]
    formats a cell is not modelled. *)
Inductive csv (T : Type) : Type :=
| NotOpened
| Empty
| Table (header : list string) (rows : list (list (cell T))).
Arguments NotOpened {T}. Arguments Empty {T}. Arguments Table {T}.

Section Validation.
  Context {T : Type} {NT : Num T} {NX : NumX T}.
  Local Open Scope num_scope.
  Local Open Scope string_scope.
  Notation U := (dxunit T).
  Variable sol : solvers T.
  Variable M : dxmodel T.

  (** [self.fan.fan_motor_type] (fan.py:54, 451, 559, 811, 832; a ConstantEfficacyFan keeps
      FanMotorType.UNKNOWN, here [None]).  The type of an EERE fan, a constant of its
      subclass (fan.py:729-794), is the argument [eere]. *)
  Definition fan_motor_type (eere : option motor_type) (f : fan T) : option motor_type :=
    match f_class f with
    | ConstantEfficacyFan => None
    | PSCFan | RESNETPSCFan => Some MotorPSC
    | ECMFlowFan _ | RESNETBPMFan => Some MotorBPM
    | EEREFan _ => eere
    end.

  (** dx_unit.py:1761-1769 *)
  Definition indoor_blower_type (m : option motor_type) : cell T :=
    match m with
    | Some MotorPSC => CText "Fixed Speed/PSC"
    | Some MotorBPM => CText "Fixed Speed/Constant Torque"
    | None => CNone
    end.

  (** [self.f(self.X_cond)], in a unit of measurement *)
  Definition at_cond (f : U -> option (cond T) -> res T) (to : T -> T)
      (get : rconds T -> option (cond T)) (u : U) : res (cell T) :=
    let! c := need AttributeError (get (u_conds u)) in
    let! x := f u (Some c) in
    Ok (CNum (to x)).
  (** [to_u(self.X_cond.rated_standard_volumetric_airflow, "cfm")] *)
  Definition scfm (get : rconds T -> option (cond T)) (u : U) : res (cell T) :=
    let! c := need AttributeError (get (u_conds u)) in
    let! x := need TypeError (c_rated_standard_volumetric_airflow c) in
    Ok (CNum (to_cfm x)).

  (** dx_unit.py:1776-1892: names and values of [heating_data], in this order. *)
  Definition heating_entries (blower : cell T) : list (string * (U -> res (cell T))) :=
    let const c := fun _ : U => Ok c in
    let ssq := at_cond (net_steady_state_heating_capacity sol M) to_Btuh in
    let inq := at_cond (net_integrated_heating_capacity sol M) to_Btuh in
    let ssp := at_cond (net_steady_state_heating_power sol M) (fun x => x) in
    let inp := at_cond (net_integrated_heating_power sol M) (fun x => x) in
    [("compressorDesignStage", const (CText "Variable Speed"));
     ("indoorBlowerType", const blower);
     ("needCoilOnlyAdjust", const (CBool false));
     ("isNonCommunicating", const (CBool false));
     ("isMobileHomeAndSpaceConstrained", const (CBool false));
     ("isNonmobileHomeAndNonSpaceConstrained", const (CBool false));
     ("isSplit", const (CBool true));
     ("minSpeedLimiting", const (CBool false));
     ("H12Tested", const (CBool true));
     ("H22Tested", const (CBool true));
     ("H42Tested", const (CBool true));
     ("H1NspeedMax17", const (CBool false));
     ("T_off", fun u => Ok (CNum (to_F (u_heating_off u))));
     ("T_on", fun u => let! t := need AttributeError (u_heating_on u) in Ok (CNum (to_F t)));
     ("isDemandDefrost", fun u => Ok (CBool match df_control (u_defrost u) with
                                            | DCDemand => true
                                            | _ => false
                                            end));
     ("demandDefrostCredit", fun u => let! x := demand_credit (u_defrost u) in Ok (CNum x));
     ("degCoeffHeat", fun u => Ok (CNum (sd_cd (u_h u))));
     ("coolCapacity95Full",
       at_cond (net_total_cooling_capacity sol M) to_Btuh rc_A_full);
     ("heatCapacity62min", ssq rc_H0_low);
     ("heatCapacity47full", ssq rc_H1_full);
     ("heatCapacity47min", ssq rc_H1_low);
     ("heatCapacity47nominal", ssq rc_H1_full);
     ("heatCapacity35full", inq rc_H2_full);
     ("heatCapacity35inter", inq rc_H2_int);
     ("heatCapacity35min", inq rc_H2_low);
     ("heatCapacity17full", ssq rc_H3_full);
     ("heatCapacity17min", ssq rc_H3_low);
     ("heatCapacity5full", ssq rc_H4_full);
     ("powerConsumption62min", ssp rc_H0_low);
     ("powerConsumption47full", ssp rc_H0_low);
     ("powerConsumption47min", ssp rc_H1_low);
     ("powerConsumption47nominal", ssp rc_H1_full);
     ("powerConsumption35full", inp rc_H2_full);
     ("powerConsumption35inter", inp rc_H2_int);
     ("powerConsumption35min", inp rc_H2_low);
     ("powerConsumption17full", ssp rc_H3_full);
     ("powerConsumption17min", ssp rc_H3_low);
     ("powerConsumption5full", ssp rc_H4_full);
     ("scfm95full", scfm rc_A_full);
     ("scfm62min", scfm rc_H0_low);
     ("scfm47full", scfm rc_H1_full);
     ("scfm47min", scfm rc_H1_low);
     ("scfm47nominal", scfm rc_H1_full);
     ("scfm35full", scfm rc_H2_full);
     ("scfm35inter", scfm rc_H2_int);
     ("scfm35min", scfm rc_H2_low);
     ("scfm17full", scfm rc_H3_full);
     ("scfm17min", scfm rc_H3_low);
     ("scfm5full", scfm rc_H4_full)].

  (** dx_unit.py:1755-1902.  The state is the file; opening it is taken to succeed.
      [heating_data] is assigned for
      variable-speed units only, and first read after the file was opened (1895). *)
  Definition write_validation_tables (eere : option motor_type) (u : U) :
      st (csv T) unit :=
    do f <- slift (need AttributeError (u_fan u)) ;;
    let blower := indoor_blower_type (fan_motor_type eere f) in
    do heating_data <- slift match u_staging u with
                             | SINGLE_STAGE | TWO_STAGE => Ok None
                             | VARIABLE_SPEED =>
                                 let! d := rmapM (fun e => let! c := snd e u in Ok (fst e, c))
                                             (heating_entries blower) in
                                 Ok (Some d)
                             end ;;
    sput Empty ;;;
    do d <- slift (need UnboundLocalError heating_data) ;;
    sput (Table (map fst d) [map snd d]).
End Validation.
