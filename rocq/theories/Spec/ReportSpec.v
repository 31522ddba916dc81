(** What is printed and plotted about a unit (C74, C75). *)
From Coq Require Import Reals List String.
From Verif.Base Require Import Num Res.
From Verif.Model Require Import Units Psychrometrics Conditions Fan Tabular Unit NREL BaseModel Title24 Resnet DXUnit Idf Report.
From Verif.Spec Require Import UnitSpec.
Import ListNotations.
Local Open Scope R_scope.
Local Open Scope string_scope.

(** [text] is [first], then for each stage [k] = 1, ..., [n] a block of lines that [is_block k]
    describes, then a blank line. *)
Definition listing (n : nat) (first : text_line R) (is_block : nat -> list (text_line R) -> Prop)
    (text : list (text_line R)) : Prop :=
  exists blocks, text = first :: List.concat blocks ++ [Blank] /\ Forall2 is_block (seq 1 n) blocks.

(** "<what> for stage <k> : " *)
Definition stage_label (what : string) (k : nat) : string := what ++ " for stage " ++ show k ++ " : ".

(** What stage [k] of a unit does at its rating condition: the condition of compressor speed
    [k - 1] with the indoor and outdoor air of the rating test. *)
Definition at_stage (psy : psychro R) (m : mode) (u : dxunit R) (k : nat)
    (f : dxunit R -> option (cond R) -> res R) (v : R) : Prop :=
  exists c, make_condition psy m u (k - 1) None None = Ok c /\ f u (Some c) = Ok v.

(** The lines of stage [k]: net power and capacity in the units [pu] and [cu] asked for, EER,
    gross COP and sensible heat ratio. *)
Definition cooling_block (psy : psychro R) (sol : solvers R) (M : dxmodel R) (pu cu : measure (T := R))
    (u : dxunit R) (k : nat) (lines : list (text_line R)) : Prop :=
  exists p q e cop shr,
    lines = [Line (stage_label "Net cooling power" k) (snd pu p) 2 (" " ++ fst pu);
             Line (stage_label "Net cooling capacity" k) (snd cu q) 2 (" " ++ fst cu);
             Line (stage_label "Net cooling EER" k) e 2 "";
             Line (stage_label "Gross cooling COP" k) cop 3 "";
             Line (stage_label "Net SHR" k) shr 3 ""]
    /\ at_stage psy Cooling u k (net_cooling_power sol M) p
    /\ at_stage psy Cooling u k (net_total_cooling_capacity sol M) q
    /\ at_stage psy Cooling u k (eer sol M) e
    /\ at_stage psy Cooling u k (gross_total_cooling_cop M) cop
    /\ at_stage psy Cooling u k (net_shr sol M) shr.
Definition heating_block (psy : psychro R) (sol : solvers R) (M : dxmodel R) (pu cu : measure (T := R))
    (u : dxunit R) (k : nat) (lines : list (text_line R)) : Prop :=
  exists p q cop,
    lines = [Line (stage_label "Net heating power" k) (snd pu p) 2 (" " ++ fst pu);
             Line (stage_label "Net heating capacity" k) (snd cu q) 2 (" " ++ fst cu);
             Line (stage_label "Gross heating COP" k) cop 3 ""]
    /\ at_stage psy Heating u k (net_integrated_heating_power sol M) p
    /\ at_stage psy Heating u k (net_integrated_heating_capacity sol M) q
    /\ at_stage psy Heating u k (gross_integrated_heating_cop M) cop.

(** The curves of a plot: net or gross, of heating (steady state or with frosting) or of
    cooling (total or sensible). *)
Inductive level := Net | Gross.
Inductive amount := Capacity | Power | Cop.
Inductive curve :=
| HeatingCurve (l : level) (frost : bool) (a : amount)
| CoolingCurve (l : level) (sensible : bool) (cop : bool)
| CoolingPower (l : level).

Definition curve_mode (c : curve) : mode :=
  match c with HeatingCurve _ _ _ => Heating | _ => Cooling end.
Definition curve_level (c : curve) : level :=
  match c with HeatingCurve l _ _ | CoolingCurve l _ _ | CoolingPower l => l end.
Definition curve_amount (c : curve) : amount :=
  match c with
  | HeatingCurve _ _ a => a
  | CoolingCurve _ _ cop => if cop then Cop else Capacity
  | CoolingPower _ => Power
  end.
(** Only frosting and sensible values are dotted. *)
Definition curve_dotted (c : curve) : bool :=
  match c with HeatingCurve _ b _ | CoolingCurve _ b _ => b | CoolingPower _ => false end.

(** The legend. *)
Definition amount_name (a : amount) : string :=
  match a with Capacity => "Capacity" | Power => "Power" | Cop => "COP" end.
Definition legend (c : curve) : string :=
  match curve_level c with Net => "Net " | Gross => "Gross " end
  ++ match c with
     | HeatingCurve _ false _ => "Steady State Heating "
     | HeatingCurve _ true _ => "Integrated Heating "
     | CoolingCurve _ false _ => "Total Cooling "
     | CoolingCurve _ true _ => "Sensible Cooling "
     | CoolingPower _ => "Cooling "
     end
  ++ amount_name (curve_amount c).

(** The quantity of the unit that the legend names. *)
Definition capacity_of (sol : solvers R) (M : dxmodel R) (c : curve) : dxunit R -> option (cond R) -> res R :=
  match c with
  | HeatingCurve Net false _ => net_steady_state_heating_capacity sol M
  | HeatingCurve Net true _ => net_integrated_heating_capacity sol M
  | HeatingCurve Gross false _ => gross_steady_state_heating_capacity M
  | HeatingCurve Gross true _ => gross_integrated_heating_capacity M
  | CoolingCurve Net true _ => net_sensible_cooling_capacity sol M
  | CoolingCurve Gross true _ => gross_sensible_cooling_capacity M
  | CoolingCurve Net false _ | CoolingPower Net => net_total_cooling_capacity sol M
  | CoolingCurve Gross false _ | CoolingPower Gross => gross_total_cooling_capacity M
  end.
Definition power_of (sol : solvers R) (M : dxmodel R) (c : curve) : dxunit R -> option (cond R) -> res R :=
  match c with
  | HeatingCurve Net false _ => net_steady_state_heating_power sol M
  | HeatingCurve Net true _ => net_integrated_heating_power sol M
  | HeatingCurve Gross false _ => gross_steady_state_heating_power M
  | HeatingCurve Gross true _ => gross_integrated_heating_power M
  | CoolingCurve Net _ _ | CoolingPower Net => net_cooling_power sol M
  | CoolingCurve Gross _ _ | CoolingPower Gross => gross_cooling_power M
  end.
Definition shown (sol : solvers R) (M : dxmodel R) (c : curve) (u : dxunit R) (k : cond R) (v : R) : Prop :=
  match curve_amount c with
  | Capacity => capacity_of sol M c u (Some k) = Ok v
  | Power => power_of sol M c u (Some k) = Ok v
  | Cop => exists q p, capacity_of sol M c u (Some k) = Ok q /\ power_of sol M c u (Some k) = Ok p
                       /\ p <> 0 /\ v = q / p
  end.

(** [v] is the value of the curve for the unit's speed [i] (0 is the highest) and the
    outdoor temperature [t]: rated airflow and indoor air, 40 % outdoor humidity, sea level. *)
Definition plotted (psy : psychro R) (sol : solvers R) (M : dxmodel R) (c : curve) (u : dxunit R)
    (i : nat) (t v : R) : Prop :=
  exists o k, PsychState psy t 101325 [("rel_hum", 0.4)] = Ok o
    /\ make_condition psy (curve_mode c) u i None (Some o) = Ok k /\ shown sol M c u k v.

(** The curves below one legend entry, in the order they were added. *)
Definition under_legend (f : figure R) (c : curve) : list (series R) :=
  filter (fun s => String.eqb (s_group s) (legend c)) (fg_series f).

(** Units: capacities and powers in W, shown in kBtu/h and kW. *)
Definition native_unit (a : amount) : string := match a with Cop => "W/W" | _ => "W" end.
Definition display_unit (a : amount) : string :=
  match a with Capacity => "kBtu/h" | Power => "kW" | Cop => "W/W" end.

(** The names of the speeds of a unit with [n] speeds of which [full] is rated. *)
Definition speed_labels (n full : nat) : option (list string) :=
  match n, full with
  | 1, 0 => Some ["Rated"]
  | 2, 0 => Some ["Rated"; "Min"]
  | 3, 0 => Some ["Rated"; "Int."; "Min"]
  | 3, 1 => Some ["Max"; "Rated"; "Min"]
  | 4, 1 => Some ["Max"; "Rated"; "Int."; "Min"]
  | _, _ => None
  end%nat.

(** The outdoor temperatures of the curves: from the heating-off temperature to 60 F, from
    60 F to the cooling-off temperature (K). *)
Definition axis (m : mode) (u : dxunit R) : list R :=
  match m with
  | Heating => [u_heating_off u; deg_F 5; deg_F 17; deg_F 35; deg_F 47; deg_F 60]
  | Cooling => [deg_F 60; deg_F 82; deg_F 95; u_cooling_off u]
  end.

(** [s] shows curve [c] for the unit's speed [i]. *)
Definition drawn (psy : psychro R) (sol : solvers R) (M : dxmodel R) (u : dxunit R) (c : curve)
    (i : nat) (s : series R) : Prop :=
  s_x s = axis (curve_mode c) u
  /\ Forall2 (plotted psy sol M c u i) (s_x s) (s_values s)
  /\ s_units s = native_unit (curve_amount c) /\ s_display s = display_unit (curve_amount c)
  /\ s_axis s = amount_name (curve_amount c)
  /\ s_subplot s = match curve_amount c with Capacity => 1 | Power => 2 | Cop => 3 end%nat
  /\ s_line s = (if curve_dotted c then "dot" else "solid")
  /\ s_visible s = match curve_level c with Net => true | Gross => false end.

(** What the plot assumes about the speeds of one mode: the rated speed is not the slowest
    unless it is the only one, there is a faster one exactly if a boost speed is given, the
    speed after the rated one is the intermediate one and the last one the lowest. *)
Definition regular_speeds (s : side R) : Prop :=
  (0 < sd_n s)%nat
  /\ sd_low s = (if Nat.eqb (sd_n s) 1 then None else Some (sd_n s - 1)%nat)
  /\ sd_int s = S (sd_full s)
  /\ sd_boost s = (if Nat.eqb (sd_full s) 0 then None else Some 0%nat)
  /\ (sd_full s <= sd_n s - 2)%nat.

(** Default speed numbers, one capacity each, no table of one's own. *)
Definition plain_speeds (a : dxargs R) : Prop :=
  (exists q, a_ccap a = Scalar q) /\ (forall l, a_hcap a <> Some (Many l))
  /\ get_kwarg_value "tabular_data" (a_kwargs a) = KNone
  /\ a_cfull a = 0%nat /\ a_hfull a = 0%nat /\ a_cint a = None /\ a_hint a = None.

(** The speeds of a RESNET unit, fastest first. *)
Definition stage_labels (st : staging_type) : list string :=
  match st with
  | SINGLE_STAGE => ["Rated"]
  | TWO_STAGE => ["Rated"; "Min"]
  | VARIABLE_SPEED => ["Max"; "Rated"; "Int."; "Min"]
  end%string.

