(** Model of [print_cooling_info], [print_heating_info] and [plot] of
    /repo/resdx/dx_unit.py. *)
From Coq Require Import QArith List String.
From Verif.Base Require Import Num Res.
From Verif.Model Require Import Units Util Psychrometrics Conditions Defrost Fan Tabular
  Unit DXUnit Idf.
Import ListNotations.
Local Open Scope nat_scope.
Local Open Scope string_scope.

(** A printed line: [f"{before}{value:.{digits}f}{after}"].  Rounding and formatting of the
    number are not modelled, the line holds the value. *)
Inductive text_line (T : Type) : Type :=
| Line (before : string) (value : T) (digits : nat) (after : string)
| Blank.
Arguments Line {T}. Arguments Blank {T}.

(** One curve given to [plot.add_display_data] (dx_unit.py:1730-1751).  The line color is
    not modelled. *)
Record series (T : Type) := mkSeries {
  s_values : list T;
  s_name : string;
  s_units : string; (* native_units *)
  s_display : string; (* display_units *)
  s_x : list T; (* x_axis, K *)
  s_line : string; (* line_type *)
  s_visible : bool;
  s_group : string; (* legend_group *)
  s_subplot : nat;
  s_axis : string (* axis_name *)
}.
Arguments mkSeries {T}. Arguments s_values {T}. Arguments s_name {T}. Arguments s_units {T}.
Arguments s_display {T}. Arguments s_x {T}. Arguments s_line {T}. Arguments s_visible {T}.
Arguments s_group {T}. Arguments s_subplot {T}. Arguments s_axis {T}.

(** The [DimensionalPlot] handed to [write_html_plot]: its x axis (K) and its curves. *)
Record figure (T : Type) := mkFigure { fg_x : list T; fg_series : list (series T) }.
Arguments mkFigure {T}. Arguments fg_x {T}. Arguments fg_series {T}.

Section Report.
  Context {T : Type} {NT : Num T} {NX : NumX T}.
  Local Open Scope num_scope.
  Notation U := (dxunit T).
  Notation C := (cond T).
  Variable psy : psychro T.
  Variable sol : solvers T.
  Variable M : dxmodel T.

  (** ** Printing *)

  (** A unit of measurement: its name and [to_u(x, name)]. *)
  Definition measure : Type := string * (T -> T).
  (** The defaults of [power_units] and [capacity_units]. *)
  Definition watts : measure := ("W", fun x => x).
  Definition tons : measure := ("ton_ref", to_ton).

  Definition print_line (x : text_line T) : st (list (text_line T)) unit := smod (fun l => l ++ [x])%list.
  Definition print_value (before : string) (v : res T) (digits : nat) (after : string)
      : st (list (text_line T)) unit :=
    do x <- slift v ;; print_line (Line before x digits after).
  (** [f"{what} for stage {speed + 1} : {to_u(f(conditions), units):.2f} {units}"] *)
  Definition stage_in (what : string) (speed : nat) (v : res T) (units : measure) :=
    print_value (what ++ " for stage " ++ show (speed + 1) ++ " : ")
      (let! x := v in Ok (snd units x)) 2 (" " ++ fst units).
  (** [f"{what} for stage {speed + 1} : {f(conditions):.{digits}f}"] *)
  Definition stage_of (what : string) (speed : nat) (v : res T) (digits : nat) :=
    print_value (what ++ " for stage " ++ show (speed + 1) ++ " : ") v digits "".

  (** dx_unit.py:1378-1393.  The state is the text printed so far. *)
  Definition print_cooling_info (power_units capacity_units : measure) (u : U)
      : st (list (text_line T)) unit :=
    print_value "SEER: " (seer sol M u) 2 "" ;;;
    sfold (fun speed =>
      do c <- slift (make_condition psy Cooling u speed None None) ;;
      stage_in "Net cooling power" speed (net_cooling_power sol M u (Some c)) power_units ;;;
      stage_in "Net cooling capacity" speed (net_total_cooling_capacity sol M u (Some c))
        capacity_units ;;;
      stage_of "Net cooling EER" speed (eer sol M u (Some c)) 2 ;;;
      stage_of "Gross cooling COP" speed (gross_total_cooling_cop M u (Some c)) 3 ;;;
      stage_of "Net SHR" speed (net_shr sol M u (Some c)) 3)
      (seq 0 (sd_n (u_c u))) ;;;
    print_line Blank.

  (** dx_unit.py:1395-1408 *)
  Definition print_heating_info (power_units capacity_units : measure) (region : nat) (u : U)
      : st (list (text_line T)) unit :=
    print_value ("HSPF (region " ++ show region ++ "): ") (hspf sol M u region) 2 "" ;;;
    sfold (fun speed =>
      do c <- slift (make_condition psy Heating u speed None None) ;;
      stage_in "Net heating power" speed (net_integrated_heating_power sol M u (Some c))
        power_units ;;;
      stage_in "Net heating capacity" speed (net_integrated_heating_capacity sol M u (Some c))
        capacity_units ;;;
      stage_of "Gross heating COP" speed (gross_integrated_heating_cop M u (Some c)) 3)
      (seq 0 (sd_n (u_h u))) ;;;
    print_line Blank.

  (** ** Plot *)

  (** dx_unit.py:1580-1609 *)
  Definition plot_temperatures (m : mode) (u : U) : list T :=
    match m with
    | Heating => u_heating_off u :: map fr_F [lit 5; lit 17; lit 35; lit 47; lit 60]
    | Cooling => (map fr_F [lit 60; lit 82; lit 95] ++ [u_cooling_off u])%list
    end.

  (** dx_unit.py:1620-1626 *)
  Record display_spec := mkSpec {
    ds_function : U -> option C -> res T;
    ds_net_or_gross : string;
    ds_version : string;
    ds_mode : mode;
    ds_quantity : string
  }.

  (** dx_unit.py:1629-1652 *)
  Definition display_specs : list display_spec :=
    [mkSpec (net_steady_state_heating_capacity sol M) "Net" "Steady State" Heating "Capacity";
     mkSpec (net_integrated_heating_capacity sol M) "Net" "Integrated" Heating "Capacity";
     mkSpec (net_steady_state_heating_power sol M) "Net" "Steady State" Heating "Power";
     mkSpec (net_integrated_heating_power sol M) "Net" "Integrated" Heating "Power";
     mkSpec (net_steady_state_heating_cop sol M) "Net" "Steady State" Heating "COP";
     mkSpec (net_integrated_heating_cop sol M) "Net" "Integrated" Heating "COP";
     mkSpec (net_total_cooling_capacity sol M) "Net" "Total" Cooling "Capacity";
     mkSpec (net_sensible_cooling_capacity sol M) "Net" "Sensible" Cooling "Capacity";
     mkSpec (net_cooling_power sol M) "Net" "" Cooling "Power";
     mkSpec (net_total_cooling_cop sol M) "Net" "Total" Cooling "COP";
     mkSpec (net_sensible_cooling_cop sol M) "Net" "Sensible" Cooling "COP";
     mkSpec (gross_steady_state_heating_capacity M) "Gross" "Steady State" Heating "Capacity";
     mkSpec (gross_integrated_heating_capacity M) "Gross" "Integrated" Heating "Capacity";
     mkSpec (gross_steady_state_heating_power M) "Gross" "Steady State" Heating "Power";
     mkSpec (gross_integrated_heating_power M) "Gross" "Integrated" Heating "Power";
     mkSpec (gross_steady_state_heating_cop M) "Gross" "Steady State" Heating "COP";
     mkSpec (gross_integrated_heating_cop M) "Gross" "Integrated" Heating "COP";
     mkSpec (gross_total_cooling_capacity M) "Gross" "Total" Cooling "Capacity";
     mkSpec (gross_sensible_cooling_capacity M) "Gross" "Sensible" Cooling "Capacity";
     mkSpec (gross_cooling_power M) "Gross" "" Cooling "Power";
     mkSpec (gross_total_cooling_cop M) "Gross" "Total" Cooling "COP";
     mkSpec (gross_sensible_cooling_cop M) "Gross" "Sensible" Cooling "COP"].

  (** dx_unit.py:1655-1676: [conditions[speed]] for each speed. *)
  Definition plot_conditions (m : mode) (u : U) : res (list (list C)) :=
    rmapM (fun speed =>
      rmapM (fun t =>
        let! o := PsychState psy t atm [("rel_hum", lit 0.4)] in
        make_condition psy m u speed None (Some o))
        (plot_temperatures m u))
      (seq 0 (sd_n (side_of m u))).

  (** [speed_names[speed]] (dx_unit.py:1681-1686, 1692-1697): of equal keys the last one
      counts, a missing key raises KeyError. *)
  Definition speed_name (s : side T) (speed : nat) : res string :=
    let is k := match k with Some i => Nat.eqb i speed | None => false end in
    if is (sd_low s) then Ok "Min"
    else if is (Some (sd_int s)) then Ok "Int."
    else if is (Some (sd_full s)) then Ok "Rated"
    else if is (sd_boost s) then Ok "Max"
    else Err KeyError.

  (** dx_unit.py:1699-1712: subplot, units and display units.  The quantities of
      [display_specs] are these three, so [assert False] is not reached. *)
  Definition quantity_units (quantity : string) : nat * string * string :=
    if String.eqb quantity "Capacity" then (1%nat, "W", "kBtu/h")
    else if String.eqb quantity "Power" then (2%nat, "W", "kW")
    else (3%nat, "W/W", "W/W").

  (** dx_unit.py:1723-1751 for one speed. *)
  Definition plot_curve (u : U) (d : display_spec) (speed : nat) (cs : list C) : res (series T) :=
    let m := ds_mode d in
    let '(subplot, units, display) := quantity_units (ds_quantity d) in
    let version := if String.eqb (ds_version d) "" then "" else ds_version d ++ " " in
    let mode := match m with Cooling => "Cooling" | Heating => "Heating" end in
    let! values := rmapM (fun c => ds_function d u (Some c)) cs in
    let! name := speed_name (side_of m u) speed in
    Ok (mkSeries values (name ++ " Speed") units display (plot_temperatures m u)
          (if orb (String.eqb (ds_version d) "Integrated") (String.eqb (ds_version d) "Sensible") then "dot"
           else "solid")
          (negb (String.eqb (ds_net_or_gross d) "Gross"))
          (ds_net_or_gross d ++ " " ++ version ++ mode ++ " " ++ ds_quantity d)
          subplot (ds_quantity d)).

  (** dx_unit.py:1577-1753, up to [plot.write_html_plot]: the plot that is written. *)
  Definition plot (u : U) : res (figure T) :=
    let! hs := plot_conditions Heating u in
    let! cs := plot_conditions Cooling u in
    let! curves := rmapM (fun d =>
      let m := ds_mode d in
      rmapM (fun speed =>
        let! c := geti (match m with Heating => hs | Cooling => cs end) speed in
        plot_curve u d speed c)
        (seq 0 (sd_n (side_of m u)))) display_specs in
    Ok (mkFigure (plot_temperatures Heating u ++ tl (plot_temperatures Cooling u))%list
          (List.concat curves)).
End Report.
