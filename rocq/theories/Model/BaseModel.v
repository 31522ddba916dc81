(** Model of /repo/resdx/models/base_model.py, constant_model.py and
    carrier_defrost_model.py *)
From Coq Require Import QArith List String.
From Verif.Base Require Import Num Res.
From Verif.Model Require Import Units Util Psychrometrics Conditions Defrost Fan Tabular Unit NREL.
Import ListNotations.
Local Open Scope nat_scope.

Section BaseModel.
  Context {T : Type} {NT : Num T} {NX : NumX T}.
  Local Open Scope num_scope.
  Notation U := (dxunit T).
  Notation C := (cond T).

  (** base_model.py:103-110 *)
  Definition base_set_net_cooling_capacity (input : num_or_list T) : st U unit :=
    match input with
    | Many l => on_side Cooling (ws_net_cap l)
    | Scalar x => on_side Cooling (fun s => ws_net_cap (repeat x (sd_n s)) s)
    end.

  (** base_model.py:112-121 *)
  Definition base_set_net_heating_capacity (input : option (num_or_list T)) : st U unit :=
    do u <- sget ;;
    do q0 <- slift (geti (sd_net_cap (u_c u)) 0) ;;
    match match input with Some v => v | None => Scalar q0 end with
    | Many l => on_side Heating (ws_net_cap l)
    | Scalar x => on_side Heating (fun s => ws_net_cap (repeat x (sd_n s)) s)
    end.

  (** One pass of the loops base_model.py:135-146 and 148-157: airflow, fan power
      and fan speed of speed [i]. *)
  Definition base_fan_step (m : mode) (flow eff : T) (first : nat) (iq : nat * T) : st U unit :=
    let i := fst iq in
    let a := snd iq * flow in
    side_put m sd_airflow ws_airflow i a ;;;
    side_put m sd_fan_power ws_fan_power i (a * eff) ;;;
    on_side m (fun s =>
      let push (l : option (list (option nat))) :=
        match l with Some l => Some (l ++ [Some (first + i)%nat]) | None => None end in
      ws_rated_fan_speed (push (sd_rated_fan_speed s))
        (ws_fan_speed (push (sd_fan_speed s)) s)).

  (** base_model.py:123-165 *)
  Definition base_set_fan (input : option (fan T)) : st U unit :=
    match input with
    | Some f => smod (wu_fan (Some f))
    | None =>
        let clear (s : side T) := ws_rated_fan_speed (Some []) (ws_fan_speed (Some []) s) in
        let flow := fr_cfm_per_ton (lit 375) in
        let eff := fr_W_per_cfm (lit 0.365) in
        on_side Cooling clear ;;;
        on_side Heating clear ;;;
        do u <- sget ;;
        let qc := sd_net_cap (u_c u) in
        let qh := sd_net_cap (u_h u) in
        sfold (base_fan_step Cooling flow eff 0) (enumerate qc) ;;;
        sfold (base_fan_step Heating flow eff (List.length qc)) (enumerate qh) ;;;
        do f <- slift (make_constant_efficacy_fan (map (fun q => q * flow) (qc ++ qh))
                         (fr_inH2O (lit 0.5)) (EffNum eff)) ;;
        smod (wu_fan (Some f))
    end.

  (** base_model.py:167-172 *)
  Definition base_set_net_capacities_and_fan (qc : num_or_list T)
      (qh : option (num_or_list T)) (f : option (fan T)) : st U unit :=
    base_set_net_cooling_capacity qc ;;;
    base_set_net_heating_capacity qh ;;;
    base_set_fan f.

  (** base_model.py:180-202 (cooling) and 228-250 (heating) *)
  Definition base_set_net_cop (m : mode) (input : num_or_list T) : st U unit :=
    on_side m (fun s =>
      ws_net_cop (match input with
                  | Many l => map Some l
                  | Scalar x => repeat (Some x) (sd_n s)
                  end) s) ;;;
    derive_from_net_cop m.

  (** base_model.py:204-226 (cooling) and 252-274 (heating): a list is stored
      without deriving anything from it. *)
  Definition base_set_gross_cop (m : mode) (input : num_or_list T) : st U unit :=
    match input with
    | Many l => on_side m (ws_gross_cop (map Some l))
    | Scalar x =>
        on_side m (fun s => ws_gross_cop (repeat (Some x) (sd_n s)) s) ;;;
        derive_from_gross_cop m
    end.

  Definition not_implemented (u : U) (c : C) : res T := Err NotImplementedError.
  Definition unit_factor (u : U) (c : C) : res T := Ok (lit 1).

  (** Models other than RESNET keep no data taken from the keyword arguments. *)
  Definition no_data : resnet_data T := mkRn None None None None None None None.

  (** base_model.py:9-274: the class itself. *)
  Definition BaseDXModel : dxmodel T :=
    mkModel ["base_model"%string] (fun _ => Ok no_data)
      not_implemented not_implemented not_implemented not_implemented
      not_implemented not_implemented not_implemented not_implemented
      unit_factor unit_factor unit_factor unit_factor
      (lit 0.25) (lit 0.25)
      base_set_net_capacities_and_fan base_set_net_cop base_set_gross_cop.

  (** ** constant_model.py *)

  (** constant_model.py:8-12 and 19-23 *)
  Definition constant_power (m : mode) (u : U) (c : C) : res T :=
    ratio_at (sd_gross_cap (side_of m u)) (sd_gross_cop (side_of m u)) (c_speed c).
  (** constant_model.py:14-17 and 25-26 *)
  Definition constant_capacity (m : mode) (u : U) (c : C) : res T :=
    arr (sd_gross_cap (side_of m u)) (c_speed c).

  (** constant_model.py:4-40.  The integrated methods call the unit's steady-state
      methods, whose charge factors are 1. *)
  Definition ConstantDXModel : dxmodel T :=
    let shr := fun (u : U) (c : C) => Ok (lit 0.7) in
    mkModel ["base_model"%string] (fun _ => Ok no_data)
      (constant_capacity Cooling) (constant_power Cooling)
      (fun u c => let! q := checked_product (constant_capacity Cooling) unit_factor u c in
                  Ok (q * lit 0.7))
      shr
      (constant_capacity Heating) (constant_power Heating)
      (product (constant_capacity Heating) unit_factor)
      (product (constant_power Heating) unit_factor)
      unit_factor unit_factor unit_factor unit_factor
      (lit 0.25) (lit 0.25)
      base_set_net_capacities_and_fan base_set_net_cop base_set_gross_cop.

  (** ** carrier_defrost_model.py *)

  (** carrier_defrost_model.py:15-21 *)
  Definition carrier_table : list (T * T) :=
    [(fr_F (lit (-20)), lit 0.075); (fr_F (lit 17), lit 0.085);
     (fr_F (lit 27), lit 0.11); (fr_F (lit 37), lit 0.09)].

  (** [scipy.interpolate.interp1d(x, y, bounds_error=False, fill_value=(a, b))]
      at [t] for increasing [x]: [a] below the first point, [b] above the last,
      and the line through the neighbouring points in between. *)
  Fixpoint interp1d_from (x0 y0 : T) (l : list (T * T)) (above t : T) : T :=
    match l with
    | [] => if t >? x0 then above else y0
    | (x1, y1) :: l' =>
        if t <=? x1 then y0 + (y1 - y0) / (x1 - x0) * (t - x0)
        else interp1d_from x1 y1 l' above t
    end.
  Definition interp1d (l : list (T * T)) (below above t : T) : T :=
    match l with
    | [] => below
    | (x0, y0) :: l' => if t <? x0 then below else interp1d_from x0 y0 l' above t
    end.

  (** carrier_defrost_model.py:34-44 *)
  Definition carrier_fdef (c : C) : T :=
    interp1d carrier_table (lit 0.075) (lit 0.09) (ps_db (c_outdoor c)).

  (** carrier_defrost_model.py:23-29 ([steady] is the unit's method) *)
  Definition carrier_gross_integrated_heating_capacity (steady : U -> C -> res T)
      (u : U) (c : C) : res T :=
    if in_defrost (u_defrost u) c then
      let! s := steady u c in Ok (s * (lit 1 - carrier_fdef c))
    else steady u c.
  (** carrier_defrost_model.py:31-32 *)
  Definition carrier_gross_integrated_heating_power (steady : U -> C -> res T)
      (u : U) (c : C) : res T := steady u c.

  (** carrier_defrost_model.py:10-44: a DXModel that only supplies defrost. *)
  Definition CarrierDefrostModel : dxmodel T :=
    mkModel ["base_model"%string] (fun _ => Ok no_data)
      not_implemented not_implemented not_implemented not_implemented
      not_implemented not_implemented
      (carrier_gross_integrated_heating_capacity (product not_implemented unit_factor))
      (carrier_gross_integrated_heating_power (product not_implemented unit_factor))
      unit_factor unit_factor unit_factor unit_factor
      (lit 0.25) (lit 0.25)
      base_set_net_capacities_and_fan base_set_net_cop base_set_gross_cop.
End BaseModel.
