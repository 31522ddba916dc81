(** Model of /repo/resdx/models/nrel.py.  The methods are also called by other
    model classes with their own [self]; the functions that call back into
    [self] or into the unit take those callbacks as arguments. *)
From Coq Require Import QArith List String.
From Verif.Base Require Import Num Res.
From Verif.Model Require Import Units Util Psychrometrics Conditions Defrost Fan Curves Tabular Unit.
Import ListNotations.
Local Open Scope nat_scope.

Section NREL.
  Context {T : Type} {NT : Num T} {NX : NumX T}.
  Variable psy : psychro T.
  Variable sol : solvers T.
  Local Open Scope num_scope.
  Notation U := (dxunit T).
  Notation C := (cond T).

  (** ** Steady-state performance *)

  (** nrel.py:66-71, 102-107: temperatures in F, limited to the range of the
      curves. *)
  Definition cooling_temperatures (c : C) : res (T * T) :=
    let! wb := wb_of (c_indoor c) in
    Ok (bracket (to_F wb) (Some (lit 57)) (Some (lit 72)),
        bracket (to_F (ps_db (c_outdoor c))) (Some (lit 75)) None).

  (** nrel.py:64-98 *)
  Definition nrel_gross_cooling_power (u : U) (c : C) : res T :=
    let! t := cooling_temperatures c in
    let! r := need AttributeError (c_mass_airflow_ratio c) in
    let! q := arr (sd_gross_cap (u_c u)) (c_speed c) in
    let! cop := arr (sd_gross_cop (u_c u)) (c_speed c) in
    let! p := (calc_quad COOLING_EIR_FF r * calc_quad COOLING_CAP_FF r
               * calc_biquad COOLING_EIR_FT (fst t) (snd t)
               * calc_biquad COOLING_CAP_FT (fst t) (snd t) * q) /? cop in
    limit_check p (Some (lit 0)) None.

  (** nrel.py:100-122 *)
  Definition nrel_gross_total_cooling_capacity (u : U) (c : C) : res T :=
    let! t := cooling_temperatures c in
    let! r := need AttributeError (c_mass_airflow_ratio c) in
    let! q := arr (sd_gross_cap (u_c u)) (c_speed c) in
    Ok (calc_quad COOLING_CAP_FF r * calc_biquad COOLING_CAP_FT (fst t) (snd t) * q).

  (** nrel.py:124-151 *)
  Definition nrel_gross_heating_power (u : U) (c : C) : res T :=
    let ti := to_F (ps_db (c_indoor c)) in
    let to := to_F (ps_db (c_outdoor c)) in
    let! r := need AttributeError (c_mass_airflow_ratio c) in
    let! q := arr (sd_gross_cap (u_h u)) (c_speed c) in
    let! cop := arr (sd_gross_cop (u_h u)) (c_speed c) in
    (calc_quad HEATING_EIR_FF r * calc_quad HEATING_CAP_FF r
     * calc_biquad HEATING_EIR_FT ti to * calc_biquad HEATING_CAP_FT ti to * q) /? cop.

  (** nrel.py:153-169 *)
  Definition nrel_gross_heating_capacity (u : U) (c : C) : res T :=
    let ti := to_F (ps_db (c_indoor c)) in
    let to := to_F (ps_db (c_outdoor c)) in
    let! r := need AttributeError (c_mass_airflow_ratio c) in
    let! q := arr (sd_gross_cap (u_h u)) (c_speed c) in
    Ok (calc_quad HEATING_CAP_FF r * calc_biquad HEATING_CAP_FT ti to * q).

  (** ** Defrost (EPRI) *)

  (** nrel.py:269-276 *)
  Definition coil_diff_outdoor_air_humidity (c : C) : res T :=
    let t_coil := lit 0.82 * to_C (ps_db (c_outdoor c)) - lit 8.589 in
    let! sat := GetSatHumRatio psy t_coil (ps_p (c_outdoor c)) in
    let! hr := hr_of psy (c_outdoor c) in
    Ok (pymax (lit 0.000001) (hr - sat)).

  (** nrel.py:262-266 *)
  Definition epri_defrost_time_fraction (c : C) : res T :=
    let! d := coil_diff_outdoor_air_humidity c in
    let! q := lit 0.01446 /? d in
    lit 1 /? (lit 1 + q).

  (** nrel.py:171-205; [steady] is the unit's gross_steady_state_heating_capacity. *)
  Definition nrel_gross_integrated_heating_capacity (steady : U -> C -> res T)
      (u : U) (c : C) : res T :=
    if in_defrost (u_defrost u) c then
      let! t := df_time_fraction (u_defrost u) c in
      let! mult := match df_control (u_defrost u) with
                   | DCTimed => let! d := coil_diff_outdoor_air_humidity c in
                                Ok (lit 0.909 - lit 107.33 * d)
                   | _ => Ok (lit 0.875 * (lit 1 - t))
                   end in
      let! qd := match df_strategy (u_defrost u) with
                 | DSReverseCycle =>
                     let! q := arr (sd_gross_cap (u_h u)) (c_speed c) in
                     Ok (lit 0.01 * (lit 7.222 - to_C (ps_db (c_outdoor c)))
                         * (q / lit 1.01667))
                 | _ => Ok (lit 0)
                 end in
      let! s := steady u c in
      Ok (s * mult * (lit 1 - t) - qd * t)
    else steady u c.

  (** nrel.py:226-259; [steady] is the unit's gross_steady_state_heating_power.
      [NRELDXModel.get_cooling_cop60()] is called without its argument, so the
      reverse-cycle branch always raises TypeError. *)
  Definition nrel_gross_integrated_heating_power (steady : U -> C -> res T)
      (u : U) (c : C) : res T :=
    if in_defrost (u_defrost u) c then
      let! t := df_time_fraction (u_defrost u) c in
      let! mult := match df_control (u_defrost u) with
                   | DCTimed => let! d := coil_diff_outdoor_air_humidity c in
                                Ok (lit 0.9 - lit 36.45 * d)
                   | _ => Ok (lit 0.954 * (lit 1 - t))
                   end in
      let! pd := match df_strategy (u_defrost u) with
                 | DSReverseCycle => Err TypeError
                 | _ => Ok (df_resistive_power (u_defrost u))
                 end in
      let! s := steady u c in
      Ok (s * mult * (lit 1 - t) + pd * t)
    else steady u c.

  (** ** Sensible capacity *)

  (** nrel.py:278-291; [total] is the unit's gross_total_cooling_capacity. *)
  Definition nrel_gross_sensible_cooling_capacity (total : U -> C -> res T)
      (u : U) (c : C) : res T :=
    let! qt := total u c in
    let! hi := h_of psy (c_indoor c) in
    let! m := need AttributeError (c_mass_airflow c) in
    let! bf := bypass_factor u c in
    let! x := qt /? (m * (lit 1 - bf)) in
    let h_adp := hi - x in
    let p := ps_p (c_indoor c) in
    let! t_adp := run_prober_pure
                    (fun t => let! h := GetSatAirEnthalpy psy t p in Ok (h - h_adp))
                    (newton sol (db_C (c_indoor c))) in
    let! w_adp := GetSatHumRatio psy t_adp p in
    let! hs := GetMoistAirEnthalpy psy (db_C (c_indoor c)) w_adp in
    (qt * (hs - h_adp)) /? (hi - h_adp).

  (** ** Refrigerant charge (Domanski) *)

  Definition coeffs4 := (T * T * T * T)%type.
  (** nrel.py:302-324: (undercharge, overcharge) coefficients. *)
  Definition charge_coeffs (m : mode) (capacity : bool) : coeffs4 * coeffs4 :=
    match m, capacity with
    | Cooling, true => ((lit (-0.946), lit 0.0493, lit (-0.00118), lit (-1.15)),
                        (lit (-0.163), lit 0.0114, lit (-0.00021), lit (-0.14)))
    | Cooling, false => ((lit (-0.313), lit 0.0115, lit 0.00266, lit (-0.116)),
                         (lit 0.219, lit (-0.00501), lit 0.000989, lit 0.284))
    | Heating, true => ((lit (-0.0339), lit 0, lit 0.0203, lit (-2.62)),
                        (lit (-0.00295), lit 0, lit 0.000738, lit (-0.00641)))
    | Heating, false => ((lit 0.0616, lit 0, lit 0.00446, lit (-0.26)),
                         (lit (-0.0594), lit 0, lit 0.0159, lit 1.89))
    end.

  (** nrel.py:326-348 *)
  Definition domanski_charge_factor (t_idb t_odb f : T) (k : coeffs4 * coeffs4) : T :=
    let '(a0, a1, a2, a3) := if f <? lit 0 then fst k else snd k in
    lit 1 + (a0 + a1 * t_idb + a2 * t_odb + a3 * f) * f.

  (** nrel.py:350-405.  [fn] is the (capacity or power) method of the model the
      factor is computed for; [m] the class of the conditions. *)
  Definition resnet_grading_model (m : mode) (capacity : bool) (fn : U -> C -> res T)
      (u : U) (c : C) : res T :=
    let f_chg := u_charge u in
    if f_chg =? lit 0 then Ok (lit 1)
    else
      let! rc := make_condition psy m u (c_speed c) None None in
      let! rated := fn u rc in
      let f := domanski_charge_factor (db_C (c_indoor c)) (db_C (c_outdoor c)) f_chg
                 (charge_coeffs m capacity) in
      let! cf := lit 1 /? domanski_charge_factor (db_C (c_indoor rc)) (db_C (c_outdoor rc))
                            f_chg (charge_coeffs m true) in
      let at_ratio (r : T) :=
        let! c' := ex (set_mass_airflow_ratio psy r) rc in
        let! v := fn u c' in
        v /? rated in
      let! f_af_chg := at_ratio cf in
      let! r := need AttributeError (c_mass_airflow_ratio c) in
      let! f_af := at_ratio (r * cf) in
      let! f_corr := at_ratio r in
      let! x := f /? f_af_chg in
      (x * f_af) /? f_corr.

  (** ** Defaults *)

  (** nrel.py:432-446 *)
  Definition nrel_fan_efficacy (seer : option T) : T :=
    let hi := fr_W_per_cfm (lit 0.25) in
    let lo := fr_W_per_cfm (lit 0.18) in
    match seer with
    | Some s =>
        if s <=? lit 14 then hi
        else if s >=? lit 16 then lo
        else hi + (lo - hi) * (s - lit 14) / lit 2
    | None => hi
    end.

  (** nrel.py:428-472.  For three or more speeds the flows keep the value given to
      the constructor. *)
  Definition nrel_set_rated_fan_characteristics (fan_given : bool) : st U unit :=
    if fan_given then sret tt
    else
      do u <- sget ;;
      let e := nrel_fan_efficacy (u_seer u) in
      let set (m : mode) (one two low : T) : st U unit :=
        on_side m (fun s =>
          let s := ws_fan_efficacy (repeat e (sd_n s)) s in
          match sd_n s with
          | 1%nat => ws_flow_per_cap (Some (Many [fr_cfm_per_ton one])) s
          | 2%nat => let d := fr_cfm_per_ton two in
                 ws_flow_per_cap (Some (Many [d; d * low])) s
          | _ => s
          end) in
      set Cooling (lit 394.2) (lit 344.1) (lit 0.86) ;;;
      set Heating (lit 384.1) (lit 352.2) (lit 0.8).

  (** [self.system.rated_*_airflow_per_rated_net_capacity[i]] *)
  Definition flow_per_cap (s : side T) (i : nat) : res T :=
    match sd_flow_per_cap s with
    | Some (Many l) => geti l i
    | _ => Err TypeError
    end.

  (** The second entry of a two-speed capacity default: nrel.py:481-495 (cooling,
      [sgn] adds the fan power) and 506-520 (heating, [sgn] subtracts it). *)
  Definition nrel_lower_capacity (sgn : T -> T -> T) (s : side T) (x : T) : res T :=
    let! e0 := geti (sd_fan_efficacy s) 0 in
    let! a0 := flow_per_cap s 0 in
    let! e1 := geti (sd_fan_efficacy s) 1 in
    let! a1 := flow_per_cap s 1 in
    (sgn x (x * e0 * a0) * lit 0.72) /? (sgn (lit 1) (e1 * a1)).

  (** nrel.py:474-495.  With three or more speeds and a scalar nothing is
      assigned and the attribute does not exist when read next. *)
  Definition nrel_set_rated_net_total_cooling_capacity (input : num_or_list T)
      : st U unit :=
    match input with
    | Many l => on_side Cooling (ws_net_cap l)
    | Scalar x =>
        do u <- sget ;;
        match sd_n (u_c u) with
        | 1%nat => on_side Cooling (ws_net_cap [x])
        | 2%nat => do y <- slift (nrel_lower_capacity nadd (u_c u) x) ;;
               on_side Cooling (ws_net_cap [x; y])
        | _ => slift (Err AttributeError)
        end
    end.

  (** nrel.py:497-520; with three or more heating speeds the attribute stays
      unset. *)
  Definition nrel_set_rated_net_heating_capacity (input : option (num_or_list T))
      : st U unit :=
    do u <- sget ;;
    do q0 <- slift (geti (sd_net_cap (u_c u)) 0) ;;
    match match input with Some v => v | None => Scalar q0 end with
    | Many l => on_side Heating (ws_net_cap l)
    | Scalar x =>
        match sd_n (u_h u) with
        | 1%nat => on_side Heating (ws_net_cap [x])
        | 2%nat => do y <- slift (nrel_lower_capacity nsub (u_h u) x) ;;
               on_side Heating (ws_net_cap [x; y])
        | _ => sret tt
        end
    end.

  (** nrel.py:522-557.  A given fan-speed map leaves [set_*_fan_speed] unassigned.
      Both loops run over the cooling capacities.  The fan's efficacy is a list, so
      that [NRELFan.add_speed] (nrel.py:748-753) multiplies a list by a float. *)
  Definition nrel_set_fan (input : option (fan T)) : st U unit :=
    match input with
    | Some f => smod (wu_fan (Some f))
    | None =>
        do u <- sget ;;
        do _ <- slift (guard UnboundLocalError
                         match sd_fan_speed (u_c u) with None => true | _ => false end) ;;
        do cool <- slift (rmapM (fun iq =>
                     let! a := flow_per_cap (u_c u) (fst iq) in
                     let! _ := geti (sd_fan_efficacy (u_c u)) (fst iq) in
                     Ok (snd iq * a)) (enumerate (sd_net_cap (u_c u)))) ;;
        do _ <- slift (guard UnboundLocalError
                         match sd_fan_speed (u_h u) with None => true | _ => false end) ;;
        do _ <- slift (rmapM (fun iq =>
                     let! a := flow_per_cap (u_h u) (fst iq) in
                     let! _ := geti (sd_fan_efficacy (u_h u)) (fst iq) in
                     Ok (snd iq * a)) (enumerate (sd_net_cap (u_c u)))) ;;
        do a0 <- slift (geti cool 0) ;;
        do _ <- slift (system_curve_constant (fr_inH2O (lit 0.2)) a0) ;;
        slift (Err TypeError)
    end.

  (** nrel.py:559-565 *)
  Definition nrel_set_net_capacities_and_fan (qc : num_or_list T)
      (qh : option (num_or_list T)) (f : option (fan T)) : st U unit :=
    nrel_set_rated_fan_characteristics match f with Some _ => true | None => false end ;;;
    nrel_set_rated_net_total_cooling_capacity qc ;;;
    nrel_set_rated_net_heating_capacity qh ;;;
    nrel_set_fan f.

  (** ** COP setters *)

  (** nrel.py:567-573 *)
  Definition cop_low (m : mode) (x : T) : T :=
    match m with Cooling => x / lit 0.91 | Heating => x / lit 0.87 end.

  (** [self.system.<array> = [f(i) for i in range(number_of_speeds)]] *)
  Definition set_comp (m : mode) (set : list (option T) -> side T -> side T)
      (f : side T -> nat -> res T) : st U unit :=
    do u <- sget ;;
    let s := side_of m u in
    do l <- slift (comp (sd_n s) (f s)) ;;
    on_side m (set l).

  (** [self.system.<array>[i] = f()] *)
  Definition set_entry (m : mode) (get : side T -> list (option T))
      (set : list (option T) -> side T -> side T) (i : nat) (f : side T -> res T)
      : st U unit :=
    do u <- sget ;;
    do v <- slift (f (side_of m u)) ;;
    side_put m get set i v.

  Definition ratio_at (a b : list (option T)) (i : nat) : res T :=
    let! x := arr a i in let! y := arr b i in x /? y.
  Definition minus_at (a b : list (option T)) (i : nat) : res T :=
    let! x := arr a i in let! y := arr b i in Ok (x - y).
  Definition plus_at (a b : list (option T)) (i : nat) : res T :=
    let! x := arr a i in let! y := arr b i in Ok (x + y).
  Definition net_over (s : side T) (b : list (option T)) (i : nat) : res T :=
    let! x := geti (sd_net_cap s) i in let! y := arr b i in x /? y.

  (** From the net COP to net power, gross power and gross COP of every speed. *)
  Definition derive_from_net_cop (m : mode) : st U unit :=
    set_comp m ws_net_power (fun s => net_over s (sd_net_cop s)) ;;;
    set_comp m ws_gross_power (fun s => minus_at (sd_net_power s) (sd_fan_power s)) ;;;
    set_comp m ws_gross_cop (fun s => ratio_at (sd_gross_cap s) (sd_gross_power s)).

  (** From the gross COP to gross power, net power and net COP of every speed. *)
  Definition derive_from_gross_cop (m : mode) : st U unit :=
    set_comp m ws_gross_power (fun s => ratio_at (sd_gross_cap s) (sd_gross_cop s)) ;;;
    set_comp m ws_net_power (fun s => plus_at (sd_gross_power s) (sd_fan_power s)) ;;;
    set_comp m ws_net_cop (fun s => net_over s (sd_net_power s)).

  (** nrel.py:575-624 (cooling) and 653-702 (heating) *)
  Definition nrel_set_net_cop (m : mode) (input : num_or_list T) : st U unit :=
    match input with
    | Many l =>
        on_side m (ws_net_cop (map Some l)) ;;;
        derive_from_net_cop m
    | Scalar x =>
        side_put m sd_net_cop ws_net_cop 0 x ;;;
        set_entry m sd_net_power ws_net_power 0 (fun s => net_over s (sd_net_cop s) 0) ;;;
        set_entry m sd_gross_power ws_gross_power 0
          (fun s => minus_at (sd_net_power s) (sd_fan_power s) 0) ;;;
        set_entry m sd_gross_cop ws_gross_cop 0
          (fun s => ratio_at (sd_gross_cap s) (sd_gross_power s) 0) ;;;
        do u <- sget ;;
        if Nat.eqb (sd_n (side_of m u)) 2 then
          set_entry m sd_gross_cop ws_gross_cop 1
            (fun s => let! x := arr (sd_gross_cop s) 0 in Ok (cop_low m x)) ;;;
          set_entry m sd_gross_power ws_gross_power 1
            (fun s => ratio_at (sd_gross_cap s) (sd_gross_cop s) 1) ;;;
          set_entry m sd_net_power ws_net_power 1
            (fun s => plus_at (sd_gross_power s) (sd_fan_power s) 1) ;;;
          set_entry m sd_net_cop ws_net_cop 1 (fun s => net_over s (sd_net_power s) 1)
        else sret tt
    end.

  (** nrel.py:626-651 (cooling) and 704-729 (heating) *)
  Definition nrel_set_gross_cop (m : mode) (input : num_or_list T) : st U unit :=
    match input with
    | Many l => on_side m (ws_gross_cop (map Some l))
    | Scalar x =>
        side_put m sd_gross_cop ws_gross_cop 0 x ;;;
        do u <- sget ;;
        if Nat.eqb (sd_n (side_of m u)) 2 then
          set_entry m sd_gross_cop ws_gross_cop 1
            (fun s => let! x := arr (sd_gross_cop s) 0 in Ok (cop_low m x))
        else sret tt
    end ;;;
    derive_from_gross_cop m.
End NREL.
