(** Model of class DXUnit (/repo/resdx/dx_unit.py:113-1376) without the IDF, 205,
    plot and table exports.  The model object is the record [M]. *)
From Coq Require Import QArith List String Bool.
From Verif.Base Require Import Num Res.
From Verif.Model Require Import Units Util Psychrometrics Conditions Defrost Fan Tabular Unit.
Import ListNotations.
Local Open Scope nat_scope.

(** * Constructor arguments (dx_unit.py:141-185); [metadata] is not modelled. *)
Record dxargs (T : Type) := mkArgs {
  a_staging : option staging_type;
  a_ccap : num_or_list T;            (* rated_net_total_cooling_capacity *)
  a_gross_ccop : option (num_or_list T);
  a_net_ccop : option (num_or_list T);
  a_cflow : option (num_or_list T);  (* rated_cooling_airflow_per_rated_net_capacity *)
  a_cd_c : option T;
  a_cooling_off : T;
  a_hcap : option (num_or_list T);
  a_gross_hcop : option (num_or_list T);
  a_net_hcop : option (num_or_list T);
  a_hflow : option (num_or_list T);
  a_cd_h : option T;
  a_heating_off : option T;
  a_heating_on : option T;
  a_defrost : option (defrost T);
  a_fan : option (fan T);
  a_hfan_speed : option (list (option nat));
  a_cfan_speed : option (list (option nat));
  a_rated_hfan_speed : option (list (option nat));
  a_rated_cfan_speed : option (list (option nat));
  a_crank : option T;
  a_crank_setpoint : T;
  a_charge : T;
  a_cycling : cycling_method;
  a_cfull : nat;
  a_cint : option nat;
  a_hfull : nat;
  a_hint : option nat;
  a_ducted : bool;
  a_standard : ahri_version;
  a_seer : option T;
  a_eer : option T;
  a_hspf : option T;
  a_kwargs : list (string * kwval T)
}.
Arguments mkArgs {T}.
Arguments a_staging {T}. Arguments a_ccap {T}. Arguments a_gross_ccop {T}.
Arguments a_net_ccop {T}. Arguments a_cflow {T}. Arguments a_cd_c {T}.
Arguments a_cooling_off {T}. Arguments a_hcap {T}. Arguments a_gross_hcop {T}.
Arguments a_net_hcop {T}. Arguments a_hflow {T}. Arguments a_cd_h {T}.
Arguments a_heating_off {T}. Arguments a_heating_on {T}. Arguments a_defrost {T}.
Arguments a_fan {T}. Arguments a_hfan_speed {T}. Arguments a_cfan_speed {T}.
Arguments a_rated_hfan_speed {T}. Arguments a_rated_cfan_speed {T}.
Arguments a_crank {T}. Arguments a_crank_setpoint {T}. Arguments a_charge {T}.
Arguments a_cycling {T}. Arguments a_cfull {T}. Arguments a_cint {T}.
Arguments a_hfull {T}. Arguments a_hint {T}. Arguments a_ducted {T}.
Arguments a_standard {T}. Arguments a_seer {T}. Arguments a_eer {T}.
Arguments a_hspf {T}. Arguments a_kwargs {T}.

(** dx_unit.py:54-82 *)
Record heating_distribution (T : Type) := mkHD {
  hd_design : T;               (* outdoor_design_temperature *)
  hd_hours : list T;           (* fractional_hours *)
  hd_c : option T;
  hd_c_vs : option T;
  hd_zero_load : option T      (* zero_load_temperature *)
}.
Arguments mkHD {T}.
Arguments hd_design {T}. Arguments hd_hours {T}. Arguments hd_c {T}.
Arguments hd_c_vs {T}. Arguments hd_zero_load {T}.

(** The outdoor dry bulb, net capacity and net power of a rating test. *)
Record point (T : Type) := mkPoint { pt_t : T; pt_q : T; pt_p : T }.
Arguments mkPoint {T}.
Arguments pt_t {T}. Arguments pt_q {T}. Arguments pt_p {T}.

Section DXUnit.
  Context {T : Type} {NT : Num T} {NX : NumX T}.
  Variable psy : psychro T.
  Variable sol : solvers T.
  Variable M : dxmodel T.
  Local Open Scope num_scope.
  Notation U := (dxunit T).
  Notation C := (cond T).

  (** The defaults of dx_unit.py:141-185. *)
  Definition default_args : dxargs T :=
    mkArgs None (Scalar (fr_ton (lit 3))) (Some (Scalar (lit 3.72))) None None None
      (fr_F (lit 125)) None (Some (Scalar (lit 3.82))) None None None None None None
      None None None None None None (fr_F (lit 50)) (lit 0) BETWEEN_LOW_FULL
      0 None 0 None true AHRI_210_240_2023 None None None [].

  (** * Cooling performance *)

  (** [if conditions is None: conditions = self.A_full_cond]
      (dx_unit.py:681-682 and elsewhere). *)
  Definition cooling_conditions (u : U) (oc : option C) : res C :=
    match oc with
    | Some c => Ok c
    | None => need AttributeError (rc_A_full (u_conds u))
    end.
  Definition heating_conditions (u : U) (oc : option C) : res C :=
    match oc with
    | Some c => Ok c
    | None => need AttributeError (rc_H1_full (u_conds u))
    end.

  (** [f(conditions) <op> g(conditions)] *)
  Definition both (op : T -> T -> res T) (f g : U -> option C -> res T) (u : U)
      (oc : option C) : res T :=
    let! a := f u oc in let! b := g u oc in op a b.
  Definition plus (a b : T) : res T := Ok (a + b).
  Definition minus (a b : T) : res T := Ok (a - b).

  (** dx_unit.py:680-686 *)
  Definition cooling_fan_power (u : U) (oc : option C) : res T :=
    let! c := cooling_conditions u oc in fan_power sol u c.
  (** dx_unit.py:688-695 *)
  Definition gross_total_cooling_capacity (u : U) (oc : option C) : res T :=
    let! c := cooling_conditions u oc in checked_product (md_gtc M) (md_f_gtc M) u c.
  (** dx_unit.py:697-702 *)
  Definition gross_sensible_cooling_capacity (u : U) (oc : option C) : res T :=
    let! c := cooling_conditions u oc in
    let! q := md_gsc M u c in
    limit_check q (Some (lit 0)) None.
  (** dx_unit.py:704-710 *)
  Definition gross_shr : U -> option C -> res T :=
    both (fun s q => let! r := s /? q in limit_check r (Some (lit 0)) (Some (lit 1)))
      gross_sensible_cooling_capacity gross_total_cooling_capacity.
  (** dx_unit.py:712-719 *)
  Definition gross_cooling_power (u : U) (oc : option C) : res T :=
    let! c := cooling_conditions u oc in checked_product (md_gcp M) (md_f_gcp M) u c.
  (** dx_unit.py:721-757 *)
  Definition net_total_cooling_capacity : U -> option C -> res T :=
    both minus gross_total_cooling_capacity cooling_fan_power.
  Definition net_sensible_cooling_capacity : U -> option C -> res T :=
    both minus gross_sensible_cooling_capacity cooling_fan_power.
  Definition net_shr : U -> option C -> res T :=
    both pydiv net_sensible_cooling_capacity net_total_cooling_capacity.
  Definition net_cooling_power : U -> option C -> res T :=
    both plus gross_cooling_power cooling_fan_power.
  Definition gross_total_cooling_cop : U -> option C -> res T :=
    both pydiv gross_total_cooling_capacity gross_cooling_power.
  Definition gross_sensible_cooling_cop : U -> option C -> res T :=
    both pydiv gross_sensible_cooling_capacity gross_cooling_power.
  Definition net_total_cooling_cop : U -> option C -> res T :=
    both pydiv net_total_cooling_capacity net_cooling_power.
  Definition net_sensible_cooling_cop : U -> option C -> res T :=
    both pydiv net_sensible_cooling_capacity net_cooling_power.

  (** dx_unit.py:759-770 *)
  Definition gross_cooling_outlet_state (u : U) (oc : option C) (sensible : option T)
      : res (psych_state T) :=
    let! c := cooling_conditions u oc in
    let! qs := match sensible with
               | Some q => Ok q
               | None => gross_sensible_cooling_capacity u (Some c)
               end in
    let! h_i := h_of psy (c_indoor c) in
    let! m := need AttributeError (c_mass_airflow c) in
    let! q := gross_total_cooling_capacity u (Some c) in
    let! dh := q /? m in
    let! dt := qs /? (m * C_p) in
    PsychState psy (ps_db (c_indoor c) - dt) (ps_p (c_indoor c))
      [("enthalpy"%string, h_i - dh)].

  (** dx_unit.py:772-790 *)
  Definition calculate_adp_state (inlet outlet : psych_state T) : res (psych_state T) :=
    let t_i := db_C inlet in
    let! w_i := hr_of psy inlet in
    let t_o := db_C outlet in
    let! w_o := hr_of psy outlet in
    let on_line (t : T) :=
      let! s := (w_i - w_o) /? (t_i - t_o) in Ok (w_i - s * (t_i - t)) in
    let! t_adp := run_prober_pure
      (fun t => let! w := GetHumRatioFromRelHum psy t (lit 1) (ps_p inlet) in
                let! l := on_line t in Ok (w - l)) (newton sol t_i) in
    let! w_adp := on_line t_adp in
    if orb (t_o <? t_adp) (w_o <? w_adp) then Err PyException
    else PsychState psy (fr_C t_adp) (ps_p inlet) [("hum_rat"%string, w_adp)].

  (** dx_unit.py:820-822: fails without conditions, unlike the other methods. *)
  Definition adp_state (u : U) (oc : option C) : res (psych_state T) :=
    let! outlet := gross_cooling_outlet_state u oc None in
    let! c := need AttributeError oc in
    calculate_adp_state (c_indoor c) outlet.

  (** dx_unit.py:792-811 *)
  Definition calculate_rated_bypass_factor (c : C) : st U unit :=
    do u <- sget ;;
    let i := c_speed c in
    do bf <- slift (
      let! shr := arr (u_shr u) i in
      let! q := gross_total_cooling_capacity u (Some c) in
      let! outlet := gross_cooling_outlet_state u (Some c) (Some (shr * q)) in
      let! adp := calculate_adp_state (c_indoor c) outlet in
      let! h_i := h_of psy (c_indoor c) in
      let! h_o := h_of psy outlet in
      let! h_adp := h_of psy adp in
      (h_o - h_adp) /? (h_i - h_adp)) ;;
    do l <- slift (seti (u_bf u) i (Some bf)) ;;
    smod (wu_bf l) ;;;
    do ntu <- slift (
      let! m := need AttributeError (c_mass_airflow c) in
      let! g := pylog bf in
      Ok (nopp m * g)) ;;
    do l <- slift (seti (u_ntu u) i (Some ntu)) ;;
    smod (wu_ntu l).

  (** dx_unit.py:824-825 *)
  Definition eer (u : U) (oc : option C) : res T :=
    let! cop := net_total_cooling_cop u oc in Ok (to_Btu_Wh cop).

  (** * Heating performance *)

  (** dx_unit.py:978-1008 *)
  Definition heating_fan_power (u : U) (oc : option C) : res T :=
    let! c := heating_conditions u oc in fan_power sol u c.
  Definition gross_steady_state_heating_capacity (u : U) (oc : option C) : res T :=
    let! c := heating_conditions u oc in product (md_ghc M) (md_f_ghc M) u c.
  Definition gross_steady_state_heating_power (u : U) (oc : option C) : res T :=
    let! c := heating_conditions u oc in product (md_ghp M) (md_f_ghp M) u c.
  Definition gross_integrated_heating_capacity (u : U) (oc : option C) : res T :=
    let! c := heating_conditions u oc in md_gihc M u c.
  Definition gross_integrated_heating_power (u : U) (oc : option C) : res T :=
    let! c := heating_conditions u oc in md_gihp M u c.
  (** dx_unit.py:1010-1068 *)
  Definition net_steady_state_heating_capacity : U -> option C -> res T :=
    both plus gross_steady_state_heating_capacity heating_fan_power.
  Definition net_steady_state_heating_power : U -> option C -> res T :=
    both plus gross_steady_state_heating_power heating_fan_power.
  Definition net_integrated_heating_capacity : U -> option C -> res T :=
    both plus gross_integrated_heating_capacity heating_fan_power.
  Definition net_integrated_heating_power : U -> option C -> res T :=
    both plus gross_integrated_heating_power heating_fan_power.
  Definition gross_steady_state_heating_cop : U -> option C -> res T :=
    both pydiv gross_steady_state_heating_capacity gross_steady_state_heating_power.
  Definition gross_integrated_heating_cop : U -> option C -> res T :=
    both pydiv gross_integrated_heating_capacity gross_integrated_heating_power.
  Definition net_steady_state_heating_cop : U -> option C -> res T :=
    both pydiv net_steady_state_heating_capacity net_steady_state_heating_power.
  Definition net_integrated_heating_cop : U -> option C -> res T :=
    both pydiv net_integrated_heating_capacity net_integrated_heating_power.
  Definition gross_heating_capacity_ratio : U -> option C -> res T :=
    both pydiv gross_integrated_heating_capacity gross_steady_state_heating_capacity.
  Definition net_heating_capacity_ratio : U -> option C -> res T :=
    both pydiv net_integrated_heating_capacity net_steady_state_heating_capacity.
  Definition gross_heating_power_ratio : U -> option C -> res T :=
    both pydiv gross_integrated_heating_power gross_steady_state_heating_power.
  Definition net_heating_power_ratio : U -> option C -> res T :=
    both pydiv net_integrated_heating_power net_steady_state_heating_power.
  (** dx_unit.py:1070-1078 *)
  Definition gross_heating_output_state (u : U) (oc : option C) : res (psych_state T) :=
    let! c := heating_conditions u oc in
    let! q := gross_steady_state_heating_capacity u (Some c) in
    let! m := need AttributeError (c_mass_airflow c) in
    let! dt := q /? (m * C_p) in
    let! w := hr_of psy (c_indoor c) in
    PsychState psy (ps_db (c_indoor c) + dt) (ps_p (c_indoor c)) [("hum_rat"%string, w)].

  (** * Rating conditions *)

  (** An outdoor state of a rating test. *)
  Definition outdoor (db wb : T) : option (psych_state T) :=
    Some (psych_wetbulb (fr_F db) atm (fr_F wb)).
  Definition t82 := outdoor (lit 82) (lit 65).
  Definition t87 := outdoor (lit 87) (lit 69).
  Definition t67 := outdoor (lit 67) (lit 53.5).
  Definition t62 := outdoor (lit 62) (lit 56.5).
  Definition t35 := outdoor (lit 35) (lit 33).
  Definition t17 := outdoor (lit 17) (lit 15).
  Definition t5 := outdoor (lit 5) (lit 3).

  (** [self.<cond> = self.make_condition(...)]; a speed of [None] raises
      TypeError. *)
  Definition put_cond (set : option C -> rconds T -> rconds T) (m : mode)
      (speed : option nat) (o : option (psych_state T)) : st U unit :=
    do u <- sget ;;
    do s <- slift (need TypeError speed) ;;
    do c <- slift (make_condition psy m u s None o) ;;
    smod (fun u => wu_conds (set (Some c) (u_conds u)) u).

  (** dx_unit.py:390-392 (also 326-328) *)
  Definition reset_full_esp : st U unit :=
    do p <- sread get_rated_full_flow_rated_pressure ;;
    smod (wu_full_esp (Some p)).

  (** dx_unit.py:389-479 *)
  Definition set_rating_conditions : st U unit :=
    reset_full_esp ;;;
    do u <- sget ;;
    let cf := Some (sd_full (u_c u)) in
    let hf := Some (sd_full (u_h u)) in
    let cl := sd_low (u_c u) in
    let hl := sd_low (u_h u) in
    put_cond wc_A_full Cooling cf None ;;;
    put_cond wc_B_full Cooling cf t82 ;;;
    put_cond wc_H1_full Heating hf None ;;;
    put_cond wc_H2_full Heating hf t35 ;;;
    put_cond wc_H3_full Heating hf t17 ;;;
    put_cond wc_H4_full Heating hf t5 ;;;
    match u_staging u with
    | SINGLE_STAGE => sret tt
    | staging =>
        match staging with
        | VARIABLE_SPEED =>
            put_cond wc_A_int Cooling (Some (sd_int (u_c u))) None ;;;
            put_cond wc_E_int Cooling (Some (sd_int (u_c u))) t87 ;;;
            put_cond wc_H2_int Heating (Some (sd_int (u_h u))) t35
        | _ => sret tt
        end ;;;
        match sd_boost (u_c u) with
        | Some b => put_cond wc_A_boost Cooling (Some b) None
        | None => sret tt
        end ;;;
        put_cond wc_A_low Cooling cl None ;;;
        put_cond wc_B_low Cooling cl t82 ;;;
        put_cond wc_F_low Cooling cl t67 ;;;
        put_cond wc_H0_low Heating hl t62 ;;;
        put_cond wc_H1_low Heating hl None ;;;
        put_cond wc_H2_low Heating hl t35 ;;;
        put_cond wc_H3_low Heating hl t17
    end.

  (** dx_unit.py:674-677 *)
  Definition set_rating_standard (s : ahri_version) : st U unit :=
    smod (wu_standard s) ;;; set_rating_conditions.

  Definition rating (get : rconds T -> option C) (u : U) : res C :=
    need AttributeError (get (u_conds u)).

  (** [self.rated_gross_shr_cooling[speed] = self.model.gross_shr(cond);
      self.calculate_rated_bypass_factor(cond)] *)
  Definition set_sensible_at (speed : option nat) (get : rconds T -> option C)
      : st U unit :=
    do c <- sread (rating get) ;;
    do u <- sget ;;
    do v <- slift (md_shr M u c) ;;
    do i <- slift (need TypeError speed) ;;
    do l <- slift (seti (u_shr u) i (Some v)) ;;
    smod (wu_shr l) ;;;
    calculate_rated_bypass_factor c.

  (** dx_unit.py:481-503 *)
  Definition set_sensible_cooling_variables : st U unit :=
    do u <- sget ;;
    let s := u_c u in
    set_sensible_at (Some (sd_full s)) rc_A_full ;;;
    match u_staging u with
    | SINGLE_STAGE => sret tt
    | staging =>
        match staging with
        | VARIABLE_SPEED =>
            set_sensible_at (Some (sd_int s)) rc_A_int ;;;
            match sd_boost s with
            | Some b => set_sensible_at (Some b) rc_A_boost
            | None => sret tt
            end
        | _ => sret tt
        end ;;;
        set_sensible_at (sd_low s) rc_A_low
    end.

  (** * Constructor *)

  Definition absent_kw {A} (o : option A) : bool :=
    match o with None => true | Some _ => false end.

  (** base_model.py:14-22.  [base_model]'s [system] attribute is set; a value
      that is not an object raises AttributeError there.  A base model's own
      state is not modelled. *)
  Definition set_system (kw : list (string * kwval T)) : res (resnet_data T) :=
    if forallb (fun x => existsb (String.eqb (fst x)) (md_allowed M)) kw then
      let! _ := match List.find (fun x => String.eqb "base_model" (fst x)) kw with
                | Some (_, KOther) | None => Ok tt
                | Some _ => Err AttributeError
                end in
      md_process M kw
    else Err PyException.

  (** dx_unit.py:232-249 *)
  Definition count_speeds (caps : option (num_or_list T)) (s : option staging_type)
      : nat :=
    match caps with
    | Some (Many l) => List.length l
    | _ => match s with
           | Some SINGLE_STAGE | None => 1%nat
           | Some TWO_STAGE => 2%nat
           | Some VARIABLE_SPEED => 4%nat
           end
    end.

  (** dx_unit.py:251-283, 303-316: one side of the unit before capacities. *)
  Definition init_side (n full : nat) (int : option nat)
      (fan_speed rated_fan_speed : option (list (option nat)))
      (flow : option (num_or_list T)) (cd : T) : side T :=
    mkSide n full (if Nat.ltb 0 full then Some 0%nat else None)
      (match int with Some i => i | None => S full end)
      (if Nat.ltb 1 n then Some (Nat.pred n) else None)
      [] [] [] [] [] [] [] [] [] fan_speed rated_fan_speed flow [] cd.

  Definition no_conds : rconds T :=
    mkConds None None None None None None None None None None None None None None
      None None None.

  (** dx_unit.py:202-208 *)
  Definition default_eer (seer eer : option T) : option T :=
    match seer, eer with
    | Some s, None =>
        Some (if s <? lit 13 then lit 10 + lit 0.84 * (s - lit 11.5)
              else lit 11.3 + lit 0.57 * (s - lit 13))
    | _, e => e
    end.

  Definition or_else {A} (o : option A) (d : A) : A :=
    match o with Some x => x | None => d end.

  (** dx_unit.py:186-316: everything assigned before the capacities. *)
  Definition init_unit (a : dxargs T) : res U :=
    let! rn := set_system (a_kwargs a) in
    let nc := count_speeds (Some (a_ccap a)) (a_staging a) in
    let nh := count_speeds (a_hcap a) (a_staging a) in
    let! staging := match a_staging a with
                    | Some s => Ok s
                    | None => match nh with
                              | 0%nat => Err ValueError
                              | 1%nat => Ok SINGLE_STAGE
                              | 2%nat => Ok TWO_STAGE
                              | _ => Ok VARIABLE_SPEED
                              end
                    end in
    let off := or_else (a_heating_off a)
                 (match staging with
                  | VARIABLE_SPEED => fr_F (lit (-20))
                  | _ => fr_F (lit 0)
                  end) in
    let on := match a_heating_on a with None => Some off | Some _ => None end in
    Ok (mkUnit (a_kwargs a) (a_seer a) (default_eer (a_seer a) (a_eer a)) (a_hspf a)
          (a_net_hcop a) (a_cycling a) (a_ducted a) (a_cooling_off a)
          (or_else (a_defrost a) (default_defrost (fr_F (lit 41))))
          (a_crank_setpoint a) (a_standard a) (a_charge a) staging off on
          (init_side nc (a_cfull a) (a_cint a) (a_cfan_speed a) (a_rated_cfan_speed a)
             (a_cflow a) (or_else (a_cd_c a) (md_cd_cooling M)))
          (init_side nh (a_hfull a) (a_hint a) (a_hfan_speed a) (a_rated_hfan_speed a)
             (a_hflow a) (or_else (a_cd_h a) (md_cd_heating M)))
          [] [] [] None None None no_conds rn).

  (** dx_unit.py:330-340 *)
  Definition put_gross_capacity (m : mode) (i : nat) : st U unit :=
    do u <- sget ;;
    let s := side_of m u in
    do q <- slift (geti (sd_net_cap s) i) ;;
    do w <- slift (arr (sd_fan_power s) i) ;;
    side_put m sd_gross_cap ws_gross_cap i
      (match m with Cooling => q + w | Heating => q - w end).

  Definition opt_set {A} (f : A -> st U unit) (o : option A) : st U unit :=
    match o with Some x => f x | None => sret tt end.

  (** dx_unit.py:569-593 *)
  Definition check_length {A} (l : list A) (n : nat) : res unit :=
    guard RuntimeError (Nat.eqb (List.length l) n).
  Definition check_array_lengths (u : U) : res unit :=
    let! _ := check_length (sd_net_cap (u_c u)) (sd_n (u_c u)) in
    let! _ := check_length (u_shr u) (sd_n (u_c u)) in
    let! _ := check_length (sd_gross_cop (u_h u)) (sd_n (u_h u)) in
    check_length (sd_net_cap (u_h u)) (sd_n (u_h u)).
  Definition check_array_order (l : list T) : res unit :=
    guard RuntimeError (forallb (fun p => fst p >=? snd p) (combine l (tl l))).

  (** dx_unit.py:300-387 *)
  Definition finish_unit (a : dxargs T) : st U unit :=
    set_placeholder_arrays ;;;
    md_set_net_capacities_and_fan M (a_ccap a) (a_hcap a) (a_fan a) ;;;
    reset_full_esp ;;;
    do u <- sget ;;
    sfold (put_gross_capacity Cooling) (seq 0 (sd_n (u_c u))) ;;;
    sfold (put_gross_capacity Heating) (seq 0 (sd_n (u_h u))) ;;;
    do crank <- match a_crank a with
                | Some x => sret x
                | None => sread (fun u =>
                    let! q := geti (sd_net_cap (u_c u)) (sd_full (u_c u)) in
                    Ok (lit 10 * to_ton q))
                end ;;
    smod (wu_crank (Some crank)) ;;;
    set_rating_conditions ;;;
    set_sensible_cooling_variables ;;;
    slift (guard RuntimeError
             (negb (absent_kw (a_net_ccop a) && absent_kw (a_gross_ccop a)))) ;;;
    slift (guard RuntimeError
             (negb (absent_kw (a_net_hcop a) && absent_kw (a_gross_hcop a)))) ;;;
    opt_set (md_set_net_cop M Cooling) (a_net_ccop a) ;;;
    opt_set (md_set_gross_cop M Cooling) (a_gross_ccop a) ;;;
    opt_set (md_set_net_cop M Heating) (a_net_hcop a) ;;;
    opt_set (md_set_gross_cop M Heating) (a_gross_hcop a) ;;;
    sread check_array_lengths ;;;
    sread (fun u => check_array_order (sd_net_cap (u_c u))) ;;;
    sread (fun u => check_array_order (sd_net_cap (u_h u))).

  (** dx_unit.py:141-387: [DXUnit(...)] *)
  Definition DXUnit (a : dxargs T) : res U :=
    let! u := init_unit a in ex (finish_unit a) u.

  (** * Rated flow rates *)

  (** [self.<cond>.set_new_fan_speed(k, airflow)] *)
  Definition cond_fan_speed (get : rconds T -> option C)
      (set : option C -> rconds T -> rconds T) (k : nat) (air : T) : st U unit :=
    do c <- sread (rating get) ;;
    let (c', r) := set_new_fan_speed psy k air c in
    smod (fun u => wu_conds (set (Some c') (u_conds u)) u) ;;;
    slift r.

  Definition when (b : bool) (m : st U unit) : st U unit := if b then m else sret tt.
  Definition is_speed (o : option nat) (i : nat) : bool :=
    match o with Some k => Nat.eqb i k | None => false end.

  (** dx_unit.py:533-543 and 556-567: the conditions that get the new speed. *)
  Definition update_conditions (m : mode) (i k : nat) (air : T) : st U unit :=
    do u <- sget ;;
    let s := side_of m u in
    let full := Nat.eqb i (sd_full s) in
    let int := Nat.eqb i (sd_int s) in
    let low := is_speed (sd_low s) i in
    match m with
    | Cooling =>
        when full (cond_fan_speed rc_A_full wc_A_full k air ;;;
                   cond_fan_speed rc_B_full wc_B_full k air) ;;;
        when int (cond_fan_speed rc_A_int wc_A_int k air ;;;
                  cond_fan_speed rc_E_int wc_E_int k air) ;;;
        when low (cond_fan_speed rc_A_low wc_A_low k air ;;;
                  cond_fan_speed rc_B_low wc_B_low k air ;;;
                  cond_fan_speed rc_F_low wc_F_low k air)
    | Heating =>
        when full (cond_fan_speed rc_H1_full wc_H1_full k air ;;;
                   cond_fan_speed rc_H2_full wc_H2_full k air ;;;
                   cond_fan_speed rc_H3_full wc_H3_full k air ;;;
                   cond_fan_speed rc_H4_full wc_H4_full k air) ;;;
        when int (cond_fan_speed rc_H2_int wc_H2_int k air) ;;;
        when low (cond_fan_speed rc_H0_low wc_H0_low k air ;;;
                  cond_fan_speed rc_H1_low wc_H1_low k air ;;;
                  cond_fan_speed rc_H2_low wc_H2_low k air ;;;
                  cond_fan_speed rc_H3_low wc_H3_low k air)
    end.

  (** dx_unit.py:510-543 and 515-567, one side.  The pressure is passed to
      [add_speed] as its second positional argument. *)
  Definition reset_side_flow (m : mode) (flow : num_or_list T) : st U unit :=
    do u <- sget ;;
    let s := side_of m u in
    let l := match flow with Many l => l | Scalar x => repeat x (sd_n s) end in
    do full <- slift (let! q := geti (sd_net_cap s) 0 in
                      let! a := geti l 0 in Ok (q * a)) ;;
    sfold (fun ia =>
      do u <- sget ;;
      do q <- slift (geti (sd_net_cap (side_of m u)) (fst ia)) ;;
      let air := q * snd ia in
      do p <- slift (calculate_rated_pressure u air full) ;;
      on_fan (add_speed air (Some p)) ;;;
      do k <- last_fan_speed ;;
      update_conditions m (fst ia) k air) (enumerate l).

  (** dx_unit.py:505-567.  (Python replaces both scalars by lists first.) *)
  Definition reset_rated_flow_rates (fc fh : num_or_list T) : st U unit :=
    reset_side_flow Cooling fc ;;; reset_side_flow Heating fh.

  (** * Seasonal ratings *)

  (** dx_unit.py:33-40: the line through two rating points. *)
  Definition along (f : point T -> T) (a b : point T) (x : T) : res T :=
    let! s := (f b - f a) /? (pt_t b - pt_t a) in
    Ok (f a + s * (x - pt_t a)).

  (** The values of one rating test.  Python evaluates them again wherever they
      are used; the methods are functions of the unit and the conditions, so
      the values are the same.  (When two of them raise, which exception is
      seen can differ.) *)
  Definition test_point (q p : U -> option C -> res T) (get : rconds T -> option C)
      (u : U) : res (point T) :=
    let! c := rating get u in
    let! a := q u (Some c) in
    let! b := p u (Some c) in
    Ok (mkPoint (ps_db (c_outdoor c)) a b).
  Definition cooling_point := test_point net_total_cooling_capacity net_cooling_power.
  Definition heating_point :=
    test_point net_steady_state_heating_capacity net_steady_state_heating_power.
  Definition frost_point :=
    test_point net_integrated_heating_capacity net_integrated_heating_power.

  (** dx_unit.py:86-93 *)
  Definition cooling_bins : list (T * T) :=
    combine (map (fun i => fr_F (lit 67 + nZ (Z.of_nat i) * lit 5)) (seq 0 8))
      [lit 0.214; lit 0.231; lit 0.216; lit 0.161; lit 0.104; lit 0.052; lit 0.018;
       lit 0.004].

  (** dx_unit.py:888-896 *)
  Definition cooling_load (q_A_full t : T) : T :=
    pymax ((t - fr_F (lit 65)) / (fr_F (lit 95) - fr_F (lit 65)) * q_A_full / lit 1.1)
      (lit 0).

  (** dx_unit.py:913-917, 926-935, 946-950: cycling at low speed. *)
  Definition seer_cycling (cd bl q p n : T) : res (T * T) :=
    let! clf := bl /? q in
    let plf := lit 1 - cd * (lit 1 - clf) in
    let! e := (clf * p * n) /? plf in
    Ok (clf * q * n, e).

  (** dx_unit.py:912-938 *)
  Definition seer_bin_two (cyc : cycling_method) (cd bl ql pl qf pf n : T)
      : res (T * T) :=
    if bl <=? ql then seer_cycling cd bl ql pl n
    else if bl <? qf then
      match cyc with
      | BETWEEN_LOW_FULL =>
          let! low := (qf - bl) /? (qf - ql) in
          let full := lit 1 - low in
          Ok ((low * ql + full * qf) * n, (low * pl + full * pf) * n)
      | BETWEEN_OFF_FULL => seer_cycling cd bl qf pf n
      end
    else Ok (qf * n, pf * n).

  (** dx_unit.py:939-969 *)
  Definition seer_bin_variable (cd bl ql pl qi pi qf pf n : T) : res (T * T) :=
    let! cl := ql /? pl in
    let! ci := qi /? pi in
    let! cf := qf /? pf in
    let at_cop (cop : T) := let! e := (bl * n) /? cop in Ok (bl * n, e) in
    if bl <=? ql then seer_cycling cd bl ql pl n
    else if bl <? qi then
      let! s := (ci - cl) /? (qi - ql) in at_cop (cl + s * (bl - ql))
    else if bl <=? qf then
      let! s := (cf - ci) /? (qf - qi) in at_cop (ci + s * (bl - qi))
    else Ok (qf * n, pf * n).

  (** dx_unit.py:839-883: slope of the intermediate-speed line. *)
  Definition seer_slope (f : point T -> T) (A B Bl Fl E : point T) : res T :=
    let! low := along f Fl Bl (fr_F (lit 87)) in
    let! full := along f B A (fr_F (lit 87)) in
    let! n := (f E - low) /? (full - low) in
    Ok ((f Bl - f Fl) / (fr_F (lit 82) - fr_F (lit 67)) * (lit 1 - n)
        + (f A - f B) / (fr_F (lit 95) - fr_F (lit 82)) * n).

  (** dx_unit.py:885-972: the sums over the bins. *)
  Definition seer_sums (bin : T -> T -> T -> T -> T -> T -> T -> res (T * T))
      (A B Bl Fl : point T) : res (T * T) :=
    rfold (fun acc tn =>
      let (t, n) := (tn : T * T) in
      let bl := cooling_load (pt_q A) t in
      let! ql := along pt_q Fl Bl t in
      let! pl := along pt_p Fl Bl t in
      let! qf := along pt_q B A t in
      let! pf := along pt_p B A t in
      let! qe := bin t bl ql pl qf pf n in
      Ok (fst acc + fst qe, snd acc + snd qe)) (lit 0, lit 0) cooling_bins.

  (** dx_unit.py:827-975 *)
  Definition seer (u : U) : res T :=
    let cd := sd_cd (u_c u) in
    let! r :=
      match u_staging u with
      | SINGLE_STAGE =>
          let! c := rating rc_B_full u in
          let! cop := net_total_cooling_cop u (Some c) in
          Ok ((lit 1 - lit 0.5 * cd) * cop)
      | staging =>
          let! A := cooling_point rc_A_full u in
          let! B := cooling_point rc_B_full u in
          let! Bl := cooling_point rc_B_low u in
          let! Fl := cooling_point rc_F_low u in
          let! qe :=
            match staging with
            | VARIABLE_SPEED =>
                let! E := cooling_point rc_E_int u in
                let! mq := seer_slope pt_q A B Bl Fl E in
                let! mp := seer_slope pt_p A B Bl Fl E in
                seer_sums (fun t bl ql pl qf pf n =>
                  seer_bin_variable cd bl ql pl
                    (pt_q E + mq * (t - fr_F (lit 87)))
                    (pt_p E + mp * (t - fr_F (lit 87))) qf pf n) A B Bl Fl
            | _ =>
                seer_sums (fun _ bl ql pl qf pf n =>
                  seer_bin_two (u_cycling u) cd bl ql pl qf pf n) A B Bl Fl
            end in
          fst qe /? snd qe
      end in
    Ok (to_Btu_Wh r).

  (** ** Heating distributions *)

  (** dx_unit.py:55-57 *)
  Definition heating_drybulbs : list T :=
    map (fun i => fr_F (lit 62 - nZ (Z.of_nat i) * lit 5)) (seq 0 18).

  (** dx_unit.py:59-82 *)
  Definition HeatingDistribution (design : T) (hours : list T) (c c_vs zl : option T)
      : res (heating_distribution T) :=
    let s := nsum hours in
    let! h := if orb (s <? lit 0.98) (s >? lit 1.02)
              then rmapM (fun n => n /? s) hours
              else Ok hours in
    if Nat.eqb (List.length h) 18 then Ok (mkHD design h c c_vs zl)
    else Err PyException.

  (** The fractional hours of dx_unit.py:116-132 in thousandths. *)
  Definition hours (l : list Q) : list T := map (fun q => lit (q / 1000)) l.

  (** dx_unit.py:116-132 *)
  Definition distribution_2017 (region : nat) : res (heating_distribution T) :=
    let d (t : T) (l : list Q) := HeatingDistribution (fr_F t) (hours l) None None None in
    match region with
    | 1%nat => d (lit 37) [291;239;194;129;81;41;19;5;1;0;0;0;0;0;0;0;0;0]%Q
    | 2%nat => d (lit 27) [215;189;163;143;112;88;56;24;8;2;0;0;0;0;0;0;0;0]%Q
    | 3%nat => d (lit 17) [153;142;138;137;135;118;92;47;21;9;5;2;1;0;0;0;0;0]%Q
    | 4%nat => d (lit 5) [132;111;103;93;100;109;126;87;55;36;26;13;6;2;1;0;0;0]%Q
    | 5%nat => d (lit (-10)) [106;92;86;76;78;87;102;94;74;55;47;38;29;18;10;5;2;1]%Q
    | 6%nat => d (lit 30) [113;206;215;204;141;76;34;8;3;0;0;0;0;0;0;0;0;0]%Q
    | _ => Err KeyError
    end.
  Definition distribution_2023 (region : nat) : res (heating_distribution T) :=
    let d (t : T) (l : list Q) (c c_vs zl : T) :=
      HeatingDistribution (fr_F t) (hours l) (Some c) (Some c_vs) (Some (fr_F zl)) in
    match region with
    | 1%nat => d (lit 37) [0;239;194;129;81;41;19;5;1;0;0;0;0;0;0;0;0;0]%Q
                 (lit 1.10) (lit 1.03) (lit 58)
    | 2%nat => d (lit 27) [0;0;163;143;112;88;56;24;8;2;0;0;0;0;0;0;0;0]%Q
                 (lit 1.06) (lit 0.99) (lit 57)
    | 3%nat => d (lit 17) [0;0;138;137;135;118;92;47;21;9;5;2;1;0;0;0;0;0]%Q
                 (lit 1.30) (lit 1.21) (lit 56)
    | 4%nat => d (lit 5) [0;0;103;93;100;109;126;87;55;36;26;13;6;2;1;0;0;0]%Q
                 (lit 1.15) (lit 1.07) (lit 55)
    | 5%nat => d (lit (-10)) [0;0;86;76;78;87;102;94;74;55;47;38;29;18;10;5;2;1]%Q
                 (lit 1.16) (lit 1.08) (lit 55)
    | 6%nat => d (lit 30) [0;0;215;204;141;76;34;8;3;0;0;0;0;0;0;0;0;0]%Q
                 (lit 1.11) (lit 1.03) (lit 57)
    | _ => Err KeyError
    end.

  (** dx_unit.py:137-139 *)
  Definition standard_design_heating_requirements : list T :=
    map (fun i => fr_Btuh (lit 5000) + nZ (Z.of_nat i) * fr_Btuh (lit 5000)) (seq 0 8)
    ++ map (fun i => fr_Btuh (lit 50000) + nZ (Z.of_nat i) * fr_Btuh (lit 10000))
         (seq 0 9).

  (** ** HSPF *)

  (** dx_unit.py:1187-1192 and the like: the cut-out factor.  The on temperature
      is only read when the unit is not cut out. *)
  Definition cut_out (u : U) (t cop : T) : res T :=
    if orb (t <=? u_heating_off u) (cop <? lit 1) then Ok (lit 0)
    else
      let! on := need AttributeError (u_heating_on u) in
      Ok (if t >? on then lit 1 else lit 0.5).

  (** The running values of the loop: the three sums, and the local variable
      [delta_low] ([None] while unassigned). *)
  Record hspf_acc := mkAcc { h_q : T; h_e : T; h_rh : T; h_delta_low : option T }.

  (** dx_unit.py:1249-1261, 1300-1316: cycling at low speed; also assigns
      [delta_low]. *)
  Definition hspf_low (u : U) (bl t ql pl n : T) : res (T * T * option T) :=
    let! cop := ql /? pl in
    let! d := cut_out u t cop in
    let! hlf := bl /? ql in
    let! e := (pl * hlf * d * n) /? (lit 1 - sd_cd (u_h u) * (lit 1 - hlf)) in
    Ok (e, bl * (lit 1 - d) * n, Some d).

  (** Energy and resistance heat of a bin: (e, rh, delta_low afterwards). *)
  Definition bin_result : Type := (T * T * option T)%type.

  (** dx_unit.py:1199-1204 *)
  Definition hspf_bin_single (u : U) (bl t qf pf df hlf n : T) (dl : option T)
      : res bin_result :=
    let plf := lit 1 - sd_cd (u_h u) * (lit 1 - hlf) in
    let! e := (pf * hlf * df * n) /? plf in
    Ok (e, (bl - qf * hlf * df) * n, dl).

  (** dx_unit.py:1249-1285.  [df] and [hlf] are the full-speed cut-out factor and
      load factor of the bin. *)
  Definition hspf_bin_two (u : U) (bl t ql pl qf pf df hlf n : T) (dl : option T)
      : res bin_result :=
    let! _ := ql /? pl in
    if bl <=? ql then hspf_low u bl t ql pl n
    else if bl <? qf then
      let! low := (qf - bl) /? (qf - ql) in
      match u_cycling u with
      | BETWEEN_LOW_FULL =>
          let! d := need UnboundLocalError dl in
          Ok ((pl * low + pf * (lit 1 - low)) * d * n, bl * (lit 1 - d) * n, dl)
      | BETWEEN_OFF_FULL =>
          let! e := (pf * hlf * df * n) /? (lit 1 - sd_cd (u_h u) * (lit 1 - low)) in
          let! d := need UnboundLocalError dl in
          Ok (e, bl * (lit 1 - d) * n, dl)
      end
    else Ok (pf * lit 1 * df * n, (bl - qf * lit 1 * df) * n, dl).

  (** dx_unit.py:1300-1367.  [q4 p4] are full capacity and power of the bin from
      the H4 and H3 tests: the condition at dx_unit.py:1342 is always true, so
      these always replace the ones used in the comparisons. *)
  Definition hspf_bin_variable (u : U) (bl t ql pl qi pi qf pf q4 p4 df n : T)
      (dl : option T) : res bin_result :=
    let! cl := ql /? pl in
    let! ci := qi /? pi in
    let! cf := qf /? pf in
    if bl <=? ql then hspf_low u bl t ql pl n
    else if bl <? qf then
      let! cop :=
        if bl <=? qi then
          let! s := (ci - cl) /? (qi - ql) in Ok (cl + s * (bl - ql))
        else
          let! s := (cf - ci) /? (qf - qi) in Ok (ci + s * (bl - qi)) in
      let! d := cut_out u t cop in
      let! e := (bl * n) /? cop in
      Ok (e * d, bl * (lit 1 - d) * n, dl)
    else Ok (p4 * lit 1 * df * n, (bl - q4 * lit 1 * df) * n, dl).

  (** dx_unit.py:1116-1125, 1135-1144 *)
  Definition hspf_slope (f : point T -> T) (H0 H1l H2i H2 H3 : point T) : res T :=
    let! low := along f H0 H1l (fr_F (lit 35)) in
    let! n := (f H2i - low) /? (f H2 - low) in
    Ok ((f H0 - f H1l) / (fr_F (lit 62) - fr_F (lit 47)) * (lit 1 - n)
        + (f H2 - f H3) / (fr_F (lit 35) - fr_F (lit 17)) * n).

  (** dx_unit.py:1156-1184: full-speed values of a bin. *)
  Definition hspf_full (f : point T -> T) (H1 H2 H3 : point T) (t : T) : res T :=
    if orb (t >=? fr_F (lit 45)) (t <=? fr_F (lit 17)) then along f H3 H1 t
    else along f H3 H2 t.

  (** dx_unit.py:1206-1248: low-speed values of a bin of a two-stage unit. *)
  Definition hspf_two_low (f : point T -> T) (H0 H1 H2 H3 : point T) (t : T) : res T :=
    if t >=? fr_F (lit 40) then along f H0 H1 t
    else if t <=? fr_F (lit 17) then along f H1 H3 t
    else along f H2 H3 t.

  (** dx_unit.py:1149-1154 *)
  Definition heating_load (num den c q : T) : res T :=
    let! r := num /? den in Ok (pymax (r * c * q) (lit 0)).

  (** dx_unit.py:1086-1105, 1149-1154: the building load line. *)
  Definition hspf_load (u : U) (d : heating_distribution T) (q_H1 : T)
      : res (T -> res T) :=
    let t_od := hd_design d in
    match u_standard u with
    | AHRI_210_240_2017 =>
        let! dhr := find_nearest standard_design_heating_requirements
                      (q_H1 * (fr_F (lit 65) - t_od) / fr_degR (lit 60)) in
        Ok (fun t => heating_load (fr_F (lit 65) - t) (fr_F (lit 65) - t_od)
                       (lit 0.77) dhr)
    | AHRI_210_240_2023 =>
        let! c := need TypeError (match u_staging u with
                                  | VARIABLE_SPEED => hd_c_vs d
                                  | _ => hd_c d
                                  end) in
        let! t_zl := need TypeError (hd_zero_load d) in
        let! A := rating rc_A_full u in
        let! q := net_total_cooling_capacity u (Some A) in
        Ok (fun t => heating_load (t_zl - t) (t_zl - t_od) c q)
    end.

  (** dx_unit.py:1146-1371: the loop over the bins.  [bin] is the part that
      depends on the staging type. *)
  Definition hspf_sums (u : U) (d : heating_distribution T) (load : T -> res T)
      (H1 H2 H3 : point T)
      (bin : T -> T -> T -> T -> T -> T -> T -> option T -> res bin_result)
      : res hspf_acc :=
    rfold (fun acc tn =>
      let (t, n) := (tn : T * T) in
      let! bl := load t in
      let! qf := hspf_full pt_q H1 H2 H3 t in
      let! pf := hspf_full pt_p H1 H2 H3 t in
      let! cop := qf /? pf in
      let! df := cut_out u t cop in
      let! hlf := if qf >? bl then bl /? qf else Ok (lit 1) in
      let! r := bin bl t qf pf df hlf n (h_delta_low acc) in
      let '(e, rh, dl) := r in
      Ok (mkAcc (h_q acc + n * bl) (h_e acc + e) (h_rh acc + rh) dl))
      (mkAcc (lit 0) (lit 0) (lit 0) None)
      (combine heating_drybulbs (hd_hours d)).

  (** dx_unit.py:1080-1376, for a given distribution. *)
  Definition hspf_with (u : U) (d : heating_distribution T) : res T :=
    let! H1 := heating_point rc_H1_full u in
    let! H2 := frost_point rc_H2_full u in
    let! H3 := heating_point rc_H3_full u in
    let! load := hspf_load u d (pt_q H1) in
    let! s :=
      match u_staging u with
      | SINGLE_STAGE => hspf_sums u d load H1 H2 H3 (hspf_bin_single u)
      | TWO_STAGE =>
          let! H0l := heating_point rc_H0_low u in
          let! H1l := heating_point rc_H1_low u in
          let! H2l := frost_point rc_H2_low u in
          let! H3l := heating_point rc_H3_low u in
          hspf_sums u d load H1 H2 H3
            (fun bl t qf pf df hlf n dl =>
               let! ql := hspf_two_low pt_q H0l H1l H2l H3l t in
               let! pl := hspf_two_low pt_p H0l H1l H2l H3l t in
               hspf_bin_two u bl t ql pl qf pf df hlf n dl)
      | VARIABLE_SPEED =>
          let! H0l := heating_point rc_H0_low u in
          let! H1l := heating_point rc_H1_low u in
          let! H2i := frost_point rc_H2_int u in
          let! H4 := heating_point rc_H4_full u in
          let! mq := hspf_slope pt_q H0l H1l H2i H2 H3 in
          let! mp := hspf_slope pt_p H0l H1l H2i H2 H3 in
          hspf_sums u d load H1 H2 H3
            (fun bl t qf pf df hlf n dl =>
               let! ql := along pt_q H0l H1l t in
               let! pl := along pt_p H0l H1l t in
               let! q4 := along pt_q H4 H3 t in
               let! p4 := along pt_p H4 H3 t in
               hspf_bin_variable u bl t ql pl
                 (pt_q H2i + mq * (t - fr_F (lit 35)))
                 (pt_p H2i + mp * (t - fr_F (lit 35))) qf pf q4 p4 df n dl)
      end in
    let! credit := demand_credit (u_defrost u) in
    let! r := h_q s /? (h_e s + h_rh s) in
    Ok (to_Btu_Wh (r * credit)).

  (** dx_unit.py:1080-1376 *)
  Definition hspf (u : U) (region : nat) : res T :=
    let! d := match u_standard u with
              | AHRI_210_240_2017 => distribution_2017 region
              | AHRI_210_240_2023 => distribution_2023 region
              end in
    hspf_with u d.
End DXUnit.
