(** Model of /repo/resdx/models/unified_resnet.py *)
From Coq Require Import QArith List String.
From Verif.Base Require Import Num Res.
From Verif.Model Require Import Units Util Psychrometrics Conditions Defrost Fan Tabular Unit NREL BaseModel Title24.
Import ListNotations.
Local Open Scope nat_scope.

Section Resnet.
  Context {T : Type} {NT : Num T} {NX : NumX T}.
  Variable psy : psychro T.
  Variable sol : solvers T.
  Local Open Scope num_scope.
  Notation U := (dxunit T).
  Notation C := (cond T).

  (** ** Keyword arguments *)

  (** A value used as a number, a table, a motor type; a value of another kind
      would raise later, when it is used: modelled as TypeError here. *)
  Definition kw_num (v : kwval T) : res (option T) :=
    match v with KNone => Ok None | KNum x => Ok (Some x) | _ => Err TypeError end.
  Definition kw_table (v : kwval T) : res (option (perf T)) :=
    match v with KNone => Ok None | KTable p => Ok (Some p) | _ => Err TypeError end.
  Definition kw_motor (v : kwval T) : res (option motor_type) :=
    match v with KNone => Ok None | KMotor m => Ok (Some m) | _ => Err TypeError end.

  (** unified_resnet.py:51-65 ([min_net_total_cooling_eir_ratio_82] is read
      there too, but never used) *)
  Definition resnet_process_kwargs (kw : list (string * kwval T)) : res (resnet_data T) :=
    let! net := kw_table (get_kwarg_value "tabular_data" kw) in
    let! motor := kw_motor (get_kwarg_value "motor_type" kw) in
    let! cap17 := kw_num (get_kwarg_value "rated_net_heating_capacity_17" kw) in
    let! ratio := kw_num (get_kwarg_value "min_net_total_cooling_capacity_ratio_95" kw) in
    let! cop82 := kw_num (get_kwarg_value "rated_net_total_cooling_cop_82_min" kw) in
    Ok (mkRn net None motor cap17 ratio cop82 None).

  (** ** Performance *)

  (** unified_resnet.py:71, 82, 99, 121: [self.tabular_*_speed_map[i]] *)
  Definition table_speed (u : U) (i : nat) : res T :=
    let! m := need AttributeError (rn_map (u_rn u)) in
    need KeyError (nth_error m i).

  (** unified_resnet.py:670-684 *)
  Definition correction_factor (m : mode) (fn : U -> C -> res T) (u : U) (c : C)
      : res T :=
    let! o := PsychState psy (ps_db (c_outdoor c)) atm [("rel_hum"%string, lit 0.4)] in
    let! rc := make_condition psy m u (c_speed c) None (Some o) in
    let! a := fn u c in
    let! b := fn u rc in
    a /? b.

  (** unified_resnet.py:68-88, 96-105, 118-127: the table value with the NREL
      correction, or the NREL function when there is no table. *)
  Definition resnet_value (m : mode) (look : perf T -> T -> T -> res T)
      (fn : U -> C -> res T) (u : U) (c : C) : res T :=
    match rn_net (u_rn u) with
    | Some _ =>
        let! g := need AttributeError (rn_gross (u_rn u)) in
        let! s := table_speed u (c_speed c) in
        let! v := look g s (ps_db (c_outdoor c)) in
        let! f := correction_factor m fn u c in
        Ok (v * f)
    | None => fn u c
    end.

  (** unified_resnet.py:68-77, 79-88, 96-105, 118-127 *)
  Definition resnet_gross_cooling_power : U -> C -> res T :=
    resnet_value Cooling cooling_power nrel_gross_cooling_power.
  Definition resnet_gross_total_cooling_capacity : U -> C -> res T :=
    resnet_value Cooling cooling_capacity nrel_gross_total_cooling_capacity.
  Definition resnet_gross_heating_capacity : U -> C -> res T :=
    resnet_value Heating heating_capacity nrel_gross_heating_capacity.
  Definition resnet_gross_heating_power : U -> C -> res T :=
    resnet_value Heating heating_power nrel_gross_heating_power.

  (** unified_resnet.py:140-154: the grading model with this model's methods. *)
  Definition resnet_f_gtc : U -> C -> res T :=
    resnet_grading_model psy Cooling true resnet_gross_total_cooling_capacity.
  Definition resnet_f_gcp : U -> C -> res T :=
    resnet_grading_model psy Cooling false resnet_gross_cooling_power.
  Definition resnet_f_ghc : U -> C -> res T :=
    resnet_grading_model psy Heating true resnet_gross_heating_capacity.
  Definition resnet_f_ghp : U -> C -> res T :=
    resnet_grading_model psy Heating false resnet_gross_heating_power.

  (** unified_resnet.py:109-111, 131-133 *)
  Definition resnet_fdef (c : C) : T :=
    pymax (pymin (lit 0.134 - lit 0.003 * to_F (ps_db (c_outdoor c))) (lit 0.08)) (lit 0).

  (** unified_resnet.py:107-116: derates the unit's steady-state capacity. *)
  Definition resnet_gross_integrated_heating_capacity (u : U) (c : C) : res T :=
    let steady := product resnet_gross_heating_capacity resnet_f_ghc in
    if in_defrost (u_defrost u) c then
      let! q := steady u c in Ok (q * (lit 1 - lit 1.8 * resnet_fdef c))
    else steady u c.

  (** unified_resnet.py:129-138: derates the model's (not the unit's) power. *)
  Definition resnet_gross_integrated_heating_power (u : U) (c : C) : res T :=
    let steady := resnet_gross_heating_power in
    if in_defrost (u_defrost u) c then
      let! p := steady u c in Ok (p * (lit 1 - lit 0.3 * resnet_fdef c))
    else steady u c.

  (** unified_resnet.py:90-91 *)
  Definition resnet_gross_sensible_cooling_capacity : U -> C -> res T :=
    nrel_gross_sensible_cooling_capacity psy sol
      (checked_product resnet_gross_total_cooling_capacity resnet_f_gtc).

  (** ** Fan *)

  (** base_model.py:79-89 for a list default. *)
  Definition list_default (input : option (num_or_list T)) (d : T) (n : nat)
      : option (num_or_list T) :=
    Some (match input with
          | None => Many (repeat d n)
          | Some (Many l) => Many l
          | Some (Scalar x) => Many (repeat x n)
          end).

  (** Add a fan speed for the rated airflow of compressor speed [i] at design
      pressure: unified_resnet.py:457-460, 465-468, 521-522, 553-554, 606-607, 652-653. *)
  Definition add_design_speed (m : mode) (i : nat) : st U unit :=
    do u <- sget ;;
    do a <- slift (arr (sd_airflow (side_of m u)) i) ;;
    on_fan (add_speed a None) ;;;
    do k <- last_fan_speed ;;
    put_fan_speed m i k.

  (** Add the fan speed for the rated airflow of compressor speed [i] at rated
      pressure: unified_resnet.py:471-489, 491-509, 525-543, 557-575. *)
  Definition add_rated_speed (m : mode) (i : nat) (full : T) : st U unit :=
    do u <- sget ;;
    do a <- slift (arr (sd_airflow (side_of m u)) i) ;;
    do p <- slift (calculate_rated_pressure u a full) ;;
    side_put m sd_esp ws_esp i p ;;;
    on_fan (add_speed a (Some p)) ;;;
    do k <- last_fan_speed ;;
    put_rated_fan_speed m i k ;;;
    do w <- sread (fun u => let! f := need AttributeError (u_fan u) in
                            power sol f k (Some p)) ;;
    side_put m sd_fan_power ws_fan_power i w.

  (** One pass of the loops unified_resnet.py:512-543 and 546-575. *)
  Definition other_speed (m : mode) (full_speed : nat) (iq : nat * T) : st U unit :=
    let i := fst iq in
    if Nat.eqb i full_speed then sret tt
    else
      do u <- sget ;;
      do a <- slift (flow_per_cap (side_of m u) i) ;;
      side_put m sd_airflow ws_airflow i (snd iq * a) ;;;
      add_design_speed m i ;;;
      do u <- sget ;;
      do a0 <- slift (arr (sd_airflow (side_of m u)) 0) ;;
      add_rated_speed m i a0.

  (** One pass of the loops unified_resnet.py:392-398 and 399-405. *)
  Definition given_fan_speed (m : mode) (f : fan T) (i : nat) : st U unit :=
    do u <- sget ;;
    do map <- slift (need TypeError (sd_rated_fan_speed (side_of m u))) ;;
    do k <- slift (let! o := geti map i in need TypeError o) ;;
    do a <- slift (airflow sol f k None) ;;
    side_put m sd_airflow ws_airflow i a ;;;
    do w <- slift (power sol f k None) ;;
    side_put m sd_fan_power ws_fan_power i w.

  (** unified_resnet.py:370-575 *)
  Definition resnet_set_fan (input : option (fan T)) : st U unit :=
    do p <- sread get_rated_full_flow_rated_pressure ;;
    smod (wu_full_esp (Some p)) ;;;
    let flows (s : side T) :=
      ws_flow_per_cap (list_default (sd_flow_per_cap s) (fr_cfm_per_ton (lit 400))
                         (sd_n s)) s in
    on_side Cooling flows ;;;
    on_side Heating flows ;;;
    match input with
    | Some f =>
        smod (wu_fan (Some f)) ;;;
        do u <- sget ;;
        sfold (given_fan_speed Cooling f) (seq 0 (sd_n (u_c u))) ;;;
        sfold (given_fan_speed Heating f) (seq 0 (sd_n (u_h u)))
    | None =>
        let clear (s : side T) :=
          let e := Some (repeat (@None nat) (sd_n s)) in
          ws_rated_fan_speed e (ws_fan_speed e s) in
        on_side Cooling clear ;;;
        on_side Heating clear ;;;
        do u <- sget ;;
        let cfs := sd_full (u_c u) in
        let hfs := sd_full (u_h u) in
        let rated (s : side T) (i : nat) :=
          let! q := geti (sd_net_cap s) i in
          let! a := flow_per_cap s i in Ok (q * a) in
        do ac <- slift (rated (u_c u) cfs) ;;
        side_put Cooling sd_airflow ws_airflow cfs ac ;;;
        do ah <- slift (rated (u_h u) hfs) ;;
        side_put Heating sd_airflow ws_airflow hfs ah ;;;
        let cooling_first := ac >=? ah in
        let design := if cooling_first then ac else ah in
        let motor := match rn_motor (u_rn u) with
                     | Some k => k
                     | None => match u_staging u with
                               | SINGLE_STAGE => MotorPSC
                               | _ => MotorBPM
                               end
                     end in
        smod (fun u => wu_rn (wr_motor (Some motor) (u_rn u)) u) ;;;
        do f <- slift match motor with
                      | MotorPSC => make_resnet_psc_fan [design]
                      | MotorBPM => make_resnet_bpm_fan [design]
                      end ;;
        smod (wu_fan (Some f)) ;;;
        do k <- last_fan_speed ;;
        (if cooling_first then
           put_fan_speed Cooling cfs k ;;; add_design_speed Heating hfs
         else
           put_fan_speed Heating hfs k ;;; add_design_speed Cooling cfs) ;;;
        add_rated_speed Cooling cfs design ;;;
        add_rated_speed Heating hfs design ;;;
        do u <- sget ;;
        sfold (other_speed Cooling cfs) (enumerate (sd_net_cap (u_c u))) ;;;
        do u <- sget ;;
        sfold (other_speed Heating hfs) (enumerate (sd_net_cap (u_h u)))
    end.

  (** ** Capacities *)

  (** A constructor argument of the table builders: [None] and lists raise
      TypeError where they are used. *)
  Definition number (v : num_or_list T) : res T :=
    match v with Scalar x => Ok x | Many _ => Err TypeError end.
  Definition number_if (needed : bool) (v : option T) : res T :=
    match v with
    | Some x => Ok x
    | None => if needed then Err TypeError else Ok (lit 0)
    end.
  Definition opt_number (v : option (num_or_list T)) : res (option T) :=
    match v with
    | None => Ok None
    | Some v => let! x := number v in Ok (Some x)
    end.
  Definition absent {A} (o : option A) : bool :=
    match o with Some _ => false | None => true end.

  (** The rating inputs handed to the table builders
      (unified_resnet.py:187-198, 208-219, 241-253): SEER is used when [seer]
      says so, HSPF only when there is no heating COP. *)
  Definition rating_inputs (seer : bool) (u : U) : res (T * T * T * option T) :=
    let! s := number_if seer (u_seer u) in
    let! e := number_if true (u_eer u) in
    let! c := opt_number (u_hcop u) in
    let! h := number_if (absent c) (u_hspf u) in
    Ok (s, e, h, c).

  (** unified_resnet.py:187-198 *)
  Definition single_speed_table (u : U) (qc : num_or_list T) (qh : T) : res (perf T) :=
    let! q := number qc in
    let! r := rating_inputs true u in
    let '(s, e, h, c) := r in
    make_single_speed_model_data q s e qh (rn_cap17 (u_rn u)) h (u_cooling_off u)
      (u_heating_off u) c (sd_cd (u_c u)).
  (** unified_resnet.py:208-219 *)
  Definition two_speed_table (u : U) (qc : num_or_list T) (qh : T) : res (perf T) :=
    let! q := number qc in
    let! r := rating_inputs (absent (rn_cop82 (u_rn u))) u in
    let '(s, e, h, c) := r in
    make_two_speed_model_data q s e qh (rn_cap17 (u_rn u)) h (u_cooling_off u)
      (u_heating_off u) (rn_cop82 (u_rn u)) c.
  (** unified_resnet.py:241-253 *)
  Definition variable_speed_table (u : U) (q qh : T) : res (perf T) :=
    let! r := rating_inputs (absent (rn_cop82 (u_rn u))) u in
    let '(s, e, h, c) := r in
    make_neep_statistical_model_data q s e qh (rn_cap17 (u_rn u)) h (u_cooling_off u)
      (u_heating_off u) (rn_ratio95 (u_rn u)) (rn_cop82 (u_rn u)) c.

  (** unified_resnet.py:160-169: [StagingType(min(n, 3))] and the number of speeds of a staging type. *)
  Definition staging_of (n : nat) : res staging_type :=
    match n with
    | 0%nat => Err ValueError
    | 1%nat => Ok SINGLE_STAGE
    | 2%nat => Ok TWO_STAGE
    | _ => Ok VARIABLE_SPEED
    end.
  Definition speeds_of (s : staging_type) : nat :=
    match s with SINGLE_STAGE => 1%nat | TWO_STAGE => 2%nat | VARIABLE_SPEED => 4%nat end.

  Definition put_rn (f : resnet_data T -> resnet_data T) : st U unit :=
    smod (fun u => wu_rn (f (u_rn u)) u).
  Definition both_sides (f : side T -> side T) : st U unit :=
    on_side Cooling f ;;; on_side Heating f.

  (** unified_resnet.py:186, 207, 240:
      [if self.net_tabular_data is None: self.net_tabular_data = build(...)] *)
  Definition ensure_table (build : U -> res (perf T)) : st U unit :=
    do u <- sget ;;
    match rn_net (u_rn u) with
    | Some _ => sret tt
    | None => do p <- slift (build u) ;; put_rn (wr_net (Some p))
    end.

  (** unified_resnet.py:159-170 *)
  Definition adopt_table_staging : st U unit :=
    do u <- sget ;;
    match rn_net (u_rn u) with
    | None => sret tt
    | Some p =>
        do s <- slift (staging_of (p_nc p)) ;;
        smod (wu_staging s) ;;;
        both_sides (ws_n (speeds_of s)) ;;;
        set_placeholder_arrays
    end.

  (** unified_resnet.py:172-295, the branch without a list of heating capacities:
      tables, speed numbers, speed maps and net capacities.  (The maps are the
      same for cooling and heating.) *)
  Definition capacities_from_table (qc : num_or_list T) (qh : option T) : st U unit :=
    do u <- sget ;;
    match u_staging u with
    | VARIABLE_SPEED =>
        do q <- slift (number qc) ;;
        let h := match qh with
                 | Some x => x
                 | None => q * lit 1.022 + fr_Btuh (lit 607)
                 end in
        (match rn_cap17 (u_rn u) with
         | Some _ => sret tt
         | None => put_rn (wr_cap17 (Some (lit 0.689 * h)))
         end) ;;;
        ensure_table (fun u => variable_speed_table u q h) ;;;
        both_sides (fun s => ws_low (Some 3%nat) (ws_int 2 (ws_full 1
                               (ws_boost (Some 0%nat) s)))) ;;;
        put_rn (wr_map (Some [lit 3; lit 2; lit 1.5; lit 1]))
    | staging =>
        let l := match qc with Scalar x => [x] | Many l => l end in
        on_side Cooling (ws_net_cap l) ;;;
        do q0 <- slift (geti l 0) ;;
        let h := match qh with
                 | Some x => x
                 | None => q0 * lit 0.98 + fr_Btuh (lit 180)
                 end in
        on_side Heating (ws_net_cap [h]) ;;;
        match staging with
        | TWO_STAGE =>
            ensure_table (fun u => two_speed_table u qc h) ;;;
            both_sides (fun s => ws_low (Some 1%nat) (ws_full 0 s)) ;;;
            put_rn (wr_map (Some [lit 2; lit 1]))
        | _ =>
            ensure_table (fun u => single_speed_table u qc h) ;;;
            both_sides (ws_full 0) ;;;
            put_rn (wr_map (Some [lit 1]))
        end
    end ;;;
    do u <- sget ;;
    do p <- slift (need AttributeError (rn_net (u_rn u))) ;;
    do m <- slift (need AttributeError (rn_map (u_rn u))) ;;
    do lc <- slift (rmapM (fun s => cooling_capacity p s (fr_F (lit 95))) m) ;;
    on_side Cooling (ws_net_cap lc) ;;;
    do lh <- slift (rmapM (fun s => heating_capacity p s (fr_F (lit 47))) m) ;;
    on_side Heating (ws_net_cap lh).

  (** unified_resnet.py:272-281, 310, 314: [inverse_tabular_*_speed_map[k]] *)
  Definition inverse_speed (m : list T) (k : nat) : res nat :=
    need KeyError (List.find (fun i => match nth_error m i with
                                       | Some s => s =? nZ (Z.of_nat k)
                                       | None => false
                                       end) (seq 0 (List.length m))).

  (** unified_resnet.py:308-315: fan powers of the table speeds *)
  Definition table_fan_powers (m : mode) (n : nat) (u : U) : res (list T) :=
    rmapM (fun k =>
      let! map := need AttributeError (rn_map (u_rn u)) in
      let! i := inverse_speed map k in
      arr (sd_fan_power (side_of m u)) i) (seq 1 n).

  (** One pass of the loops unified_resnet.py:319-325 and 327-333. *)
  Definition put_table_cops (m : mode) (net gross : perf T) (is : nat * T) : st U unit :=
    let cop (p : perf T) :=
      match m with
      | Cooling => cooling_cop p (snd is) (fr_F (lit 95))
      | Heating => heating_cop p (snd is) (fr_F (lit 47))
      end in
    do a <- slift (cop net) ;;
    side_put m sd_net_cop ws_net_cop (fst is) a ;;;
    do b <- slift (cop gross) ;;
    side_put m sd_gross_cop ws_gross_cop (fst is) b.

  (** unified_resnet.py:304-333 *)
  Definition setup_gross_table : st U unit :=
    do u <- sget ;;
    match rn_net (u_rn u) with
    | None => sret tt
    | Some net =>
        do fc <- slift (table_fan_powers Cooling (p_nc net) u) ;;
        do fh <- slift (table_fan_powers Heating (p_nh net) u) ;;
        do gross <- slift (ex (make_gross fc fh) net) ;;
        put_rn (wr_gross (Some gross)) ;;;
        do m <- slift (need AttributeError (rn_map (u_rn u))) ;;
        sfold (put_table_cops Cooling net gross) (enumerate m) ;;;
        sfold (put_table_cops Heating net gross) (enumerate m)
    end.

  (** One half of unified_resnet.py:577-668.  [sgn] turns net into gross capacity.
      Both halves use the heating airflow per capacity, and both call
      [find_rated_fan_speed] with its default [is_cooling]. *)
  Definition lower_speed (m : mode) : st U unit :=
    let gross (q w : T) := match m with Cooling => q + w | Heating => q - w end in
    let net (q w : T) := match m with Cooling => q - w | Heating => q + w end in
    let fan_power_at (i : nat) : st U T :=
      sread (fun u =>
        let s := side_of m u in
        let! f := need AttributeError (u_fan u) in
        let! map := need TypeError (sd_rated_fan_speed s) in
        let! k := (let! o := geti map i in need TypeError o) in
        let! p := geti (sd_esp s) i in
        power sol f k p) in
    do w <- fan_power_at 0 ;;
    side_put m sd_fan_power ws_fan_power 0 w ;;;
    do u <- sget ;;
    do q0 <- slift (geti (sd_net_cap (side_of m u)) 0) ;;
    let g0 := gross q0 w in
    side_put m sd_gross_cap ws_gross_cap 0 g0 ;;;
    let g1 := g0 * lit 0.72 in
    side_put m sd_gross_cap ws_gross_cap 1 g1 ;;;
    do guess <- sread (fun u =>
      let! f := need AttributeError (u_fan u) in
      let! map := need TypeError (sd_fan_speed (side_of m u)) in
      let! k := (let! o := geti map 0 in need TypeError o) in
      let! a := geti (f_airflow f) k in
      Ok (a * lit 0.72)) ;;
    do flow <- sread (fun u => flow_per_cap (u_h u) 1) ;;
    do p <- sread (fun u => need AttributeError (u_full_esp u)) ;;
    do air <- on_fan (find_rated_fan_speed sol g1 flow (Some guess) (Some p) true) ;;
    side_put m sd_airflow ws_airflow 1 air ;;;
    do k <- last_fan_speed ;;
    put_rated_fan_speed m 1 k ;;;
    add_design_speed m 1 ;;;
    do u <- sget ;;
    do a0 <- slift (arr (sd_airflow (side_of m u)) 0) ;;
    do p1 <- slift (calculate_rated_pressure u air a0) ;;
    side_put m sd_esp ws_esp 1 p1 ;;;
    do w1 <- fan_power_at 1 ;;
    side_put m sd_fan_power ws_fan_power 1 w1 ;;;
    on_side m (fun s => ws_net_cap (sd_net_cap s ++ [net g1 w1]) s).

  (** unified_resnet.py:335-338 *)
  Definition set_lower_speed_net_capacities : st U unit :=
    do u <- sget ;;
    match u_staging u with
    | TWO_STAGE =>
        if Nat.eqb (List.length (sd_net_cap (u_c u))) 1
        then lower_speed Cooling ;;; lower_speed Heating
        else sret tt
    | _ => sret tt
    end.

  (** unified_resnet.py:156-338.  With a list of heating capacities the cooling
      capacities must be a list too (a number raises TypeError when indexed). *)
  Definition resnet_set_net_capacities_and_fan (qc : num_or_list T)
      (qh : option (num_or_list T)) (f : option (fan T)) : st U unit :=
    adopt_table_staging ;;;
    (match qh with
     | Some (Many lh) =>
         match qc with
         | Many lc => on_side Cooling (ws_net_cap lc)
         | Scalar _ => slift (Err TypeError)
         end ;;;
         on_side Heating (ws_net_cap lh)
     | Some (Scalar x) => capacities_from_table qc (Some x)
     | None => capacities_from_table qc None
     end) ;;;
    resnet_set_fan f ;;;
    setup_gross_table ;;;
    set_lower_speed_net_capacities.

  (** unified_resnet.py:346-368 *)
  Definition unless_table (m : st U unit) : st U unit :=
    do u <- sget ;;
    match rn_net (u_rn u) with Some _ => sret tt | None => m end.

  (** unified_resnet.py:28-684; c_d defaults 340-344 *)
  Definition RESNETDXModel : dxmodel T :=
    mkModel
      ["base_model"; "rated_net_heating_capacity_17";
       "rated_net_total_cooling_cop_82_min";
       "min_net_total_cooling_capacity_ratio_95"; "tabular_data"; "motor_type"]%string
      resnet_process_kwargs
      resnet_gross_total_cooling_capacity resnet_gross_cooling_power
      resnet_gross_sensible_cooling_capacity t24_gross_shr
      resnet_gross_heating_capacity resnet_gross_heating_power
      resnet_gross_integrated_heating_capacity resnet_gross_integrated_heating_power
      resnet_f_gtc resnet_f_gcp resnet_f_ghc resnet_f_ghp
      (lit 0.15) (lit 0.15)
      resnet_set_net_capacities_and_fan
      (fun m v => unless_table (nrel_set_net_cop m v))
      (fun m v => unless_table (nrel_set_gross_cop m v)).

  (** ** The NREL model as a DXModel (nrel.py:15-732) *)
  Definition NRELDXModel : dxmodel T :=
    let gtc := nrel_gross_total_cooling_capacity in
    let gcp := nrel_gross_cooling_power in
    let ghc := nrel_gross_heating_capacity in
    let ghp := nrel_gross_heating_power in
    let f_gtc := resnet_grading_model psy Cooling true gtc in
    let f_ghc := resnet_grading_model psy Heating true ghc in
    let f_ghp := resnet_grading_model psy Heating false ghp in
    mkModel ["base_model"%string] (fun _ => Ok no_data)
      gtc gcp
      (nrel_gross_sensible_cooling_capacity psy sol (checked_product gtc f_gtc))
      not_implemented
      ghc ghp
      (nrel_gross_integrated_heating_capacity psy (product ghc f_ghc))
      (nrel_gross_integrated_heating_power psy (product ghp f_ghp))
      f_gtc (resnet_grading_model psy Cooling false gcp) f_ghc f_ghp
      (lit 0.25) (lit 0.25)
      nrel_set_net_capacities_and_fan nrel_set_net_cop nrel_set_gross_cop.
End Resnet.
