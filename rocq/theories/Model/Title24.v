(** Model of /repo/resdx/models/title24.py *)
From Coq Require Import QArith List String.
From Verif.Base Require Import Num Res.
From Verif.Model Require Import Units Util Psychrometrics Conditions Defrost Fan Tabular Unit NREL BaseModel.
Import ListNotations.
Local Open Scope nat_scope.

(** The entries of [self.system.model_data] used by this model: each is absent
    (None) or an array with one (possibly None) entry per heating speed. *)
Record t24 (T : Type) := mkT24 {
  t_cap17 : option (list (option T));
  t_cap35 : option (list (option T));
  t_cop17 : option (list (option T));
  t_cop35 : option (list (option T))
}.
Arguments mkT24 {T}.
Arguments t_cap17 {T}. Arguments t_cap35 {T}.
Arguments t_cop17 {T}. Arguments t_cop35 {T}.

Section Title24.
  Context {T : Type} {NT : Num T} {NX : NumX T}.
  Variable psy : psychro T.
  Variable sol : solvers T.
  Local Open Scope num_scope.
  Notation U := (dxunit T).
  Notation C := (cond T).
  Notation D := (t24 T).

  (** title24.py:22-37 *)
  Definition CA_regression (k : list T) (ewb odb edb v : T) : res T :=
    match k with
    | [k0; k1; k2; k3; k4; k5; k6; k7; k8; k9; k10; k11] =>
        let! q := k10 /? v in
        Ok (k0 * edb + k1 * ewb + k2 * odb + k3 * v + k4 * edb * odb + k5 * edb * v
            + k6 * ewb * odb + k7 * ewb * v + k8 * odb * v + k9 * ewb * ewb + q + k11)
    | _ => Err IndexError
    end.

  (** Indoor wet bulb, outdoor and indoor dry bulb (F), cfm/ton:
      title24.py:40-45, 86-91, 136-141. *)
  Definition t24_inputs (c : C) : res (T * T * T * T) :=
    let! wb := wb_of (c_indoor c) in
    let! v := need AttributeError (c_standard_volumetric_airflow_per_capacity c) in
    Ok (to_F wb, to_F (ps_db (c_outdoor c)), to_F (ps_db (c_indoor c)), to_cfm_per_ton v).

  (** title24.py:46-59 *)
  Definition SHR_COEFFS : list T :=
    [lit 0.0242020; lit (-0.0592153); lit 0.0012651; lit 0.0016375; lit 0; lit 0;
     lit 0; lit (-0.0000165); lit 0; lit 0.0002021; lit 0; lit 1.5085285].
  (** title24.py:93-106, 163-176 *)
  Definition CAP_COEFFS_WET : list T :=
    [lit 0; lit 0.009645900; lit 0.002536900; lit 0.000171500; lit 0; lit 0;
     lit (-0.000095900); lit 0.000008180; lit (-0.000007550); lit 0.000105700;
     lit (-53.542300000); lit 0.381567150].
  (** title24.py:108-121, 192-205 *)
  Definition CAP_COEFFS_DRY : list T :=
    [lit 0.009483100; lit 0; lit (-0.000600600); lit (-0.000148900);
     lit (-0.000032600); lit 0.000011900; lit 0; lit 0; lit (-0.000005050); lit 0;
     lit (-52.561740000); lit 0.430751600].
  (** title24.py:149-162 *)
  Definition SEER_COEFFS_WET : list T :=
    [lit 0; lit (-0.0202256); lit 0.0236703; lit (-0.0006638); lit 0; lit 0;
     lit (-0.0001841); lit 0.0000214; lit (-0.00000812); lit 0.0002971;
     lit (-27.95672); lit 0.209951063].
  (** title24.py:178-191 *)
  Definition SEER_COEFFS_DRY : list T :=
    [lit 0.0046103; lit 0; lit 0.0125598; lit (-0.000512); lit (-0.0000357);
     lit 0.0000105; lit 0; lit 0; lit 0; lit 0; lit 0; lit (-0.316172311)].
  (** title24.py:219-232 *)
  Definition EER_COEFFS_WET : list T :=
    [lit 0; lit (-0.020225600); lit 0.023670300; lit (-0.000663800); lit 0; lit 0;
     lit (-0.000184100); lit 0.000021400; lit (-0.000008120); lit 0.000297100;
     lit (-27.956720000); lit 0.015003100].
  (** title24.py:234-247 *)
  Definition EER_COEFFS_DRY : list T :=
    [lit 0.004610300; lit 0; lit 0.012559800; lit (-0.000512000);
     lit (-0.000035700); lit 0.000010500; lit 0; lit 0; lit 0; lit 0; lit 0;
     lit (-0.475306500)].

  (** title24.py:39-61 *)
  Definition t24_gross_shr (u : U) (c : C) : res T :=
    let! x := t24_inputs c in
    let '(wb, odb, idb, v) := x in
    let! s := CA_regression SHR_COEFFS wb odb idb v in
    Ok (pymin (lit 1) s).

  (** title24.py:63-70 *)
  Definition eer_rated (seer : T) : T :=
    if seer <? lit 13 then lit 10 + lit 0.84 * (seer - lit 11.5)
    else if seer <? lit 16 then lit 11.3 + lit 0.57 * (seer - lit 13)
    else lit 13.

  (** title24.py:76-82 *)
  Definition fan_efficacy_rated (flow : T) (psc : bool) : res T :=
    ((if psc then lit 500 else lit 283) * btu_h / ton_ref) /? flow.

  (** title24.py:84-127 *)
  Definition t24_gross_total_cooling_capacity (u : U) (c : C) : res T :=
    let! shr := t24_gross_shr u c in
    let! x := t24_inputs c in
    let '(wb, odb, idb, v) := x in
    let! f := CA_regression (if shr <? lit 1 then CAP_COEFFS_WET else CAP_COEFFS_DRY)
                wb odb idb v in
    let! q := arr (sd_gross_cap (u_c u)) (c_speed c) in
    Ok (f * q).

  (** title24.py:129-132 *)
  Definition t24_gross_sensible_cooling_capacity (u : U) (c : C) : res T :=
    let! shr := t24_gross_shr u c in
    let! q := checked_product t24_gross_total_cooling_capacity unit_factor u c in
    Ok (shr * q).

  (** title24.py:134-267 *)
  Definition t24_gross_cooling_power (u : U) (c : C) : res T :=
    let! shr := t24_gross_shr u c in
    let! x := t24_inputs c in
    let '(wb, odb, idb, v) := x in
    let! cap95 := geti (sd_net_cap (u_c u)) (c_speed c) in
    let! q_fan := geti (sd_fan_power (u_c u)) (c_speed c) in
    let wet := shr <? lit 1 in
    let! seer_nf :=
      if odb <? lit 95 then
        let! seer := need TypeError (u_seer u) in
        let seer := fr_Btu_Wh seer in
        let! a := CA_regression (if wet then CAP_COEFFS_WET else CAP_COEFFS_DRY)
                    wb odb idb v in
        let! b := CA_regression (if wet then SEER_COEFFS_WET else SEER_COEFFS_DRY)
                    wb odb idb v in
        let! f := a /? b in
        let! q_fan := need TypeError q_fan in
        let! y := (lit 1.09 * cap95) /? seer in
        (f * (lit 1.09 * cap95 + q_fan)) /? (y - q_fan)
      else Ok (lit 0) in
    let! eer_nf :=
      if odb >? lit 82 then
        let! eer := geti (sd_net_cop (u_c u)) (c_speed c) in
        let! cap_nf := geti (sd_gross_cap (u_c u)) (c_speed c) in
        let! f := CA_regression (if wet then EER_COEFFS_WET else EER_COEFFS_DRY)
                    wb odb idb v in
        let! eer := need TypeError eer in
        let! y := cap95 /? eer in
        let! q_fan := need TypeError q_fan in
        let! cap_nf := need TypeError cap_nf in
        cap_nf /? (f * (y - q_fan / lit 3.413))
      else Ok (lit 0) in
    let eer_t :=
      if odb <=? lit 82 then seer_nf
      else if odb <? lit 95 then
        seer_nf + (odb - lit 82) * (eer_nf - seer_nf) / lit 13
      else eer_nf in
    let! f_eff := match List.find (fun x =>
                          String.eqb "input_cooling_efficiency_multiplier" (fst x))
                          (u_kwargs u) with
                  | None => Ok (lit 1)
                  | Some (_, KNum x) => Ok x
                  | Some _ => Err TypeError
                  end in
    let! q := checked_product t24_gross_total_cooling_capacity unit_factor u c in
    q /? (eer_t * f_eff).

  (** title24.py:269-281 *)
  Definition cap17_ratio_rated (hspf : T) : T :=
    if hspf <? lit 7.5 then lit 0.1113 * hspf - lit 0.22269
    else if hspf <? lit 9.5567 then lit 0.017 * hspf + lit 0.4804
    else if hspf <? lit 10.408 then lit 0.0982 * hspf - lit 0.2956
    else lit 0.0232 * hspf + lit 0.485.

  (** ** Cached heating data *)

  (** The cache arrays of [self.system.model_data]. *)
  Definition blank_t24 : D := mkT24 None None None None.
  Definition wt_cap17 (v : option (list (option T))) (d : D) : D :=
    mkT24 v (t_cap35 d) (t_cop17 d) (t_cop35 d).
  Definition wt_cap35 (v : option (list (option T))) (d : D) : D :=
    mkT24 (t_cap17 d) v (t_cop17 d) (t_cop35 d).
  Definition wt_cop17 (v : option (list (option T))) (d : D) : D :=
    mkT24 (t_cap17 d) (t_cap35 d) v (t_cop35 d).
  Definition wt_cop35 (v : option (list (option T))) (d : D) : D :=
    mkT24 (t_cap17 d) (t_cap35 d) (t_cop17 d) v.

  (** [if key not in model_data: model_data[key] = [None] * n] *)
  Definition init_key (get : D -> option (list (option T)))
      (set : option (list (option T)) -> D -> D) (n : nat) : st D unit :=
    smod (fun d => match get d with
                   | Some _ => d
                   | None => set (Some (repeat None n)) d
                   end).
  (** [model_data[key][i]] and [model_data[key][i] = v] *)
  Definition read_key (get : D -> option (list (option T))) (i : nat)
      : st D (option T) :=
    sread (fun d => let! l := need KeyError (get d) in geti l i).
  Definition write_key (get : D -> option (list (option T)))
      (set : option (list (option T)) -> D -> D) (i : nat) (v : T) : st D unit :=
    do l <- sread (fun d => let! l := need KeyError (get d) in seti l i (Some v)) ;;
    smod (set (Some l)).

  (** [self.system.kwargs[key][i]], when the keyword was given. *)
  Definition kwarg_entry (key : string) (u : U) (i : nat) : option (res T) :=
    match List.find (fun x => String.eqb key (fst x)) (u_kwargs u) with
    | None => None
    | Some (_, KList l) => Some (geti l i)
    | Some _ => Some (Err TypeError)
    end.

  Definition has_defrost (u : U) : bool :=
    match df_strategy (u_defrost u) with DSNone => false | _ => true end.

  (** title24.py:283-311 *)
  Definition get_cap17 (u : U) (c : C) : st D T :=
    let i := c_speed c in
    init_key t_cap17 wt_cap17 (sd_n (u_h u)) ;;;
    do o <- read_key t_cap17 i ;;
    match o with
    | Some v => sret v
    | None =>
        do v <- slift match kwarg_entry "cap17" u i with
                      | Some r => r
                      | None =>
                          let! cap47 := geti (sd_net_cap (u_h u)) i in
                          let! hspf := need TypeError (u_hspf u) in
                          Ok (cap17_ratio_rated hspf * cap47)
                      end ;;
        write_key t_cap17 wt_cap17 i v ;;;
        sret v
    end.

  (** title24.py:313-335 *)
  Definition get_cap35 (u : U) (c : C) : st D T :=
    let i := c_speed c in
    init_key t_cap35 wt_cap35 (sd_n (u_h u)) ;;;
    do o <- read_key t_cap35 i ;;
    match o with
    | Some v => sret v
    | None =>
        do v <- match kwarg_entry "cap35" u i with
                | Some r => slift r
                | None =>
                    do cap47 <- slift (geti (sd_net_cap (u_h u)) i) ;;
                    do cap17 <- get_cap17 u c ;;
                    let x := cap17 + lit 0.6 * (cap47 - cap17) in
                    sret (if has_defrost u then x * lit 0.9 else x)
                end ;;
        write_key t_cap35 wt_cap35 i v ;;;
        sret v
    end.

  (** title24.py:337-346 *)
  Definition t24_heating_capacity (u : U) (c : C) : st D T :=
    let odb := to_F (ps_db (c_outdoor c)) in
    do cap47 <- slift (geti (sd_net_cap (u_h u)) (c_speed c)) ;;
    do cap17 <- get_cap17 u c ;;
    let slope := (cap47 - cap17) / (lit 47 - lit 17) in
    do w <- slift (arr (sd_fan_power (u_h u)) (c_speed c)) ;;
    sret (cap17 + slope * (odb - lit 17) - w).

  (** title24.py:353-355, 534-536 *)
  Definition uses_defrost_line (u : U) (c : C) : bool :=
    let odb := to_F (ps_db (c_outdoor c)) in
    andb (in_defrost (u_defrost u) c) (andb (odb >? lit 17) (odb <? lit 45)).

  (** title24.py:348-363 *)
  Definition t24_integrated_capacity (u : U) (c : C) : st D T :=
    let odb := to_F (ps_db (c_outdoor c)) in
    do cap47 <- slift (geti (sd_net_cap (u_h u)) (c_speed c)) ;;
    do cap17 <- get_cap17 u c ;;
    do cap35 <- get_cap35 u c ;;
    let slope := if uses_defrost_line u c then (cap35 - cap17) / (lit 35 - lit 17)
                 else (cap47 - cap17) / (lit 47 - lit 17) in
    do w <- slift (arr (sd_fan_power (u_h u)) (c_speed c)) ;;
    sret (cap17 + slope * (odb - lit 17) - w).

  (** title24.py:365-367, 463-465 *)
  Definition cop47_rated (hspf : T) : T := lit 0.3225 * hspf + lit 0.9099.

  (** title24.py:467-469 *)
  Definition t24_c_d_heating (hspf : T) : T :=
    pymax (pymin (lit 0.25 - lit 0.2 * (hspf - lit 6.8) / (lit 10 - lit 6.8)) (lit 0.25))
          (lit 0.05).

  (** title24.py:392-425: bin temperatures and hours. *)
  Definition t24_bins : list (T * T) :=
    [(lit 62, lit 0.132); (lit 57, lit 0.111); (lit 52, lit 0.103); (lit 47, lit 0.093);
     (lit 42, lit 0.100); (lit 37, lit 0.109); (lit 32, lit 0.126); (lit 27, lit 0.087);
     (lit 22, lit 0.055); (lit 17, lit 0.036); (lit 12, lit 0.026); (lit 7, lit 0.013);
     (lit 2, lit 0.006); (lit (-3), lit 0.002); (lit (-8), lit 0.001)].

  (** title24.py:434-459: one bin; the accumulators are (out_tot, inp_tot). *)
  Definition t24_bin (cd cap47 cap35 cap17 inp47 inp35 inp17 : T) (acc : T * T)
      (tb : T * T) : res (T * T) :=
    let (t, frac) := tb in
    let bl := (lit 65 - t) / (lit 65 - lit 5) * lit 0.77 * cap47 in
    let low := andb (t >? lit 17) (t <? lit 45) in
    let cap_slope := if low then (cap35 - cap17) / (lit 35 - lit 17)
                     else (cap47 - cap17) / (lit 47 - lit 17) in
    let inp_slope := if low then (inp35 - inp17) / (lit 35 - lit 17)
                     else (inp47 - inp17) / (lit 47 - lit 17) in
    let cap := cap17 + cap_slope * (t - lit 17) in
    let inp := inp17 + inp_slope * (t - lit 17) in
    let! q := bl /? cap in
    let x := pymin q (lit 1) in
    let plf := lit 1 - cd * (lit 1 - x) in
    let! sigma := if t <=? lit 0 then Ok (lit 0)
                  else let! cop := cap /? inp in
                       if cop <? lit 1 then Ok (lit 0)
                       else if t <=? lit 5 then Ok (lit 0.5) else Ok (lit 1) in
    let! e := (x * inp * sigma) /? plf in
    Ok (fst acc + bl * frac,
        snd acc + (e * frac + (bl - x * cap * sigma) * frac)).

  (** title24.py:369-461 *)
  Definition check_hspf (u : U) (c : C) (cop17 : T) : st D T :=
    let i := c_speed c in
    do cap47 <- slift (geti (sd_net_cap (u_h u)) i) ;;
    do cop47 <- slift (arr (sd_net_cop (u_h u)) i) ;;
    do inp47 <- slift (cap47 /? cop47) ;;
    do cap35 <- get_cap35 u c ;;
    do cap17 <- get_cap17 u c ;;
    do inp17 <- slift (cap17 /? cop17) ;;
    do inp35 <- match kwarg_entry "cop35" u i with
                | Some r =>
                    do cop35 <- slift r ;;
                    write_key t_cop35 wt_cop35 i cop35 ;;;
                    slift (cap35 /? cop35)
                | None =>
                    let x := inp17 + lit 0.6 * (inp47 - inp17) in
                    let x := if has_defrost u then x * lit 0.985 else x in
                    do cop35 <- slift (cap35 /? x) ;;
                    write_key t_cop35 wt_cop35 i cop35 ;;;
                    sret x
                end ;;
    do tot <- slift (rfold (t24_bin (sd_cd (u_h u)) cap47 cap35 cap17 inp47 inp35 inp17)
                       (lit 0, lit 0) t24_bins) ;;
    do h <- slift (fst tot /? snd tot) ;;
    sret (to_Btu_Wh h).

  (** title24.py:471-488 *)
  Definition calculate_cops (u : U) (c : C) : st D unit :=
    let n := sd_n (u_h u) in
    init_key t_cop35 wt_cop35 n ;;;
    init_key t_cop17 wt_cop17 n ;;;
    do x <- run_prober (fun cop17 =>
              do h <- check_hspf u c cop17 ;;
              do target <- slift (need TypeError (u_hspf u)) ;;
              sret (h - target)) (newton sol (lit 3)) ;;
    write_key t_cop17 wt_cop17 (c_speed c) x.

  (** title24.py:490-494 and 496-500 *)
  Definition get_cop35 (u : U) (c : C) : st D (option T) :=
    do d <- sget ;;
    match t_cop35 d with Some _ => sret tt | None => calculate_cops u c end ;;;
    read_key t_cop35 (c_speed c).
  Definition get_cop17 (u : U) (c : C) : st D (option T) :=
    do d <- sget ;;
    match t_cop17 d with Some _ => sret tt | None => calculate_cops u c end ;;;
    read_key t_cop17 (c_speed c).

  (** title24.py:502-518 *)
  Definition t24_heating_power (u : U) (c : C) : st D T :=
    let odb := to_F (ps_db (c_outdoor c)) in
    do cap47 <- slift (geti (sd_net_cap (u_h u)) (c_speed c)) ;;
    do cap17 <- get_cap17 u c ;;
    do cop47 <- slift (geti (sd_net_cop (u_h u)) (c_speed c)) ;;
    do cop17 <- get_cop17 u c ;;
    do cop47 <- slift (need TypeError cop47) ;;
    do inp47 <- slift (cap47 /? cop47) ;;
    do cop17 <- slift (need TypeError cop17) ;;
    do inp17 <- slift (cap17 /? cop17) ;;
    let slope := (inp47 - inp17) / (lit 47 - lit 17) in
    do w <- slift (arr (sd_fan_power (u_h u)) (c_speed c)) ;;
    sret (inp17 + slope * (odb - lit 17) - w).

  (** title24.py:520-544 *)
  Definition t24_integrated_power (u : U) (c : C) : st D T :=
    let odb := to_F (ps_db (c_outdoor c)) in
    do cap47 <- slift (geti (sd_net_cap (u_h u)) (c_speed c)) ;;
    do cap35 <- get_cap35 u c ;;
    do cap17 <- get_cap17 u c ;;
    do cop47 <- slift (geti (sd_net_cop (u_h u)) (c_speed c)) ;;
    do cop35 <- get_cop35 u c ;;
    do cop17 <- get_cop17 u c ;;
    do cop47 <- slift (need TypeError cop47) ;;
    do inp47 <- slift (cap47 /? cop47) ;;
    do cop35 <- slift (need TypeError cop35) ;;
    do inp35 <- slift (cap35 /? cop35) ;;
    do cop17 <- slift (need TypeError cop17) ;;
    do inp17 <- slift (cap17 /? cop17) ;;
    let slope := if uses_defrost_line u c then (inp35 - inp17) / (lit 35 - lit 17)
                 else (inp47 - inp17) / (lit 47 - lit 17) in
    do w <- slift (arr (sd_fan_power (u_h u)) (c_speed c)) ;;
    sret (inp17 + slope * (odb - lit 17) - w).

  (** A heating method called when nothing is cached yet.  The unit model uses
      these values: [Props/P_Models] (C57) shows that earlier calls for the same unit
      do not change them when there is one heating speed. *)
  Definition fresh {A} (m : U -> C -> st D A) (u : U) (c : C) : res A :=
    snd (m u c blank_t24).

  (** ** Defaults *)

  (** title24.py:547-559 *)
  Definition t24_set_rated_fan_characteristics (fan_given : bool) : st U unit :=
    if fan_given then sret tt
    else
      let l := Some (Many [fr_cfm_per_ton (lit 350)]) in
      on_side Cooling (ws_flow_per_cap l) ;;;
      on_side Heating (ws_flow_per_cap l).

  (** One pass of the loops title24.py:582-594 and 596-608. *)
  Definition t24_fan_step (m : mode) (eff : T) (first : nat) (iq : nat * T) : st U unit :=
    let i := fst iq in
    do u <- sget ;;
    do a <- slift (flow_per_cap (side_of m u) i) ;;
    let air := snd iq * a in
    side_put m sd_airflow ws_airflow i air ;;;
    side_put m sd_fan_power ws_fan_power i (air * eff) ;;;
    on_side m (fun s =>
      let push (l : option (list (option nat))) :=
        match l with Some l => Some (l ++ [Some (first + i)%nat]) | None => None end in
      ws_rated_fan_speed (push (sd_rated_fan_speed s))
        (ws_fan_speed (push (sd_fan_speed s)) s)).

  (** title24.py:561-613.  A given fan-speed map leaves [set_*_fan_speed]
      unassigned, which raises in the first pass of the loop that reads it; both
      loops run over the cooling capacities. *)
  Definition t24_set_fan (input : option (fan T)) : st U unit :=
    match input with
    | Some f => smod (wu_fan (Some f))
    | None =>
        do u <- sget ;;
        let free (m : mode) := match sd_fan_speed (side_of m u) with
                               | None => true | Some _ => false end in
        let clear (m : mode) : st U unit :=
          if free m then on_side m (fun s =>
            ws_rated_fan_speed (Some []) (ws_fan_speed (Some []) s))
          else sret tt in
        clear Cooling ;;;
        clear Heating ;;;
        do eff <- slift (fan_efficacy_rated (fr_cfm_per_ton (lit 350)) true) ;;
        let qc := sd_net_cap (u_c u) in
        sfold (fun iq => if free Cooling then t24_fan_step Cooling eff 0 iq
                         else slift (Err UnboundLocalError)) (enumerate qc) ;;;
        sfold (fun iq => if free Heating
                         then t24_fan_step Heating eff (List.length qc) iq
                         else slift (Err UnboundLocalError)) (enumerate qc) ;;;
        do u <- sget ;;
        do ac <- slift (rmapM (fun i => arr (sd_airflow (u_c u)) i)
                          (seq 0 (List.length qc))) ;;
        do ah <- slift (rmapM (fun i => arr (sd_airflow (u_h u)) i)
                          (seq 0 (List.length qc))) ;;
        do f <- slift (make_constant_efficacy_fan (ac ++ ah) (fr_inH2O (lit 0.2))
                         (EffList (repeat eff (List.length (ac ++ ah))))) ;;
        smod (wu_fan (Some f))
    end.

  (** title24.py:615-621 *)
  Definition t24_set_net_capacities_and_fan (qc : num_or_list T)
      (qh : option (num_or_list T)) (f : option (fan T)) : st U unit :=
    t24_set_rated_fan_characteristics match f with Some _ => true | None => false end ;;;
    base_set_net_cooling_capacity qc ;;;
    base_set_net_heating_capacity qh ;;;
    t24_set_fan f.

  (** title24.py:12-20 and the methods above. *)
  Definition Title24DXModel : dxmodel T :=
    mkModel
      ["base_model"; "cap17"; "cap35"; "cop35";
       "input_cooling_efficiency_multiplier"]%string
      (fun _ => Ok no_data)
      t24_gross_total_cooling_capacity t24_gross_cooling_power
      t24_gross_sensible_cooling_capacity t24_gross_shr
      (fresh t24_heating_capacity) (fresh t24_heating_power)
      (fresh t24_integrated_capacity) (fresh t24_integrated_power)
      unit_factor unit_factor unit_factor unit_factor
      (lit 0.25) (lit 0.25)
      t24_set_net_capacities_and_fan base_set_net_cop base_set_gross_cop.
End Title24.
