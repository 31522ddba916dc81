(** Seasonal ratings as AHRI 210/240 defines them, in real arithmetic.

    A [point] is the outcome of one rating test: outdoor temperature (K), net capacity
    and net power (W). *)
From Coq Require Import Reals List.
From Verif.Base Require Import Res.
From Verif.Model Require Import Psychrometrics Conditions Fan Unit DXUnit.
From Verif.Spec Require Import UtilSpec UnitSpec.
Import ListNotations.
Local Open Scope R_scope.

(** W to Btu/h, so COP to Btu/Wh. *)
Definition Btu_Wh (cop : R) : R := cop * 3600 / 1055.056.

(** [P] is what the methods [cap] and [pow] return at the condition [oc] of [u]. *)
Definition tested (cap pow : dxunit R -> option (cond R) -> res R) (u : dxunit R)
    (oc : option (cond R)) (P : point R) : Prop :=
  exists c, oc = Some c /\ pt_t P = ps_db (c_outdoor c)
            /\ cap u (Some c) = Ok (pt_q P) /\ pow u (Some c) = Ok (pt_p P).

Definition cooling_test (sol : solvers R) (M : dxmodel R) :=
  tested (net_total_cooling_capacity sol M) (net_cooling_power sol M).
Definition heating_test (sol : solvers R) (M : dxmodel R) :=
  tested (net_steady_state_heating_capacity sol M) (net_steady_state_heating_power sol M).
(** Tests in which frost forms. *)
Definition frost_test (sol : solvers R) (M : dxmodel R) :=
  tested (net_integrated_heating_capacity sol M) (net_integrated_heating_power sol M).

(** Capacity or power at outdoor temperature [t], on the line through two tests. *)
Definition q_at (a b : point R) (t : R) : R := line (pt_t a) (pt_q a) (pt_t b) (pt_q b) t.
Definition p_at (a b : point R) (t : R) : R := line (pt_t a) (pt_p a) (pt_t b) (pt_p b) t.

Definition over (n : nat) (f : nat -> R) : R := total (map f (seq 0 n)).

(** Energy use of a machine of power [p] that runs the fraction [x] of the time, with
    degradation coefficient [cd]. *)
Definition cycling (cd x p : R) : R := x * p / (1 - cd * (1 - x)).

(** * Cooling: eight bins, 67 F to 102 F *)
Definition cool_t (i : nat) : R := deg_F (67 + 5 * INR i).
Definition cool_hours (i : nat) : R :=
  nth i [0.214; 0.231; 0.216; 0.161; 0.104; 0.052; 0.018; 0.004] 0.
(** The building needs cooling above 65 F and 1/1.1 of the unit's capacity at 95 F. *)
Definition cool_load (q_A t : R) : R :=
  Rmax (q_A / 1.1 * ((t - deg_F 65) / (deg_F 95 - deg_F 65))) 0.

(** Energy rate of a two-stage unit with low-stage capacity and power [ql pl], full-stage
    [qf pf], at the load [bl]. *)
Definition two_stage_energy (cyc : cycling_method) (cd bl ql pl qf pf : R) : R :=
  if Rle_dec bl ql then cycling cd (bl / ql) pl
  else if Rlt_dec bl qf then
    match cyc with
    | BETWEEN_LOW_FULL => line ql pl qf pf bl
    | BETWEEN_OFF_FULL => cycling cd (bl / qf) pf
    end
  else pf.

(** Cooling delivered: the load as far as the stage in use can meet it. *)
Definition two_stage_served (bl ql qf : R) : R := if Rle_dec bl ql then bl else Rmin bl qf.
Definition variable_served (bl ql qi qf : R) : R :=
  if Rle_dec bl ql then bl else if Rlt_dec bl qi then bl else Rmin bl qf.

(** Variable speed: between two speeds the COP is on the line in the load. *)
Definition variable_energy (cd bl ql pl qi pi qf pf : R) : R :=
  if Rle_dec bl ql then cycling cd (bl / ql) pl
  else if Rlt_dec bl qi then bl / line ql (ql / pl) qi (qi / pi) bl
  else if Rle_dec bl qf then bl / line qi (qi / pi) qf (qf / pf) bl
  else pf.

(** Slope in outdoor temperature of the intermediate-speed line: the intermediate test [e]
    at temperature [t0] divides the gap between the low and full lines there; the slopes
    [sl sf] of these are mixed in the same proportion. *)
Definition mixed_slope (e low full sl sf : R) : R :=
  sl * (1 - (e - low) / (full - low)) + sf * ((e - low) / (full - low)).

Definition q_int_cool (A B Bl Fl E : point R) (t : R) : R :=
  pt_q E + mixed_slope (pt_q E) (q_at Fl Bl (deg_F 87)) (q_at B A (deg_F 87))
             ((pt_q Bl - pt_q Fl) / (deg_F 82 - deg_F 67))
             ((pt_q A - pt_q B) / (deg_F 95 - deg_F 82)) * (t - deg_F 87).
Definition p_int_cool (A B Bl Fl E : point R) (t : R) : R :=
  pt_p E + mixed_slope (pt_p E) (p_at Fl Bl (deg_F 87)) (p_at B A (deg_F 87))
             ((pt_p Bl - pt_p Fl) / (deg_F 82 - deg_F 67))
             ((pt_p A - pt_p B) / (deg_F 95 - deg_F 82)) * (t - deg_F 87).

(** Cooling and energy per hour in bin [i]: full-speed tests at 95 F and 82 F ([A B]),
    low-speed tests at 82 F and 67 F ([Bl Fl]), intermediate-speed test at 87 F ([E]). *)
Definition two_served (A B Bl Fl : point R) (i : nat) : R :=
  two_stage_served (cool_load (pt_q A) (cool_t i)) (q_at Fl Bl (cool_t i))
    (q_at B A (cool_t i)).
Definition two_energy (cyc : cycling_method) (cd : R) (A B Bl Fl : point R) (i : nat) : R :=
  two_stage_energy cyc cd (cool_load (pt_q A) (cool_t i)) (q_at Fl Bl (cool_t i))
    (p_at Fl Bl (cool_t i)) (q_at B A (cool_t i)) (p_at B A (cool_t i)).
Definition var_served (A B Bl Fl E : point R) (i : nat) : R :=
  variable_served (cool_load (pt_q A) (cool_t i)) (q_at Fl Bl (cool_t i))
    (q_int_cool A B Bl Fl E (cool_t i)) (q_at B A (cool_t i)).
Definition var_energy (cd : R) (A B Bl Fl E : point R) (i : nat) : R :=
  variable_energy cd (cool_load (pt_q A) (cool_t i)) (q_at Fl Bl (cool_t i))
    (p_at Fl Bl (cool_t i)) (q_int_cool A B Bl Fl E (cool_t i))
    (p_int_cool A B Bl Fl E (cool_t i)) (q_at B A (cool_t i)) (p_at B A (cool_t i)).

(** * Heating: eighteen bins, 62 F to -23 F *)
Definition heat_t (i : nat) : R := deg_F (62 - 5 * INR i).

(** Capacity and power at full speed: between 17 F and 45 F frost forms. *)
Definition full_line (f : point R -> point R -> R -> R) (H1 H2 H3 : point R) (t : R) : R :=
  if Rle_dec (deg_F 45) t then f H3 H1 t
  else if Rle_dec t (deg_F 17) then f H3 H1 t
  else f H3 H2 t.

(** The fraction of the time the low-temperature cut-out lets the unit run. *)
Definition run_fraction (off on t cop : R) : R :=
  if Rle_dec t off then 0
  else if Rlt_dec cop 1 then 0
  else if Rlt_dec on t then 1 else 1 / 2.

(** The design heating requirements (W) of the 2017 standard. *)
Definition design_requirements : list R :=
  map Btu_h [5000; 10000; 15000; 20000; 25000; 30000; 35000; 40000;
             50000; 60000; 70000; 80000; 90000; 100000; 110000; 120000; 130000].

(** [L] is the heating load of the building for unit [u] in the climate [d].
    2017: 0.77 of a design requirement at the design temperature, none above 65 F; the
    requirement is the tabulated one nearest to the capacity at 47 F scaled by the design
    temperature difference over 60 F.  2023: the cooling capacity at 95 F times a factor
    at the design temperature, none above the zero-load temperature. *)
Definition heat_load (sol : solvers R) (M : dxmodel R) (u : dxunit R)
    (d : heating_distribution R) (L : R -> R) : Prop :=
  match u_standard u with
  | AHRI_210_240_2017 =>
      exists H1 dhr,
        heating_test sol M u (rc_H1_full (u_conds u)) H1
        /\ first_nearest design_requirements
             (pt_q H1 * (deg_F 65 - hd_design d) / (deg_F 60 - deg_F 0)) dhr
        /\ hd_design d <> deg_F 65
        /\ forall t, L t = Rmax (0.77 * dhr * ((deg_F 65 - t) / (deg_F 65 - hd_design d))) 0
  | AHRI_210_240_2023 =>
      exists c zl cA qA,
        match u_staging u with VARIABLE_SPEED => hd_c_vs d | _ => hd_c d end = Some c
        /\ hd_zero_load d = Some zl
        /\ rc_A_full (u_conds u) = Some cA
        /\ net_total_cooling_capacity sol M u (Some cA) = Ok qA
        /\ hd_design d <> zl
        /\ forall t, L t = Rmax (c * qA * ((zl - t) / (zl - hd_design d))) 0
  end.

(** The climate of a region in the unit's rating standard. *)
Definition climate (u : dxunit R) (region : nat) : res (heating_distribution R) :=
  match u_standard u with
  | AHRI_210_240_2017 => distribution_2017 region
  | AHRI_210_240_2023 => distribution_2023 region
  end.
Definition hours_of (d : heating_distribution R) (i : nat) : R := nth i (hd_hours d) 0.

(** HSPF from the energy [E] and resistance heat [RH] per hour in each bin. *)
Definition seasonal_heating (n bl E RH : nat -> R) (credit : R) : R :=
  Btu_Wh (over 18 (fun i => n i * bl i)
          / (over 18 (fun i => n i * E i) + over 18 (fun i => n i * RH i)) * credit).

(** ** Single stage *)
Definition load_factor (bl q : R) : R := if Rlt_dec bl q then bl / q else 1.

(** Energy and resistance heat per hour in bin [i] with cut-out temperatures [off on],
    degradation coefficient [cd], load [L] and full-speed tests [H1 H2 H3]. *)
Definition single_run (off on : R) (H1 H2 H3 : point R) (i : nat) : R :=
  run_fraction off on (heat_t i)
    (full_line q_at H1 H2 H3 (heat_t i) / full_line p_at H1 H2 H3 (heat_t i)).
Definition single_energy (off on cd : R) (L : R -> R) (H1 H2 H3 : point R) (i : nat) : R :=
  single_run off on H1 H2 H3 i
  * cycling cd (load_factor (L (heat_t i)) (full_line q_at H1 H2 H3 (heat_t i)))
      (full_line p_at H1 H2 H3 (heat_t i)).
Definition single_heat (off on : R) (L : R -> R) (H1 H2 H3 : point R) (i : nat) : R :=
  single_run off on H1 H2 H3 i
  * Rmin (L (heat_t i)) (full_line q_at H1 H2 H3 (heat_t i)).
Definition single_resistance (off on : R) (L : R -> R) (H1 H2 H3 : point R) (i : nat) : R :=
  L (heat_t i) - single_heat off on L H1 H2 H3 i.

(** ** Two stages *)
(** Low stage: frost between 17 F and 40 F. *)
Definition low_line (f : point R -> point R -> R -> R) (H0 H1 H2 H3 : point R) (t : R) : R :=
  if Rle_dec (deg_F 40) t then f H0 H1 t
  else if Rle_dec t (deg_F 17) then f H1 H3 t
  else f H2 H3 t.

(** Among the bins before [i], the latest whose load the low stage can carry, gives its [d]. *)
Fixpoint latest_low (bl ql d : nat -> R) (i : nat) : option R :=
  match i with
  | O => None
  | S j => if Rle_dec (bl j) (ql j) then Some (d j) else latest_low bl ql d j
  end.

(** Energy and resistance heat.  [dl] and [df] are the run fractions of this bin at low and
    full stage, [old] the run fraction carried over from an earlier bin. *)
Definition two_stage_heat (cyc : cycling_method) (cd bl ql pl qf pf dl df old : R) : R * R :=
  if Rle_dec bl ql then (dl * cycling cd (bl / ql) pl, (1 - dl) * bl)
  else if Rlt_dec bl qf then
    match cyc with
    | BETWEEN_LOW_FULL => (old * line ql pl qf pf bl, (1 - old) * bl)
    | BETWEEN_OFF_FULL =>
        (df * (bl / qf * pf) / (1 - cd * (1 - (qf - bl) / (qf - ql))), (1 - old) * bl)
    end
  else (df * pf, bl - df * qf).

(** Bin [i] of the two-stage unit: [low] and [full] stage tests; energy and resistance heat.
    [carried] is the run fraction left over from the last bin the low stage could carry. *)
Record stage_tests := mkStages {
  s_H0l : point R; s_H1l : point R; s_H2l : point R; s_H3l : point R;
  s_H1 : point R; s_H2 : point R; s_H3 : point R }.
Definition low_of (f : point R -> point R -> R -> R) (s : stage_tests) (i : nat) : R :=
  low_line f (s_H0l s) (s_H1l s) (s_H2l s) (s_H3l s) (heat_t i).
Definition full_of (f : point R -> point R -> R -> R) (s : stage_tests) (i : nat) : R :=
  full_line f (s_H1 s) (s_H2 s) (s_H3 s) (heat_t i).
Definition low_run (off on : R) (s : stage_tests) (i : nat) : R :=
  run_fraction off on (heat_t i) (low_of q_at s i / low_of p_at s i).
Definition full_run (off on : R) (s : stage_tests) (i : nat) : R :=
  run_fraction off on (heat_t i) (full_of q_at s i / full_of p_at s i).
Definition carried (off on : R) (L : R -> R) (s : stage_tests) (i : nat) : option R :=
  latest_low (fun j => L (heat_t j)) (low_of q_at s) (low_run off on s) i.
Definition two_stage_bin (cyc : cycling_method) (off on cd : R) (L : R -> R)
    (s : stage_tests) (i : nat) : R * R :=
  two_stage_heat cyc cd (L (heat_t i)) (low_of q_at s i) (low_of p_at s i)
    (full_of q_at s i) (full_of p_at s i) (low_run off on s i) (full_run off on s i)
    (match carried off on L s i with Some d => d | None => 0 end).

(** ** Variable speed *)
Definition q_int_heat (H0 H1 Hi H2 H3 : point R) (t : R) : R :=
  pt_q Hi + mixed_slope (pt_q Hi) (q_at H0 H1 (deg_F 35)) (pt_q H2)
              ((pt_q H0 - pt_q H1) / (deg_F 62 - deg_F 47))
              ((pt_q H2 - pt_q H3) / (deg_F 35 - deg_F 17)) * (t - deg_F 35).
Definition p_int_heat (H0 H1 Hi H2 H3 : point R) (t : R) : R :=
  pt_p Hi + mixed_slope (pt_p Hi) (p_at H0 H1 (deg_F 35)) (pt_p H2)
              ((pt_p H0 - pt_p H1) / (deg_F 62 - deg_F 47))
              ((pt_p H2 - pt_p H3) / (deg_F 35 - deg_F 17)) * (t - deg_F 35).

(** COP between the low and full speed. *)
Definition speed_cop (bl ql pl qi pi qf pf : R) : R :=
  if Rle_dec bl qi then line ql (ql / pl) qi (qi / pi) bl
  else line qi (qi / pi) qf (qf / pf) bl.

(** Energy and resistance heat; [run] is the run fraction at a given COP, [q4 p4] capacity
    and power on the line through the H4 and H3 tests. *)
Definition variable_heat (run : R -> R) (cd bl ql pl qi pi qf pf q4 p4 : R) : R * R :=
  if Rle_dec bl ql
  then (run (ql / pl) * cycling cd (bl / ql) pl, (1 - run (ql / pl)) * bl)
  else if Rlt_dec bl qf then
    let cop := speed_cop bl ql pl qi pi qf pf in (run cop * (bl / cop), (1 - run cop) * bl)
  else (run (qf / pf) * p4, bl - run (qf / pf) * q4).

(** Bin [i] of the variable-speed unit. *)
Definition variable_bin (off on cd : R) (L : R -> R) (H0l H1l H2i H1 H2 H3 H4 : point R)
    (i : nat) : R * R :=
  let t := heat_t i in
  variable_heat (run_fraction off on t) cd (L t) (q_at H0l H1l t) (p_at H0l H1l t)
    (q_int_heat H0l H1l H2i H2 H3 t) (p_int_heat H0l H1l H2i H2 H3 t)
    (full_line q_at H1 H2 H3 t) (full_line p_at H1 H2 H3 t) (q_at H4 H3 t) (p_at H4 H3 t).

(** The COP at which the unit runs in bin [i]. *)
Definition variable_cop (L : R -> R) (H0l H1l H2i H1 H2 H3 : point R) (i : nat) : R :=
  let t := heat_t i in
  let ql := q_at H0l H1l t in let pl := p_at H0l H1l t in
  let qf := full_line q_at H1 H2 H3 t in let pf := full_line p_at H1 H2 H3 t in
  if Rle_dec (L t) ql then ql / pl
  else if Rlt_dec (L t) qf
  then speed_cop (L t) ql pl (q_int_heat H0l H1l H2i H2 H3 t) (p_int_heat H0l H1l H2i H2 H3 t)
         qf pf
  else qf / pf.

(** ** Well-behaved units *)
(** The tests of a two-stage unit are at distinct temperatures; its capacities and powers
    are positive in every bin, with COPs between [lo] and [hi]. *)
Definition stages_ok (lo hi : R) (s : stage_tests) : Prop :=
  pt_t (s_H1 s) <> pt_t (s_H3 s) /\ pt_t (s_H2 s) <> pt_t (s_H3 s)
  /\ pt_t (s_H1l s) <> pt_t (s_H0l s) /\ pt_t (s_H3l s) <> pt_t (s_H1l s)
  /\ pt_t (s_H3l s) <> pt_t (s_H2l s)
  /\ forall i, (i < 18)%nat ->
       0 < low_of q_at s i /\ 0 < low_of p_at s i /\ 0 < full_of q_at s i
       /\ 0 < full_of p_at s i
       /\ lo <= low_of q_at s i / low_of p_at s i <= hi
       /\ lo <= full_of q_at s i / full_of p_at s i <= hi.

(** The same of a variable-speed unit; at 35 F its low and full speeds differ. *)
Definition speeds_ok (lo hi : R) (H0l H1l H2i H1 H2 H3 H4 : point R) : Prop :=
  pt_t H1 <> pt_t H3 /\ pt_t H2 <> pt_t H3 /\ pt_t H1l <> pt_t H0l /\ pt_t H3 <> pt_t H4
  /\ q_at H0l H1l (deg_F 35) <> pt_q H2 /\ p_at H0l H1l (deg_F 35) <> pt_p H2
  /\ forall i, (i < 18)%nat ->
       let t := heat_t i in
       let ql := q_at H0l H1l t in let pl := p_at H0l H1l t in
       let qi := q_int_heat H0l H1l H2i H2 H3 t in
       let pi := p_int_heat H0l H1l H2i H2 H3 t in
       let qf := full_line q_at H1 H2 H3 t in let pf := full_line p_at H1 H2 H3 t in
       0 < ql /\ 0 < pl /\ 0 < pi /\ 0 < qf /\ 0 < pf
       /\ lo <= ql / pl <= hi /\ lo <= qi / pi <= hi /\ lo <= qf / pf <= hi.

(** * Two units compared *)
(** [r'] is [k] times [r] (or both raise the same exception). *)
Definition scaled (k : R) (r r' : res R) : Prop :=
  match r, r' with
  | Ok x, Ok y => y = k * x
  | Err e, Err e' => e = e'
  | _, _ => False
  end.

(** At the rating condition [get] the second unit has [k] times the capacity and power of
    the first. *)
Definition scaled_test (k : R)
    (cap pow cap' pow' : dxunit R -> option (cond R) -> res R) (u u' : dxunit R)
    (get : rconds R -> option (cond R)) : Prop :=
  match get (u_conds u), get (u_conds u') with
  | Some c, Some c' =>
      ps_db (c_outdoor c') = ps_db (c_outdoor c)
      /\ scaled k (cap u (Some c)) (cap' u' (Some c'))
      /\ scaled k (pow u (Some c)) (pow' u' (Some c'))
  | None, None => True
  | _, _ => False
  end.

(** The same, for every rating condition. *)
Definition scaled_cooling (k : R) (sol : solvers R) (M : dxmodel R) (u : dxunit R)
    (sol' : solvers R) (M' : dxmodel R) (u' : dxunit R) : Prop :=
  Forall (scaled_test k (net_total_cooling_capacity sol M) (net_cooling_power sol M)
            (net_total_cooling_capacity sol' M') (net_cooling_power sol' M') u u')
    [rc_A_full; rc_B_full; rc_B_low; rc_F_low; rc_E_int].
Definition scaled_heating (k : R) (sol : solvers R) (M : dxmodel R) (u : dxunit R)
    (sol' : solvers R) (M' : dxmodel R) (u' : dxunit R) : Prop :=
  Forall (scaled_test k
            (net_steady_state_heating_capacity sol M) (net_steady_state_heating_power sol M)
            (net_steady_state_heating_capacity sol' M') (net_steady_state_heating_power sol' M')
            u u')
    [rc_H1_full; rc_H3_full; rc_H0_low; rc_H1_low; rc_H3_low; rc_H4_full]
  /\ Forall (scaled_test k
               (net_integrated_heating_capacity sol M) (net_integrated_heating_power sol M)
               (net_integrated_heating_capacity sol' M') (net_integrated_heating_power sol' M')
               u u')
       [rc_H2_full; rc_H2_low; rc_H2_int].
