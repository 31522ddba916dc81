(** Model of /repo/resdx/models/tabular_data.py *)
From Coq Require Import QArith ZArith List Bool.
Local Open Scope nat_scope.
From Verif.Base Require Import Num Res.
From Verif.Model Require Import Units Util Curves.
Import ListNotations.

(** The subclass of a table decides how [set_by_maintenance] works. *)
Inductive table_kind := BaseTable | CoolingTable | HeatingTable.

(** What [RegularGridInterpolator] keeps: the temperatures, the number of
    speeds (the speed axis is 1, 2, ..., n) and a copy of the values. *)
Record grid (T : Type) := mkGrid {
  g_temps : list T;
  g_n : nat;
  g_vals : list (list T)
}.
Arguments mkGrid {T}. Arguments g_temps {T}. Arguments g_n {T}. Arguments g_vals {T}.

(** tabular_data.py:14-29: the attributes of a table.  [self.speeds] is always
    [1, ..., n] and is represented by n; [t_interp] is [None] until
    [set_interpolator] has been called. *)
Record table (T : Type) := mkTable {
  t_kind : table_kind;
  t_temps : list T;
  t_n : nat;
  t_data : list (list (option T));
  t_interp : option (grid T)
}.
Arguments mkTable {T}. Arguments t_kind {T}. Arguments t_temps {T}.
Arguments t_n {T}. Arguments t_data {T}. Arguments t_interp {T}.

Section Tabular.
  Context {T : Type} {NT : Num T} {NX : NumX T}.
  Local Open Scope num_scope.
  Notation Tb := (table T).

  (** tabular_data.py:15-29; an explicitly given [data_in] is kept as it is. *)
  Definition new_table (k : table_kind) (temps : list T) (n : nat)
      (data_in : option (list (list (option T)))) : Tb :=
    mkTable k temps n
      (match data_in with
       | Some d => d
       | None => repeat (repeat None n) (length temps)
       end) None.

  Definition w_data (d : list (list (option T))) (t : Tb) : Tb :=
    mkTable (t_kind t) (t_temps t) (t_n t) d (t_interp t).
  Definition w_temps (l : list T) (t : Tb) : Tb :=
    mkTable (t_kind t) l (t_n t) (t_data t) (t_interp t).
  Definition w_interp (g : option (grid T)) (t : Tb) : Tb :=
    mkTable (t_kind t) (t_temps t) (t_n t) (t_data t) g.

  (** [l.index(x)]: the first position; ValueError when absent. *)
  Fixpoint index_of (l : list T) (x : T) : res nat :=
    match l with
    | [] => Err ValueError
    | y :: l' => if y =? x then Ok O else let! i := index_of l' x in Ok (S i)
    end.

  (** [self.data[ti][si]]: negative Python indices allowed. *)
  Definition cell_opt (t : Tb) (ti si : Z) : res (option T) :=
    let! row := pyget (t_data t) ti in pyget row si.
  (** ... used in arithmetic, where [None] raises TypeError. *)
  Definition cell (t : Tb) (ti si : Z) : res T :=
    let! o := cell_opt t ti si in need TypeError o.

  (** [self.data[ti][si] = v] *)
  Definition put_data (d : list (list (option T))) (ti si : Z) (o : option T)
      : res (list (list (option T))) :=
    let! i := pyindex d ti in
    let! row := geti d i in
    let! j := pyindex row si in
    Ok (upd d i (upd row j o)).
  Definition put_opt (ti si : Z) (o : option T) : st Tb unit :=
    do t <- sget ;;
    do d <- slift (put_data (t_data t) ti si o) ;;
    smod (w_data d).
  Definition put_cell (ti si : Z) (v : T) : st Tb unit := put_opt ti si (Some v).

  Definition tidx (t : Tb) (temp : T) : res Z :=
    let! i := index_of (t_temps t) temp in Ok (Z.of_nat i).

  (** tabular_data.py:31-34 *)
  Definition t_set (speed : Z) (temp v : T) : st Tb unit :=
    do t <- sget ;;
    do ti <- slift (tidx t temp) ;;
    put_cell ti (speed - 1) v.

  (** tabular_data.py:36-39 *)
  Definition t_get (speed : Z) (temp : T) (t : Tb) : res (option T) :=
    let! ti := tidx t temp in cell_opt t ti (speed - 1).
  (** A value read with [get] and used in arithmetic. *)
  Definition t_getv (speed : Z) (temp : T) (t : Tb) : res T :=
    let! o := t_get speed temp t in need TypeError o.

  (** tabular_data.py:41-55 *)
  Definition set_by_ratio (speed : Z) (temp ratio : T) : st Tb unit :=
    do t <- sget ;;
    let si := (speed - 1)%Z in
    do ti <- slift (tidx t temp) ;;
    let mx := (Z.of_nat (t_n t) - 1)%Z in
    if (si =? mx)%Z
    then do v <- slift (cell t ti (si - 1)) ;;
         do q <- slift (v /? ratio) ;;
         put_cell ti si q
    else do v <- slift (cell t ti mx) ;;
         put_cell ti si (v * ratio).

  (** tabular_data.py:57-64 *)
  Definition get_ratio (speed : Z) (temp : T) (t : Tb) : res T :=
    let! ti := tidx t temp in
    let! a := cell t ti (speed - 1) in
    let! b := cell t ti (Z.of_nat (t_n t) - 1) in
    a /? b.

  (** tabular_data.py:66-79.  (When the expression is wrong in two ways at once
      the model may report the other of the two exceptions.) *)
  Definition set_by_interpolation (speed : Z) (temp : T) : st Tb unit :=
    do t <- sget ;;
    do t1 <- slift (tidx t temp) ;;
    let s1 := (speed - 1)%Z in
    let s0 := (s1 - 1)%Z in
    let s2 := (s1 + 1)%Z in
    let t2 := (t1 + 1)%Z in
    do v10 <- slift (cell t t1 s0) ;;
    do v21 <- slift (cell t t2 s1) ;;
    do v20 <- slift (cell t t2 s0) ;;
    do v22 <- slift (cell t t2 s2) ;;
    do q <- slift ((v21 - v20) /? (v22 - v20)) ;;
    do v12 <- slift (cell t t1 s2) ;;
    put_cell t1 s1 (v10 + q * (v12 - v10)).

  (** [bisect.insort]: the binary search of [bisect_right]; [fuel] bounds the
      number of halvings (the list length always suffices). *)
  Fixpoint bisect_right (fuel : nat) (l : list T) (x : T) (lo hi : nat) : nat :=
    match fuel with
    | O => lo
    | S f =>
        if Nat.ltb lo hi
        then let mid := Nat.div2 (lo + hi) in
             match nth_error l mid with
             | Some y => if x <? y then bisect_right f l x lo mid
                         else bisect_right f l x (S mid) hi
             | None => lo
             end
        else lo
    end.
  Definition insort (l : list T) (x : T) : list T :=
    ins l (bisect_right (S (length l)) l x 0 (length l)) x.

  (** tabular_data.py:96-114: the row put below all others. *)
  Definition below_value (extrapolate : bool) (limit : option T)
      (t0 t1 t2 : T) (t : Tb) (s : Z) : res (option T) :=
    if extrapolate
    then let! v1 := cell t 1 s in
         let! v2 := cell t 2 s in
         let! q := (v2 - v1) /? (t2 - t1) in
         let value := v1 - q * (t1 - t0) in
         Ok (Some (match limit with
                   | Some l => pymax value (v1 * l)
                   | None => value
                   end))
    else cell_opt t 1 s.

  (** tabular_data.py:116-134: the row put above all others. *)
  Definition above_value (extrapolate : bool) (limit : option T)
      (ti : Z) (tnew tm1 tm2 : T) (t : Tb) (s : Z) : res (option T) :=
    if extrapolate
    then let! v1 := cell t (ti - 1) s in
         let! v2 := cell t (ti - 2) s in
         let! q := (v1 - v2) /? (tm1 - tm2) in
         let value := v1 + q * (tnew - tm1) in
         Ok (Some (match limit with
                   | Some l => pymin value (v1 * l)
                   | None => value
                   end))
    else cell_opt t (ti - 1) s.

  (** tabular_data.py:136-145: a row between two others; [t1] is
      [self.temperatures[1]], whatever the position. *)
  Definition between_value (ti : Z) (tnew tm1 t1 : T) (t : Tb) (s : Z)
      : res (option T) :=
    let! a := cell t (ti - 1) s in
    let! b := cell t (ti + 1) s in
    let! q := (b - a) /? (t1 - tm1) in
    Ok (Some (a + q * (tnew - tm1))).

  (** [for speed in self.speeds: self.data[t_i][s_i] = value] *)
  Definition fill_row (ti : Z) (value : Tb -> Z -> res (option T)) : st Tb unit :=
    do t <- sget ;;
    sfold (fun s => do o <- sread (fun t => value t (Z.of_nat s)) ;;
                    put_opt ti (Z.of_nat s) o)
      (seq 0 (t_n t)).

  (** tabular_data.py:81-145 *)
  Definition add_temperature (temp : T) (extrapolate : bool) (limit : option T)
      : st Tb unit :=
    do t <- sget ;;
    if existsb (fun y => y =? temp) (t_temps t)
    then slift (Err RuntimeError)
    else
      smod (fun t => w_temps (insort (t_temps t) temp) t) ;;;
      do t <- sget ;;
      do i <- slift (index_of (t_temps t) temp) ;;
      smod (fun t => w_data (ins (t_data t) i (repeat None (t_n t))) t) ;;;
      do t <- sget ;;
      let ti := Z.of_nat i in
      let temps := t_temps t in
      if Nat.eqb i 0
      then
        do t1 <- slift (geti temps 1) ;;
        do t2 <- slift (geti temps 2) ;;
        fill_row ti (below_value extrapolate limit temp t1 t2)
      else if Nat.eqb i (length temps - 1)
      then
        do tm1 <- slift (pyget temps (ti - 1)) ;;
        do tm2 <- slift (pyget temps (ti - 2)) ;;
        fill_row ti (above_value extrapolate limit ti temp tm1 tm2)
      else
        do tm1 <- slift (pyget temps (ti - 1)) ;;
        do t1 <- slift (geti temps 1) ;;
        fill_row ti (between_value ti temp tm1 t1).

  (** tabular_data.py:147-150 (base class), 185-199 (cooling), 202-216
      (heating) *)
  Definition set_by_maintenance (speed : Z) (temp ref ratio : T) : st Tb unit :=
    do t <- sget ;;
    match t_kind t with
    | BaseTable => slift (Err NotImplementedError)
    | k =>
        let si := (speed - 1)%Z in
        do ti <- slift (tidx t temp) ;;
        do ri <- slift (tidx t ref) ;;
        let mult := match k with
                    | CoolingTable => (ri <? ti)%Z
                    | _ => (ti <? ri)%Z
                    end in
        do v <- slift (cell t ri si) ;;
        if mult then put_cell ti si (v * ratio)
        else do q <- slift (v /? ratio) ;; put_cell ti si q
    end.

  (** tabular_data.py:152-161 *)
  Definition get_maintenance (speed : Z) (temp ref : T) (t : Tb) : res T :=
    let si := (speed - 1)%Z in
    let! ti := tidx t temp in
    let! ri := tidx t ref in
    let! a := cell t ti si in
    let! b := cell t ri si in
    a /? b.

  (** Strictly ascending, as [RegularGridInterpolator] demands of each axis.
      (It also accepts strictly descending axes, which no table built by this
      package has; the model rejects them.) *)
  Fixpoint ascending (l : list T) : bool :=
    match l with
    | a :: ((b :: _) as l') => (a <? b) && ascending l'
    | _ => true
    end.

  (** The array of values; numpy turns a [None] entry into nan, which the model
      reports as TypeError instead. *)
  Definition values_of (d : list (list (option T))) : res (list (list T)) :=
    rmapM (rmapM (need TypeError)) d.

  (** tabular_data.py:163-170.  The external class copies the values and checks
      that the temperatures ascend and that the array has one row per
      temperature and one column per speed (ValueError otherwise). *)
  Definition set_interpolator : st Tb unit :=
    do t <- sget ;;
    do vs <- slift (values_of (t_data t)) ;;
    do _ <- slift (guard ValueError
              (ascending (t_temps t)
               && Nat.eqb (length vs) (length (t_temps t))
               && forallb (fun r => Nat.eqb (length r) (t_n t)) vs
               && negb (Nat.eqb (length vs) 0) && negb (Nat.eqb (t_n t) 0))) ;;
    smod (w_interp (Some (mkGrid (t_temps t) (t_n t) vs))).

  (** Piecewise linear interpolation over strictly ascending points, as the
      external "linear" method: inside an interval the chord, beyond the ends
      the chord of the first or last interval, constant for a single point. *)
  Fixpoint lin1 (xs ys : list T) (x : T) : T :=
    match xs, ys with
    | x0 :: ((x1 :: xs'') as xs'), y0 :: ((y1 :: _) as ys') =>
        if (x <? x1) || (match xs'' with [] => true | _ => false end)
        then y0 + (y1 - y0) * ((x - x0) / (x1 - x0))
        else lin1 xs' ys' x
    | _, y0 :: _ => y0
    | _, [] => lit 0
    end.

  (** The speed axis 1, 2, ..., n *)
  Definition speed_axis (n : nat) : list T :=
    map (fun i => nZ (Z.of_nat (S i))) (seq 0 n).

  (** Bilinear interpolation: along the speeds in each row, then along the
      temperatures (the order does not matter over exact arithmetic). *)
  Definition grid_eval (g : grid T) (speed temp : T) : T :=
    lin1 (g_temps g) (map (fun r => lin1 (speed_axis (g_n g)) r speed) (g_vals g)) temp.

  (** tabular_data.py:172-173 *)
  Definition calculate (speed temp : T) (t : Tb) : res T :=
    let! g := need AttributeError (t_interp t) in
    Ok (grid_eval g speed temp).

  (** tabular_data.py:175-182.  The positions visited are those present at the
      start; a failing assertion leaves the cells changed so far changed. *)
  Definition apply_fan_power_correction (fan_powers : list T) : st Tb unit :=
    do t <- sget ;;
    do _ <- slift (guard AssertionError (Nat.eqb (length fan_powers) (t_n t))) ;;
    sfold (fun ir : nat * list (option T) =>
             let i := fst ir in
             sfold (fun jv : nat * option T =>
                      let j := fst jv in
                      do v <- slift (need TypeError (snd jv)) ;;
                      do p <- slift (geti fan_powers j) ;;
                      put_cell (Z.of_nat i) (Z.of_nat j) (v - p) ;;;
                      slift (guard AssertionError (lit 0 <? v - p)))
               (enumerate (snd ir)))
      (enumerate (t_data t)) ;;;
    set_interpolator.
End Tabular.

(** tabular_data.py:219-248 *)
Record perf (T : Type) := mkPerf {
  p_cc : table T; (* cooling_capacities *)
  p_cp : table T; (* cooling_powers *)
  p_hc : table T; (* heating_capacities *)
  p_hp : table T; (* heating_powers *)
  p_nc : nat;     (* number_of_cooling_speeds *)
  p_nh : nat      (* number_of_heating_speeds *)
}.
Arguments mkPerf {T}. Arguments p_cc {T}. Arguments p_cp {T}.
Arguments p_hc {T}. Arguments p_hp {T}. Arguments p_nc {T}. Arguments p_nh {T}.

Section Perf.
  Context {T : Type} {NT : Num T} {NX : NumX T}.
  Local Open Scope num_scope.
  Notation Tb := (table T).

  (** tabular_data.py:221-248 *)
  Definition make_perf (cc cp hc hp : Tb) : res (perf T) :=
    let! _ := guard RuntimeError (Nat.eqb (t_n cp) (t_n cc)) in
    let! _ := guard RuntimeError
                (Nat.eqb (length (t_temps cp)) (length (t_temps cc))) in
    let! _ := guard RuntimeError (Nat.eqb (t_n hp) (t_n hc)) in
    let! _ := guard RuntimeError
                (Nat.eqb (length (t_temps hp)) (length (t_temps hc))) in
    Ok (mkPerf cc cp hc hp (t_n cc) (t_n hc)).

  (** tabular_data.py:250-270.  The quotients are numpy divisions: a zero power
      gives inf or nan there and ZeroDivisionError in the model. *)
  Definition cooling_capacity (p : perf T) (speed temp : T) : res T :=
    calculate speed temp (p_cc p).
  Definition cooling_power (p : perf T) (speed temp : T) : res T :=
    calculate speed temp (p_cp p).
  Definition cooling_cop (p : perf T) (speed temp : T) : res T :=
    let! a := cooling_capacity p speed temp in
    let! b := cooling_power p speed temp in a /? b.
  Definition heating_capacity (p : perf T) (speed temp : T) : res T :=
    calculate speed temp (p_hc p).
  Definition heating_power (p : perf T) (speed temp : T) : res T :=
    calculate speed temp (p_hp p).
  Definition heating_cop (p : perf T) (speed temp : T) : res T :=
    let! a := heating_capacity p speed temp in
    let! b := heating_power p speed temp in a /? b.

  (** Run a method on one of the tables. *)
  Definition on_cc (m : st Tb unit) : st (perf T) unit :=
    fun p => let (t, r) := m (p_cc p) in
             (mkPerf t (p_cp p) (p_hc p) (p_hp p) (p_nc p) (p_nh p), r).
  Definition on_cp (m : st Tb unit) : st (perf T) unit :=
    fun p => let (t, r) := m (p_cp p) in
             (mkPerf (p_cc p) t (p_hc p) (p_hp p) (p_nc p) (p_nh p), r).
  Definition on_hc (m : st Tb unit) : st (perf T) unit :=
    fun p => let (t, r) := m (p_hc p) in
             (mkPerf (p_cc p) (p_cp p) t (p_hp p) (p_nc p) (p_nh p), r).
  Definition on_hp (m : st Tb unit) : st (perf T) unit :=
    fun p => let (t, r) := m (p_hp p) in
             (mkPerf (p_cc p) (p_cp p) (p_hc p) t (p_nc p) (p_nh p), r).

  (** tabular_data.py:272-282 *)
  Definition make_gross (cooling_fan_powers heating_fan_powers : list T)
      : st (perf T) unit :=
    on_cc (apply_fan_power_correction (map nopp cooling_fan_powers)) ;;;
    on_cp (apply_fan_power_correction cooling_fan_powers) ;;;
    on_hc (apply_fan_power_correction heating_fan_powers) ;;;
    on_hp (apply_fan_power_correction heating_fan_powers).

  (** Run a method on a local table: after an exception the table is lost. *)
  Definition ex {S} (m : st S unit) (s : S) : res S :=
    match m s with (s', Ok _) => Ok s' | (_, Err e) => Err e end.

  (** [set_interpolator] on the four tables, then the constructor. *)
  Definition finish (qc pc qh ph : Tb) : res (perf T) :=
    let! qc := ex set_interpolator qc in
    let! pc := ex set_interpolator pc in
    let! qh := ex set_interpolator qh in
    let! ph := ex set_interpolator ph in
    make_perf qc pc qh ph.

  (** tabular_data.py:285-494.  [heating_capacity_17] may be [None].  A [None]
      cooling temperature limit etc. does not occur: the defaults are numbers. *)
  Definition make_neep_statistical_model_data
      (cooling_capacity_95 seer2 eer2 heating_capacity_47 : T)
      (heating_capacity_17 : option T) (hspf2 : T)
      (max_cooling_temperature min_heating_temperature : T)
      (cooling_capacity_ratio cooling_cop_82_min heating_cop_47 : option T)
      : res (perf T) :=
    let t_60 := fr_F (lit 60) in
    let t_82 := fr_F (lit 82) in
    let t_95 := fr_F (lit 95) in
    let Qr95rated := lit 0.934 in
    let Qm95max := lit 0.940 in
    let Qm95min := lit 0.948 in
    let EIRr95rated := lit 0.928 in
    let EIRm95max := lit 1.326 in
    let EIRm95min := lit 1.315 in
    let qc := new_table CoolingTable [t_82; t_95] 3 None in
    let pc := new_table CoolingTable [t_82; t_95] 3 None in
    let! qc := ex (t_set 2 t_95 cooling_capacity_95 ;;;
                   set_by_ratio 3 t_95 Qr95rated ;;;
                   set_by_maintenance 3 t_82 t_95 Qm95max) qc in
    let Pr95rated := Qr95rated * EIRr95rated in
    let Pm95min := Qm95min * EIRm95min in
    let Pm95max := Qm95max * EIRm95max in
    let! q2_95 := t_getv 2 t_95 qc in
    let! p2_95 := q2_95 /? fr_Btu_Wh eer2 in
    let! pc := ex (t_set 2 t_95 p2_95 ;;;
                   set_by_ratio 3 t_95 Pr95rated ;;;
                   set_by_maintenance 3 t_82 t_95 Pm95max) pc in
    let! ce := match cooling_cop_82_min with
               | None =>
                   let! sr := (lit 0.324 * seer2) /? eer2 in
                   let e := bracket (lit 1.305 - sr) (Some (lit 0.2)) (Some (lit 1)) in
                   let! q := t_getv 3 t_82 qc in
                   let! p := t_getv 3 t_82 pc in
                   let! r := q /? p in
                   let! c := r /? e in
                   Ok (c, e)
               | Some c =>
                   let! q := t_getv 3 t_82 qc in
                   let! p := t_getv 3 t_82 pc in
                   let! r := q /? p in
                   let! e := r /? c in
                   Ok (c, e)
               end in
    let cop_82_min := fst ce in
    let EIRr82min := snd ce in
    let Qr95min := match cooling_capacity_ratio with
                   | Some r => r
                   | None =>
                       bracket (lit 0.510
                                - lit 0.119 * (EIRr82min - lit 1.305) / lit (-0.324))
                         (Some (lit 0.1)) (Some Qr95rated)
                   end in
    let! qc := ex (set_by_ratio 1 t_95 Qr95min ;;;
                   set_by_maintenance 1 t_82 t_95 Qm95min ;;;
                   set_by_interpolation 2 t_82) qc in
    let! q1_82 := t_getv 1 t_82 qc in
    let! p1_82 := q1_82 /? cop_82_min in
    let! pc := ex (t_set 1 t_82 p1_82 ;;;
                   set_by_maintenance 1 t_95 t_82 Pm95min ;;;
                   set_by_interpolation 2 t_82) pc in
    let! qc := ex (add_temperature t_60 true (Some (lit 0.5))) qc in
    let! pc := ex (add_temperature t_60 true (Some (lit 0.5))) pc in
    let! qc := ex (add_temperature max_cooling_temperature true None) qc in
    let! pc := ex (add_temperature max_cooling_temperature true None) pc in
    (* heating *)
    let t_min := min_heating_temperature in
    let t_5 := fr_F (lit 5) in
    let t_17 := fr_F (lit 17) in
    let t_47 := fr_F (lit 47) in
    let t_h := [t_min; t_5; t_17; t_47] in
    let! Qm17rated := match heating_capacity_17 with
                      | Some c => c /? heating_capacity_47
                      | None => Ok (lit 0.689)
                      end in
    let qh := new_table HeatingTable t_h 3 None in
    let ph := new_table HeatingTable t_h 3 None in
    let! qh := ex (t_set 2 t_47 heating_capacity_47 ;;;
                   set_by_ratio 3 t_47 (lit 0.908) ;;;
                   set_by_ratio 1 t_47 (lit 0.272) ;;;
                   set_by_maintenance 2 t_17 t_47 Qm17rated ;;;
                   set_by_ratio 3 t_17 (lit 0.817) ;;;
                   set_by_ratio 1 t_17 (lit 0.341) ;;;
                   set_by_maintenance 3 t_5 t_17 (lit 0.866) ;;;
                   set_by_ratio 2 t_5 (lit 0.988) ;;;
                   set_by_ratio 1 t_5 (lit 0.321)) qh in
    let! QmLCTmax := lit 1 /? (lit 1 - fr_per_F (lit (-0.025)) * (t_5 - t_min)) in
    let! QmLCTmin := lit 1 /? (lit 1 - fr_per_F (lit (-0.024)) * (t_5 - t_min)) in
    let! qh := ex (set_by_maintenance 3 t_min t_5 QmLCTmax ;;;
                   set_by_maintenance 1 t_min t_5 QmLCTmin ;;;
                   set_by_interpolation 2 t_min ;;;
                   add_temperature t_60 false None) qh in
    let cop_47 := match heating_cop_47 with
                  | Some c => c
                  | None => lit 2.837 + lit 0.066 * hspf2
                  end in
    let! q2_47 := t_getv 2 t_47 qh in
    let! p2_47 := q2_47 /? cop_47 in
    let! ph := ex (t_set 2 t_47 p2_47 ;;;
                   set_by_ratio 3 t_47 (lit 0.908 * lit 0.939) ;;;
                   set_by_ratio 1 t_47 (lit 0.272 * lit 0.730) ;;;
                   set_by_maintenance 2 t_17 t_47 (Qm17rated * lit 1.351) ;;;
                   set_by_ratio 3 t_17 (lit 0.817 * lit 0.902) ;;;
                   set_by_ratio 1 t_17 (lit 0.341 * lit 0.798) ;;;
                   set_by_maintenance 3 t_5 t_17 (lit 0.866 * lit 1.164) ;;;
                   set_by_ratio 2 t_5 (lit 0.988 * lit 1.000) ;;;
                   set_by_ratio 1 t_5 (lit 0.321 * lit 0.866)) ph in
    let! EIRmLCTmax := lit 1 /? (lit 1 - fr_per_F (lit 0.012) * (t_5 - t_min)) in
    let! EIRmLCTmin := lit 1 /? (lit 1 - fr_per_F (lit 0.012) * (t_5 - t_min)) in
    let! mmax := get_maintenance 3 t_min t_5 qh in
    let! mmin := get_maintenance 1 t_min t_5 qh in
    let! ph := ex (set_by_maintenance 3 t_min t_5 (EIRmLCTmax * mmax) ;;;
                   set_by_maintenance 1 t_min t_5 (EIRmLCTmin * mmin) ;;;
                   set_by_interpolation 2 t_min ;;;
                   add_temperature t_60 false None) ph in
    finish qc pc qh ph.

  (** tabular_data.py:592-715 *)
  Definition make_single_speed_model_data
      (cooling_capacity_95 seer2 eer2 heating_capacity_47 : T)
      (heating_capacity_17 : option T) (hspf2 : T)
      (max_cooling_temperature min_heating_temperature : T)
      (heating_cop_47 : option T) (cycling_degradation_coefficient : T)
      : res (perf T) :=
    let t_60 := fr_F (lit 60) in
    let t_82 := fr_F (lit 82) in
    let t_95 := fr_F (lit 95) in
    let! Qm95rated := lit 1 /? calc_biquad COOLING_CAP_FT (lit 67) (lit 82) in
    let qc := new_table CoolingTable [t_82; t_95] 1 None in
    let pc := new_table CoolingTable [t_82; t_95] 1 None in
    let! qc := ex (t_set 1 t_95 cooling_capacity_95 ;;;
                   set_by_maintenance 1 t_82 t_95 Qm95rated) qc in
    let! q95 := t_getv 1 t_95 qc in
    let! p95 := q95 /? fr_Btu_Wh eer2 in
    let! pc := ex (t_set 1 t_95 p95) pc in
    let! eer2_b := seer2 /? (lit 1 - lit 0.5 * cycling_degradation_coefficient) in
    let! q82 := t_getv 1 t_82 qc in
    let! p82 := q82 /? fr_Btu_Wh eer2_b in
    let! pc := ex (t_set 1 t_82 p82) pc in
    let! qc := ex (add_temperature t_60 true (Some (lit 0.5))) qc in
    let! pc := ex (add_temperature t_60 true (Some (lit 0.5))) pc in
    let! qc := ex (add_temperature max_cooling_temperature true None) qc in
    let! pc := ex (add_temperature max_cooling_temperature true None) pc in
    (* heating *)
    let t_min := min_heating_temperature in
    let t_5 := fr_F (lit 5) in
    let t_17 := fr_F (lit 17) in
    let t_47 := fr_F (lit 47) in
    let EIRm17rated := calc_biquad HEATING_EIR_FT (lit 70) (lit 17) in
    let! Qm17rated := match heating_capacity_17 with
                      | Some c => c /? heating_capacity_47
                      | None => Ok (lit 0.626)
                      end in
    let qh := new_table HeatingTable [t_17; t_47] 1 None in
    let ph := new_table HeatingTable [t_17; t_47] 1 None in
    let! qh := ex (t_set 1 t_47 heating_capacity_47 ;;;
                   set_by_maintenance 1 t_17 t_47 Qm17rated ;;;
                   add_temperature t_5 true None ;;;
                   add_temperature t_min true None ;;;
                   add_temperature t_60 false None) qh in
    let cop_47 := match heating_cop_47 with
                  | Some c => c
                  | None => lit 2.837 + lit 0.066 * hspf2
                  end in
    let Pm17rated := Qm17rated * EIRm17rated in
    let! q47 := t_getv 1 t_47 qh in
    let! p47 := q47 /? cop_47 in
    let! ph := ex (t_set 1 t_47 p47 ;;;
                   set_by_maintenance 1 t_17 t_47 Pm17rated ;;;
                   add_temperature t_5 true None ;;;
                   add_temperature t_min true None ;;;
                   add_temperature t_60 false None) ph in
    finish qc pc qh ph.

  (** tabular_data.py:718-856 *)
  Definition make_two_speed_model_data
      (cooling_capacity_95 seer2 eer2 heating_capacity_47 : T)
      (heating_capacity_17 : option T) (hspf2 : T)
      (max_cooling_temperature min_heating_temperature : T)
      (cooling_cop_82_min heating_cop_47 : option T) : res (perf T) :=
    let t_60 := fr_F (lit 60) in
    let t_82 := fr_F (lit 82) in
    let t_95 := fr_F (lit 95) in
    let! Qm95rated := lit 1 /? calc_biquad COOLING_CAP_FT (lit 67) (lit 82) in
    let! EIRm95rated := lit 1 /? calc_biquad COOLING_EIR_FT (lit 67) (lit 82) in
    let QrCmin := lit 0.728 in
    let qc := new_table CoolingTable [t_82; t_95] 2 None in
    let pc := new_table CoolingTable [t_82; t_95] 2 None in
    let! qc := ex (t_set 2 t_95 cooling_capacity_95 ;;;
                   set_by_ratio 1 t_95 QrCmin ;;;
                   set_by_maintenance 2 t_82 t_95 Qm95rated ;;;
                   set_by_ratio 1 t_82 QrCmin) qc in
    let Pm95rated := Qm95rated * EIRm95rated in
    let cop_82_min := match cooling_cop_82_min with
                      | Some c => c
                      | None => seer2 / lit 2
                      end in
    let! q2_95 := t_getv 2 t_95 qc in
    let! p2_95 := q2_95 /? fr_Btu_Wh eer2 in
    let! pc := ex (t_set 2 t_95 p2_95 ;;;
                   set_by_maintenance 2 t_82 t_95 Pm95rated) pc in
    let! q1_82 := t_getv 1 t_82 qc in
    let! p1_82 := q1_82 /? cop_82_min in
    let! pc := ex (t_set 1 t_82 p1_82 ;;;
                   set_by_maintenance 1 t_95 t_82 Pm95rated) pc in
    let! qc := ex (add_temperature t_60 true (Some (lit 0.5))) qc in
    let! pc := ex (add_temperature t_60 true (Some (lit 0.5))) pc in
    let! qc := ex (add_temperature max_cooling_temperature true None) qc in
    let! pc := ex (add_temperature max_cooling_temperature true None) pc in
    (* heating *)
    let t_min := min_heating_temperature in
    let t_5 := fr_F (lit 5) in
    let t_17 := fr_F (lit 17) in
    let t_47 := fr_F (lit 47) in
    let QrHmin := lit 0.712 in
    let EIRrHmin := lit 0.850 in
    let EIRm17rated := calc_biquad HEATING_EIR_FT (lit 70) (lit 17) in
    let! Qm17rated := match heating_capacity_17 with
                      | Some c => c /? heating_capacity_47
                      | None => Ok (lit 0.626)
                      end in
    let qh := new_table HeatingTable [t_17; t_47] 2 None in
    let ph := new_table HeatingTable [t_17; t_47] 2 None in
    let! qh := ex (t_set 2 t_47 heating_capacity_47 ;;;
                   set_by_ratio 1 t_47 QrHmin ;;;
                   set_by_maintenance 2 t_17 t_47 Qm17rated ;;;
                   set_by_ratio 1 t_17 QrHmin ;;;
                   add_temperature t_5 true None ;;;
                   add_temperature t_min true None ;;;
                   add_temperature t_60 false None) qh in
    let cop_47 := match heating_cop_47 with
                  | Some c => c
                  | None => lit 2.837 + lit 0.066 * hspf2
                  end in
    let Pm17rated := Qm17rated * EIRm17rated in
    let PrHmin := QrHmin * EIRrHmin in
    let! q47 := t_getv 2 t_47 qh in
    let! p47 := q47 /? cop_47 in
    let! ph := ex (t_set 2 t_47 p47 ;;;
                   set_by_ratio 1 t_47 PrHmin ;;;
                   set_by_maintenance 2 t_17 t_47 Pm17rated ;;;
                   set_by_ratio 1 t_17 PrHmin ;;;
                   add_temperature t_5 true None ;;;
                   add_temperature t_min true None ;;;
                   add_temperature t_60 false None) ph in
    finish qc pc qh ph.

  (** The caller's four lists of [make_neep_model_data]. *)
  Record neep_args := mkNeep {
    n_cc : list (list (option T));
    n_cp : list (list (option T));
    n_hc : list (list (option T));
    n_hp : list (list (option T))
  }.

  (** tabular_data.py:507-525: every entry that is not [None] is converted in
      place. *)
  Definition convert_all (f : T -> T) (d : list (list (option T)))
      : list (list (option T)) := map (map (option_map f)) d.

  (** tabular_data.py:542-553: the tables keep the caller's list objects, so
      what happens to [table.data] happens to the caller's lists.  [with_data]
      runs a method on the table whose data is the caller's list [get a]; the
      temperatures and interpolator live in the first component.  (The four
      lists and their rows are taken to be distinct objects.) *)
  Record neep_tables := mkNT { nt_cc : Tb; nt_cp : Tb; nt_hc : Tb; nt_hp : Tb }.
  Definition nt_args (x : neep_tables) : neep_args :=
    mkNeep (t_data (nt_cc x)) (t_data (nt_cp x)) (t_data (nt_hc x)) (t_data (nt_hp x)).

  Definition onq_c (m : st Tb unit) : st neep_tables unit :=
    fun x => let (t, r) := m (nt_cc x) in (mkNT t (nt_cp x) (nt_hc x) (nt_hp x), r).
  Definition onp_c (m : st Tb unit) : st neep_tables unit :=
    fun x => let (t, r) := m (nt_cp x) in (mkNT (nt_cc x) t (nt_hc x) (nt_hp x), r).
  Definition onq_h (m : st Tb unit) : st neep_tables unit :=
    fun x => let (t, r) := m (nt_hc x) in (mkNT (nt_cc x) (nt_cp x) t (nt_hp x), r).
  Definition onp_h (m : st Tb unit) : st neep_tables unit :=
    fun x => let (t, r) := m (nt_hp x) in (mkNT (nt_cc x) (nt_cp x) (nt_hc x) t, r).

  (** tabular_data.py:555-589, on the four tables *)
  Definition neep_body (lct : option T) (max_cooling_temperature
      min_heating_temperature : T) : st neep_tables (perf T) :=
    let t_60 := fr_F (lit 60) in
    let t_82 := fr_F (lit 82) in
    let t_5 := fr_F (lit 5) in
    onq_c (set_by_interpolation 2 t_82) ;;;
    onp_c (set_by_interpolation 2 t_82) ;;;
    onq_c (add_temperature t_60 true (Some (lit 0.5))) ;;;
    onp_c (add_temperature t_60 true (Some (lit 0.5))) ;;;
    onq_c (add_temperature max_cooling_temperature true None) ;;;
    onp_c (add_temperature max_cooling_temperature true None) ;;;
    do q5 <- sread (fun x => t_get 2 t_5 (nt_hc x)) ;;
    match q5 with None => onq_h (set_by_interpolation 2 t_5) | Some _ => sret tt end ;;;
    do p5 <- sread (fun x => t_get 2 t_5 (nt_hp x)) ;;
    match p5 with None => onp_h (set_by_interpolation 2 t_5) | Some _ => sret tt end ;;;
    match lct with
    | Some l =>
        let t_lct := fr_F l in
        onq_h (set_by_interpolation 2 t_lct) ;;;
        onp_h (set_by_interpolation 2 t_lct) ;;;
        (if min_heating_temperature <? t_lct
         then onq_h (add_temperature min_heating_temperature true None) ;;;
              onp_h (add_temperature min_heating_temperature true None)
         else sret tt)
    | None =>
        onq_h (add_temperature min_heating_temperature true None) ;;;
        onp_h (add_temperature min_heating_temperature true None)
    end ;;;
    onq_h (add_temperature t_60 false None) ;;;
    onp_h (add_temperature t_60 false None) ;;;
    onq_c set_interpolator ;;;
    onp_c set_interpolator ;;;
    onq_h set_interpolator ;;;
    onp_h set_interpolator ;;;
    sread (fun x => make_perf (nt_cc x) (nt_cp x) (nt_hc x) (nt_hp x)).

  (** tabular_data.py:497-589, as a procedure on the caller's lists. *)
  Definition make_neep_model_data (lct : option T)
      (max_cooling_temperature min_heating_temperature : T)
      : st neep_args (perf T) :=
    fun a =>
      let cc := convert_all fr_Btuh (n_cc a) in
      let cp := convert_all (fun x => x * lit 1000) (n_cp a) in
      let hc := convert_all fr_Btuh (n_hc a) in
      let hp := convert_all (fun x => x * lit 1000) (n_hp a) in
      let ct := [fr_F (lit 82); fr_F (lit 95)] in
      let ht0 := [fr_F (lit 5); fr_F (lit 17); fr_F (lit 47)] in
      let ht := match lct with Some l => fr_F l :: ht0 | None => ht0 end in
      let x := mkNT (new_table CoolingTable ct 3 (Some cc))
                    (new_table CoolingTable ct 3 (Some cp))
                    (new_table HeatingTable ht 3 (Some hc))
                    (new_table HeatingTable ht 3 (Some hp)) in
      let (x', r) := neep_body lct max_cooling_temperature min_heating_temperature x in
      (nt_args x', r).
End Perf.
Arguments mkNeep {T}. Arguments n_cc {T}. Arguments n_cp {T}.
Arguments n_hc {T}. Arguments n_hp {T}.
