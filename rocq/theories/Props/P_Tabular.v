(** Properties C20-C27: performance tables (models/tabular_data.py). *)
From Coq Require Import Reals QArith Lra Lia List Bool Sorted ZArith.
From Verif.Base Require Import Num Res Tac.
From Verif.Model Require Import Units Util Curves Tabular.
From Verif.Spec Require Import TabularSpec.
From Verif.Proofs Require Import UnitsR TabCells TabAdd TabInterp TabGross TabBuild TabTotal TabNeep TabNeep2 TabMisc.
Import ListNotations.
Local Open Scope R_scope.

(** ** C20: cells *)
Theorem C20_get_returns_what_was_set : forall s x v t t',
  t_set (T:=R) s x v t = (t', Ok tt) -> t_get s x t' = Ok (Some v).
Proof. exact set_get. Qed.
Print Assumptions C20_get_returns_what_was_set.

Theorem C20_set_accepts_every_cell : forall s x v t,
  wf_table t -> In x (t_temps t) -> valid_speed t s ->
  exists t', t_set s x v t = (t', Ok tt).
Proof. exact set_total. Qed.
Print Assumptions C20_set_accepts_every_cell.

Theorem C20_only_one_cell_changes : forall s x m t t' r,
  wf_table t -> valid_speed t s -> setter s x m -> m t = (t', r) ->
  wf_table t' /\ changes_only s x t t'.
Proof. exact setter_frame. Qed.
Print Assumptions C20_only_one_cell_changes.

Theorem C20_failed_set_changes_nothing : forall s x m t t' e,
  setter s x m -> m t = (t', Err e) -> t' = t.
Proof. exact setter_err_unchanged. Qed.
Print Assumptions C20_failed_set_changes_nothing.

Theorem C20_absent_temperature_raises : forall s x v t,
  ~ In x (t_temps t) ->
  t_set (T:=R) s x v t = (t, Err ValueError) /\ t_get s x t = Err ValueError
  /\ forall m, setter s x m -> exists e, m t = (t, Err e).
Proof. exact absent_raises. Qed.
Print Assumptions C20_absent_temperature_raises.

Theorem C20_speed_above_last_raises : forall s x v t,
  wf_table t -> In x (t_temps t) -> (Z.of_nat (t_n t) < s)%Z ->
  t_set s x v t = (t, Err IndexError) /\ t_get s x t = Err IndexError
  /\ forall m, setter s x m -> exists e, m t = (t, Err e).
Proof. exact bad_speed_raises. Qed.
Print Assumptions C20_speed_above_last_raises.

(** Speed 0 (and below) is not rejected: it addresses cells from the end. *)
Theorem C20_absent_speed_raises_refuted : forall x t,
  wf_table t -> In x (t_temps t) -> (1 <= t_n t)%nat ->
  t_get 0 x t = t_get (Z.of_nat (t_n t)) x t
  /\ (exists o, t_get 0 x t = Ok o)
  /\ forall v, exists t', t_set 0 x v t = (t', Ok tt)
       /\ t_get (Z.of_nat (t_n t)) x t' = Ok (Some v).
Proof. exact speed_zero. Qed.
Print Assumptions C20_absent_speed_raises_refuted.

Theorem C20_ratio_round_trip : forall s x r t t' m,
  wf_table t -> valid_speed t s -> (s < Z.of_nat (t_n t))%Z ->
  set_by_ratio s x r t = (t', Ok tt) ->
  t_get (Z.of_nat (t_n t)) x t = Ok (Some m) ->
  t_get s x t' = Ok (Some (m * r)) /\ (m <> 0 -> get_ratio s x t' = Ok r).
Proof. exact ratio_get. Qed.
Print Assumptions C20_ratio_round_trip.

Theorem C20_ratio_at_last_speed : forall x r t t' m,
  wf_table t -> (2 <= t_n t)%nat ->
  set_by_ratio (Z.of_nat (t_n t)) x r t = (t', Ok tt) ->
  t_get (Z.of_nat (t_n t) - 1) x t = Ok (Some m) ->
  t_get (Z.of_nat (t_n t)) x t' = Ok (Some (m / r))
  /\ (m <> 0 -> get_ratio (Z.of_nat (t_n t) - 1) x t' = Ok r).
Proof. exact ratio_get_max. Qed.
Print Assumptions C20_ratio_at_last_speed.

(** A single-speed table: the cell is divided by the ratio, and [get_ratio]
    is 1 whatever the ratio was. *)
Theorem C20_ratio_round_trip_single_speed_refuted : forall x r t t' m,
  t_n t = 1%nat -> wf_table t ->
  set_by_ratio 1 x r t = (t', Ok tt) -> t_get 1 x t = Ok (Some m) -> m <> 0 ->
  t_get 1 x t' = Ok (Some (m / r)) /\ get_ratio 1 x t' = Ok 1.
Proof. exact ratio_single_one. Qed.
Print Assumptions C20_ratio_round_trip_single_speed_refuted.

Theorem C20_maintenance_round_trip : forall s x ref r t t' v,
  wf_table t -> x <> ref -> set_by_maintenance s x ref r t = (t', Ok tt) ->
  t_get s ref t = Ok (Some v) -> v <> 0 ->
  match t_kind t with
  | BaseTable => False
  | CoolingTable => get_maintenance s (Rmax x ref) (Rmin x ref) t' = Ok r
  | HeatingTable => get_maintenance s (Rmin x ref) (Rmax x ref) t' = Ok r
  end /\ t_get s ref t' = Ok (Some v).
Proof. exact maint_get. Qed.
Print Assumptions C20_maintenance_round_trip.

Definition tab_ex (k : table_kind) : table R :=
  new_table k [300; 310; 320] 2
    (Some [[Some 10; Some 20]; [Some 12; Some 25]; [Some 16; Some 26]]).

Example C20_table_ok k : wf_table (tab_ex k) /\ filled (tab_ex k)
  /\ valid_speed (tab_ex k) 1 /\ valid_speed (tab_ex k) 2.
Proof.
  split; [|split; [|split; split; cbn; lia]].
  - split; [repeat constructor; lra|]. split; [reflexivity|]. repeat constructor.
  - repeat constructor; discriminate.
Qed.

Example C20_get_in_table k : t_get 1 310 (tab_ex k) = Ok (Some 12)
  /\ t_get 2 310 (tab_ex k) = Ok (Some 25) /\ t_get 2 320 (tab_ex k) = Ok (Some 26)
  /\ t_get 1 300 (tab_ex k) = Ok (Some 10) /\ t_get 2 300 (tab_ex k) = Ok (Some 20)
  /\ t_get 1 320 (tab_ex k) = Ok (Some 16).
Proof.
  pose proof (proj1 (C20_table_ok k)) as W.
  repeat split.
  - exact (get_nth2 (tab_ex k) 1 310 0 W eq_refl).
  - exact (get_nth2 (tab_ex k) 1 310 1 W eq_refl).
  - exact (get_nth2 (tab_ex k) 2 320 1 W eq_refl).
  - exact (get_nth2 (tab_ex k) 0 300 0 W eq_refl).
  - exact (get_nth2 (tab_ex k) 0 300 1 W eq_refl).
  - exact (get_nth2 (tab_ex k) 2 320 0 W eq_refl).
Qed.

Definition tab_cells : list (Z * R * R) :=
  [(1%Z, 300, 10); (2%Z, 300, 20); (1%Z, 320, 16); (2%Z, 320, 26)].

Example C20_known k : kt k 2 [300; 310; 320] (tab_ex k) tab_cells.
Proof.
  destruct (C20_table_ok k) as (W & _). destruct (C20_get_in_table k) as (G1 & G2 & G3 & G4 & G5 & G6).
  split; [|reflexivity]. split; [exact W|]. split; [reflexivity|]. split; [reflexivity|].
  intros s x v H. cbn [In tab_cells] in H.
  repeat (destruct H as [H|H]; [inversion H; subst; split; [cbn; lia|assumption]|]). contradiction.
Qed.

(** The setters succeed on it: ratio at the first and at the last speed,
    maintenance. *)
Example C20_ratio_nonvacuous :
  exists t', set_by_ratio 1 300 0.7 (tab_ex CoolingTable) = (t', Ok tt).
Proof.
  pose proof (kt_weaken _ _ _ _ _ [(2%Z, 300, 20)] (C20_known CoolingTable)) as K.
  destruct (tot_ratio CoolingTable 2 _ _ _ 1 300 0.7 20 (K ltac:(cbn [In tab_cells]; intuition)))
    as (t' & E & _); [lia|inlist|notin|].
  exists t'. apply ex_ok. exact E.
Qed.

Example C20_ratio_last_nonvacuous :
  exists t', set_by_ratio 2 300 0.7 (tab_ex CoolingTable) = (t', Ok tt).
Proof.
  pose proof (kt_weaken _ _ _ _ _ [(1%Z, 300, 10)] (C20_known CoolingTable)) as K.
  destruct (tot_ratio_max CoolingTable 2 _ _ _ 2 300 0.7 10 (K ltac:(cbn [In tab_cells]; intuition)))
    as (t' & E & _); [lia|lia|inlist|lra|notin|].
  exists t'. apply ex_ok. exact E.
Qed.

Example C20_maintenance_nonvacuous :
  exists t', set_by_maintenance 1 320 300 0.9 (tab_ex HeatingTable) = (t', Ok tt).
Proof.
  pose proof (kt_weaken _ _ _ _ _ [(1%Z, 300, 10)] (C20_known HeatingTable)) as K.
  destruct (tot_maint HeatingTable 2 _ _ _ 1 320 300 0.9 10 (K ltac:(cbn [In tab_cells]; intuition)))
    as (t' & E & _); [discriminate|lia|inlist|cbn; tauto|lra|lra|notin|].
  exists t'. apply ex_ok. exact E.
Qed.

(** ** C21: adding a temperature *)
Theorem C21_add_temperature_keeps_table : forall t t' x ext lim r,
  wf_table t -> add_temperature x ext lim t = (t', r) ->
  wf_table t'
  /\ t_n t' = t_n t /\ t_kind t' = t_kind t /\ t_interp t' = t_interp t
  /\ (forall y, In y (t_temps t') <-> y = x \/ In y (t_temps t))
  /\ (forall y s, In y (t_temps t) -> t_get s y t' = t_get s y t)
  /\ (In x (t_temps t) -> r = Err RuntimeError /\ t' = t).
Proof. exact add_wf. Qed.
Print Assumptions C21_add_temperature_keeps_table.

(** ** C22: beyond the ends *)
Theorem C22_extrapolated_row_below_keeps_map : forall t ti t1 t1i x u1 u2 l,
  wf_table t -> filled t -> t_temps t = u1 :: u2 :: l -> x < u1 ->
  add_temperature x true None t = (t1, Ok tt) ->
  interpolated t ti -> interpolated t1 t1i ->
  forall z y, calculate z y t1i = calculate z y ti.
Proof. exact extend_below. Qed.
Print Assumptions C22_extrapolated_row_below_keeps_map.

Theorem C22_extrapolated_row_above_keeps_map : forall t ti t1 t1i x u1 u2 l,
  wf_table t -> filled t -> t_temps t = l ++ [u1; u2] -> u2 < x ->
  add_temperature x true None t = (t1, Ok tt) ->
  interpolated t ti -> interpolated t1 t1i ->
  forall z y, calculate z y t1i = calculate z y ti.
Proof. exact extend_above. Qed.
Print Assumptions C22_extrapolated_row_above_keeps_map.

Theorem C22_entry_below : forall t x u1 u2 l ext lim,
  wf_table t -> filled t -> t_temps t = u1 :: u2 :: l -> x < u1 ->
  exists t1, add_temperature x ext lim t = (t1, Ok tt) /\
    forall s v1 v2, valid_speed t s ->
    t_get s u1 t = Ok (Some v1) -> t_get s u2 t = Ok (Some v2) ->
    t_get s x t1 = Ok (Some (if (ext : bool)
                             then match lim with
                                  | Some r => Rmax (line u1 v1 u2 v2 x) (v1 * r)
                                  | None => line u1 v1 u2 v2 x
                                  end
                             else v1)).
Proof. exact below_entry. Qed.
Print Assumptions C22_entry_below.

Theorem C22_entry_above : forall t x u1 u2 l ext lim,
  wf_table t -> filled t -> t_temps t = l ++ [u1; u2] -> u2 < x ->
  exists t1, add_temperature x ext lim t = (t1, Ok tt) /\
    forall s v1 v2, valid_speed t s ->
    t_get s u1 t = Ok (Some v1) -> t_get s u2 t = Ok (Some v2) ->
    t_get s x t1 = Ok (Some (if (ext : bool)
                             then match lim with
                                  | Some r => Rmin (line u1 v1 u2 v2 x) (v2 * r)
                                  | None => line u1 v1 u2 v2 x
                                  end
                             else v2)).
Proof. exact above_entry. Qed.
Print Assumptions C22_entry_above.

(** The hypotheses of C21 and C22 hold of the table above. *)
Example C21_C22_nonvacuous : exists t1 ti t1i,
  add_temperature 290 true None (tab_ex CoolingTable) = (t1, Ok tt)
  /\ interpolated (tab_ex CoolingTable) ti /\ interpolated t1 t1i.
Proof.
  destruct (C20_table_ok CoolingTable) as (W & F & _).
  destruct (C22_entry_below (tab_ex CoolingTable) 290 300 310 [320] true None W F eq_refl)
    as (t1 & E & _); [lra|].
  destruct (interpolated_exists _ W F) as (ti & I); [discriminate|discriminate|].
  destruct (add_filled_below (tab_ex CoolingTable) t1 290 300 310 [320] None W F eq_refl) as (W1 & F1 & N1 & N2);
    [lra|discriminate|exact E|].
  destruct (interpolated_exists t1 W1 F1 N1 N2) as (t1i & I1).
  exists t1, ti, t1i. auto.
Qed.

(** ** C23: between two temperatures *)
Theorem C23_interior_row_interpolates_refuted : forall t t1 x u0 u1 l l' ext lim s v0 v1,
  wf_table t -> filled t -> t_temps t = l ++ u0 :: u1 :: l' ->
  u0 < x -> x < u1 -> valid_speed t s ->
  t_get s u0 t = Ok (Some v0) -> t_get s u1 t = Ok (Some v1) ->
  add_temperature x ext lim t = (t1, Ok tt) ->
  (t_get s x t1 = Ok (Some (line u0 v0 u1 v1 x)) <-> v0 = v1).
Proof. exact between_intended_iff. Qed.
Print Assumptions C23_interior_row_interpolates_refuted.

Theorem C23_interior_row_exactly : forall t t1 x u0 u1 l l' ext lim s v0 v1,
  wf_table t -> filled t -> t_temps t = l ++ u0 :: u1 :: l' ->
  u0 < x -> x < u1 -> valid_speed t s ->
  t_get s u0 t = Ok (Some v0) -> t_get s u1 t = Ok (Some v1) ->
  add_temperature x ext lim t = (t1, Ok tt) ->
  length l <> 1%nat /\
  t_get s x t1 = Ok (Some (match l with
                           | [] => v1
                           | _ => line u0 v0 (nth 1 (t_temps t) 0) v1 x
                           end)).
Proof. exact between_entry. Qed.
Print Assumptions C23_interior_row_exactly.

Theorem C23_second_interval_divides_by_zero : forall t x a u0 u1 l' ext lim,
  wf_table t -> filled t -> (0 < t_n t)%nat ->
  t_temps t = a :: u0 :: u1 :: l' -> u0 < x -> x < u1 ->
  exists t1, add_temperature x ext lim t = (t1, Err ZeroDivisionError).
Proof. exact between_second. Qed.
Print Assumptions C23_second_interval_divides_by_zero.

Theorem C23_other_intervals_succeed : forall t x u0 u1 l l' ext lim,
  wf_table t -> filled t -> t_temps t = l ++ u0 :: u1 :: l' ->
  u0 < x -> x < u1 -> length l <> 1%nat ->
  exists t1, add_temperature x ext lim t = (t1, Ok tt).
Proof. exact between_succeeds. Qed.
Print Assumptions C23_other_intervals_succeed.

(** 305 between 300 and 310: the new row repeats the row of 310. *)
Example C23_nonvacuous : exists t1,
  add_temperature 305 true None (tab_ex CoolingTable) = (t1, Ok tt)
  /\ t_get 1 305 t1 = Ok (Some 12) /\ line 300 10 310 12 305 = 11.
Proof.
  destruct (C20_table_ok CoolingTable) as (W & F & V & _).
  destruct (C20_get_in_table CoolingTable) as (G1 & _ & _ & G0 & _).
  destruct (C23_other_intervals_succeed (tab_ex CoolingTable) 305 300 310 [] [320] true None W F eq_refl)
    as (t1 & E); [lra|lra|discriminate|].
  exists t1. split; [exact E|]. split; [|unfold line; lra].
  destruct (C23_interior_row_exactly (tab_ex CoolingTable) t1 305 300 310 [] [320] true None 1 10 12 W F eq_refl
    ltac:(lra) ltac:(lra) V G0 G1 E) as (_ & H). exact H.
Qed.

(** ** C24: interpolation *)
Theorem C24_value_at_grid_points : forall t t' s x v,
  interpolated t t' -> valid_speed t s -> t_get s x t = Ok (Some v) ->
  calculate (IZR s) x t' = Ok v.
Proof. exact calc_node. Qed.
Print Assumptions C24_value_at_grid_points.

Theorem C24_bilinear_in_each_cell : forall t t' a b s v00 v01 v10 v11 z x,
  interpolated t t' ->
  consecutive (t_temps t) a b -> valid_speed t s -> valid_speed t (s + 1) ->
  t_get s a t = Ok (Some v00) -> t_get (s + 1) a t = Ok (Some v01) ->
  t_get s b t = Ok (Some v10) -> t_get (s + 1) b t = Ok (Some v11) ->
  (a <= x \/ forall y, In y (t_temps t) -> a <= y) ->
  (x <= b \/ forall y, In y (t_temps t) -> y <= b) ->
  (IZR s <= z \/ s = 1%Z) -> (z <= IZR (s + 1) \/ (s + 1)%Z = Z.of_nat (t_n t)) ->
  calculate z x t' =
    Ok (line a (line (IZR s) v00 (IZR (s + 1)) v01 z)
             b (line (IZR s) v10 (IZR (s + 1)) v11 z) x).
Proof. exact calc_cell. Qed.
Print Assumptions C24_bilinear_in_each_cell.

Theorem C24_between_surrounding_values : forall t t' a b s v00 v01 v10 v11 z x lo hi,
  interpolated t t' ->
  consecutive (t_temps t) a b -> valid_speed t s -> valid_speed t (s + 1) ->
  t_get s a t = Ok (Some v00) -> t_get (s + 1) a t = Ok (Some v01) ->
  t_get s b t = Ok (Some v10) -> t_get (s + 1) b t = Ok (Some v11) ->
  a <= x <= b -> IZR s <= z <= IZR (s + 1) ->
  lo <= v00 <= hi -> lo <= v01 <= hi -> lo <= v10 <= hi -> lo <= v11 <= hi ->
  exists v, calculate z x t' = Ok v /\ lo <= v <= hi.
Proof. exact calc_between. Qed.
Print Assumptions C24_between_surrounding_values.

Theorem C24_continuous : forall t t', interpolated t t' ->
  forall z x eps, 0 < eps -> exists d, 0 < d /\ forall z' x' v v',
    Rabs (z' - z) < d -> Rabs (x' - x) < d ->
    calculate z x t' = Ok v -> calculate z' x' t' = Ok v' -> Rabs (v' - v) < eps.
Proof. exact calc_continuous. Qed.
Print Assumptions C24_continuous.

Theorem C24_affine_in_temperature : forall t t' a b z,
  interpolated t t' -> consecutive (t_temps t) a b ->
  exists p q, forall x,
    (a <= x \/ forall y, In y (t_temps t) -> a <= y) ->
    (x <= b \/ forall y, In y (t_temps t) -> y <= b) ->
    calculate z x t' = Ok (p + q * x).
Proof. exact calc_affine. Qed.
Print Assumptions C24_affine_in_temperature.

Theorem C24_defined_everywhere : forall t t' z x,
  interpolated t t' -> exists v, calculate z x t' = Ok v.
Proof. exact calc_total. Qed.
Print Assumptions C24_defined_everywhere.

Theorem C24_well_formed_tables_interpolate : forall t,
  wf_table t -> filled t -> t_temps t <> [] -> t_n t <> 0%nat ->
  exists t', interpolated t t'.
Proof. exact interpolated_exists. Qed.
Print Assumptions C24_well_formed_tables_interpolate.

(** Half way between the grid points of the example table. *)
Example C24_nonvacuous : exists t', interpolated (tab_ex CoolingTable) t'
  /\ calculate 1.5 305 t' = Ok 16.75.
Proof.
  destruct (C20_table_ok CoolingTable) as (W & F & V1 & V2).
  destruct (C20_get_in_table CoolingTable) as (G1 & G2 & _ & G3 & G4 & _).
  destruct (C24_well_formed_tables_interpolate _ W F) as (t' & I); [discriminate|discriminate|].
  exists t'. split; [exact I|].
  rewrite (C24_bilinear_in_each_cell _ _ 300 310 1 10 20 12 25 1.5 305 I); auto.
  - f_equal. unfold line. change (1 + 1)%Z with 2%Z. lra.
  - exists [], [320]. reflexivity.
  - left. lra.
  - left. lra.
Qed.

(** ** C25: net to gross *)
Theorem C25_gross_maps_shift_by_fan_power : forall cfp hfp fc fh p,
  up_to_date (p_cc p) -> up_to_date (p_cp p) -> up_to_date (p_hc p) -> up_to_date (p_hp p) ->
  piecewise_linear_in_speed cfp fc -> piecewise_linear_in_speed hfp fh ->
  let admissible := correctable (map Ropp cfp) (p_cc p) /\ correctable cfp (p_cp p)
                    /\ correctable hfp (p_hc p) /\ correctable hfp (p_hp p) in
  (admissible /\ exists p', make_gross cfp hfp p = (p', Ok tt) /\
     forall s x v,
       (cooling_capacity p s x = Ok v -> cooling_capacity p' s x = Ok (v + fc s)) /\
       (cooling_power p s x = Ok v -> cooling_power p' s x = Ok (v - fc s)) /\
       (heating_capacity p s x = Ok v -> heating_capacity p' s x = Ok (v - fh s)) /\
       (heating_power p s x = Ok v -> heating_power p' s x = Ok (v - fh s)))
  \/ (~ admissible /\ exists p', make_gross cfp hfp p = (p', Err AssertionError)).
Proof. exact make_gross_shift. Qed.
Print Assumptions C25_gross_maps_shift_by_fan_power.

(** Fan powers 1 and 3 at the two speeds are admissible for the example table
    (as each of the four tables); 11 is not. *)
Example C25_nonvacuous : exists t,
  up_to_date t /\ correctable [1; 3] t /\ correctable (map Ropp [1; 3]) t
  /\ ~ correctable [11; 3] t /\ piecewise_linear_in_speed [1; 3] (fun s => 2 * s - 1).
Proof.
  destruct (C20_table_ok CoolingTable) as (W & F & V1 & V2).
  destruct (C24_well_formed_tables_interpolate _ W F) as (t' & I); [discriminate|discriminate|].
  exists t'. split; [exact (interpolated_again _ _ I)|].
  assert (G : forall s x, t_get s x t' = t_get s x (tab_ex CoolingTable)) by exact (interpolated_get _ _ I).
  assert (N : t_n t' = 2%nat) by exact (interpolated_n _ _ I).
  assert (C : forall a b, a < 10 -> b < 20 -> correctable [a; b] t').
  { intros a b Ha Hb. split; [rewrite N; reflexivity|]. intros k p x v Hk Hg. rewrite G in Hg.
    pose proof (get_In _ _ _ _ Hg) as Hx. cbn [tab_ex new_table t_temps] in Hx.
    destruct (C20_get_in_table CoolingTable) as (G1 & G2 & G3 & G4 & G5 & G6).
    destruct k as [|[|k]]; [| |destruct k; discriminate]; simpl in Hk; inversion Hk; subst p;
      cbn [Z.of_nat Pos.of_succ_nat Pos.succ] in Hg;
      destruct Hx as [<-|[<-|[<-|[]]]]; rewrite ?G1, ?G2, ?G3, ?G4, ?G5, ?G6 in Hg; inversion Hg; lra. }
  split; [apply C; lra|]. split; [apply (C (- (1)) (- (3))); lra|]. split.
  - intros (_ & Q). specialize (Q 0%nat 11 300 10 eq_refl). rewrite G in Q.
    specialize (Q (proj1 (proj2 (proj2 (proj2 (C20_get_in_table CoolingTable)))))). lra.
  - split; [|split].
    + intros [|[|k]] v H; simpl in H; [| |destruct k; discriminate]; inversion H; subst; simpl; lra.
    + discriminate.
    + intros [|[|k]] a b H1 H2 s H3 H4; simpl in H1, H2; try discriminate; try (destruct k; discriminate).
      inversion H1; inversion H2; subst. unfold line. simpl. field.
Qed.

(** ** C26: tables derived from ratings *)
Theorem C26_single_speed_data_reproduces_ratings :
  forall q95 seer eer q47 q17 hspf tmax tmin cop47 cd p,
  make_single_speed_model_data q95 seer eer q47 q17 hspf tmax tmin cop47 cd = Ok p ->
  q95 <> 0 -> q47 <> 0 ->
  cooling_capacity p 1 (fr_F 95) = Ok q95
  /\ cooling_cop p 1 (fr_F 95) = Ok (fr_Btu_Wh eer)
  /\ (exists c, cooling_cop p 1 (fr_F 82) = Ok c /\ (1 - 0.5 * cd) * c = fr_Btu_Wh seer)
  /\ heating_capacity p 1 (fr_F 47) = Ok q47
  /\ (forall c, q17 = Some c -> heating_capacity p 1 (fr_F 17) = Ok c)
  /\ heating_cop p 1 (fr_F 47) =
       Ok (match cop47 with Some c => c | None => 2.837 + 0.066 * hspf end).
Proof. exact single_reproduces. Qed.
Print Assumptions C26_single_speed_data_reproduces_ratings.

Theorem C26_two_speed_data_reproduces_ratings :
  forall q95 seer eer q47 q17 hspf tmax tmin cop82 cop47 p,
  make_two_speed_model_data q95 seer eer q47 q17 hspf tmax tmin cop82 cop47 = Ok p ->
  q95 <> 0 -> q47 <> 0 ->
  cooling_capacity p 2 (fr_F 95) = Ok q95
  /\ cooling_cop p 2 (fr_F 95) = Ok (fr_Btu_Wh eer)
  /\ cooling_cop p 1 (fr_F 82) = Ok (match cop82 with Some c => c | None => seer / 2 end)
  /\ heating_capacity p 2 (fr_F 47) = Ok q47
  /\ (forall c, q17 = Some c -> heating_capacity p 2 (fr_F 17) = Ok c)
  /\ heating_cop p 2 (fr_F 47) =
       Ok (match cop47 with Some c => c | None => 2.837 + 0.066 * hspf end).
Proof. exact two_reproduces. Qed.
Print Assumptions C26_two_speed_data_reproduces_ratings.

Theorem C26_variable_speed_data_reproduces_ratings :
  forall q95 seer eer q47 q17 hspf tmax tmin ratio cop82 cop47 p,
  make_neep_statistical_model_data q95 seer eer q47 q17 hspf tmax tmin ratio cop82 cop47 = Ok p ->
  tmin < fr_F 5 -> q95 <> 0 -> q47 <> 0 ->
  cooling_capacity p 2 (fr_F 95) = Ok q95
  /\ cooling_cop p 2 (fr_F 95) = Ok (fr_Btu_Wh eer)
  /\ (forall r, ratio = Some r -> exists q1 q3, cooling_capacity p 1 (fr_F 95) = Ok q1
        /\ cooling_capacity p 3 (fr_F 95) = Ok q3 /\ q1 = r * q3)
  /\ (forall c, cop82 = Some c -> (forall r, ratio = Some r -> r <> 0) ->
        cooling_cop p 1 (fr_F 82) = Ok c)
  /\ heating_capacity p 2 (fr_F 47) = Ok q47
  /\ (forall c, q17 = Some c -> heating_capacity p 2 (fr_F 17) = Ok c)
  /\ heating_cop p 2 (fr_F 47) =
       Ok (match cop47 with Some c => c | None => 2.837 + 0.066 * hspf end).
Proof. exact statistical_reproduces. Qed.
Print Assumptions C26_variable_speed_data_reproduces_ratings.

Theorem C26_single_speed_data_exists :
  forall q95 seer eer q47 q17 hspf tmax tmin cop47 cd,
  0 < q95 -> 0 < seer -> 0 < eer -> 0 < q47 -> (forall c, q17 = Some c -> 0 < c) -> 0 <= hspf ->
  fr_F 95 < tmax -> tmin < fr_F 5 -> (forall c, cop47 = Some c -> 0 < c) -> cd < 2 ->
  exists p, make_single_speed_model_data q95 seer eer q47 q17 hspf tmax tmin cop47 cd = Ok p.
Proof. exact single_total. Qed.
Print Assumptions C26_single_speed_data_exists.

Theorem C26_two_speed_data_exists :
  forall q95 seer eer q47 q17 hspf tmax tmin cop82 cop47,
  0 < q95 -> 0 < seer -> 0 < eer -> 0 < q47 -> (forall c, q17 = Some c -> 0 < c) -> 0 <= hspf ->
  fr_F 95 < tmax -> tmin < fr_F 5 -> (forall c, cop82 = Some c -> 0 < c) ->
  (forall c, cop47 = Some c -> 0 < c) ->
  exists p, make_two_speed_model_data q95 seer eer q47 q17 hspf tmax tmin cop82 cop47 = Ok p.
Proof. exact two_total. Qed.
Print Assumptions C26_two_speed_data_exists.

Theorem C26_variable_speed_data_exists :
  forall q95 seer eer q47 q17 hspf tmax tmin ratio cop82 cop47,
  0 < q95 -> 0 < seer -> 0 < eer -> 0 < q47 -> (forall c, q17 = Some c -> 0 < c) -> 0 <= hspf ->
  fr_F 95 < tmax -> fr_F (-78) <= tmin < fr_F 5 -> (forall r, ratio = Some r -> 0 < r < 1) ->
  (forall c, cop82 = Some c -> 1.326 * 0.928 * fr_Btu_Wh eer <= c) ->
  (forall c, cop47 = Some c -> 0 < c) ->
  exists p, make_neep_statistical_model_data q95 seer eer q47 q17 hspf tmax tmin ratio cop82 cop47 = Ok p.
Proof. exact statistical_total. Qed.
Print Assumptions C26_variable_speed_data_exists.

(** 10 kW, SEER2 14.3, EER2 11.5, HSPF2 7.5, limits 125 F and -20 F. *)
Example C26_nonvacuous :
  (exists p, make_single_speed_model_data 10000 14.3 11.5 10000 (Some 6500) 7.5 (fr_F 125) (fr_F (-20)) None 0.25 = Ok p)
  /\ (exists p, make_two_speed_model_data 10000 16 12 10000 None 8.5 (fr_F 125) (fr_F (-20)) None None = Ok p)
  /\ (exists p, make_neep_statistical_model_data 10000 19 12.8 10000 (Some 7000) 9 (fr_F 125) (fr_F (-20)) None None None = Ok p).
Proof.
  assert (fr_F 95 < fr_F 125) by (apply fr_F_lt; lra).
  assert (fr_F (-20) < fr_F 5) by (apply fr_F_lt; lra).
  assert (fr_F (-78) <= fr_F (-20)) by (apply fr_F_le; lra).
  split; [|split].
  - apply C26_single_speed_data_exists; auto; try lra; intros c E; inversion E; lra.
  - apply C26_two_speed_data_exists; auto; try lra; intros c E; inversion E; lra.
  - apply C26_variable_speed_data_exists; auto; try lra; intros c E; inversion E; lra.
Qed.

(** ** C27: the caller's lists *)
Theorem C27_first_call_returns_entries : forall a tmax tmin c1 oc c3 e1 e2 e3 c1' oc' c3' e1' e2' e3'
    h1 o h3 g1 g2 g3 f1 f2 f3 h1' o' h3' g1' g2' g3' f1' f2' f3',
  n_cc a = [[Some c1; oc; Some c3]; [Some e1; Some e2; Some e3]] -> e3 <> e1 ->
  n_cp a = [[Some c1'; oc'; Some c3']; [Some e1'; Some e2'; Some e3']] -> e3' <> e1' ->
  n_hc a = [[Some h1; o; Some h3]; [Some g1; Some g2; Some g3]; [Some f1; Some f2; Some f3]] -> g3 <> g1 ->
  n_hp a = [[Some h1'; o'; Some h3']; [Some g1'; Some g2'; Some g3']; [Some f1'; Some f2'; Some f3']] -> g3' <> g1' ->
  fr_F 95 < tmax -> tmin < fr_F 5 ->
  exists a' p, make_neep_model_data None tmax tmin a = (a', Ok p) /\
    forall i j F v,
      (nth_error [82; 95] i = Some F -> ~ (i = 0 /\ j = 1)%nat ->
        (nth2 (n_cc a) i j = Some (Some v) -> cooling_capacity p (IZR (Z.of_nat (S j))) (fr_F F) = Ok (fr_Btuh v)) /\
        (nth2 (n_cp a) i j = Some (Some v) -> cooling_power p (IZR (Z.of_nat (S j))) (fr_F F) = Ok (v * 1000))) /\
      (nth_error [5; 17; 47] i = Some F ->
        (nth2 (n_hc a) i j = Some (Some v) -> heating_capacity p (IZR (Z.of_nat (S j))) (fr_F F) = Ok (fr_Btuh v)) /\
        (nth2 (n_hp a) i j = Some (Some v) -> heating_power p (IZR (Z.of_nat (S j))) (fr_F F) = Ok (v * 1000))).
Proof. exact neep_first_call. Qed.
Print Assumptions C27_first_call_returns_entries.

Theorem C27_arguments_unchanged_refuted : forall lct tmax tmin a a' p,
  make_neep_model_data (T:=R) lct tmax tmin a = (a', Ok p) -> a' <> a.
Proof. exact neep_changes. Qed.
Print Assumptions C27_arguments_unchanged_refuted.

Theorem C27_second_call_with_same_lists_fails : forall lct tmax tmin a a' p lct' tmax' tmin' a'' q,
  make_neep_model_data (T:=R) lct tmax tmin a = (a', Ok p) ->
  make_neep_model_data lct' tmax' tmin' a' <> (a'', Ok q).
Proof. exact neep_second. Qed.
Print Assumptions C27_second_call_with_same_lists_fails.

Example C27_nonvacuous : exists a a' p,
  make_neep_model_data (T:=R) None (fr_F 125) (fr_F (-20)) a = (a', Ok p)
  /\ cooling_capacity p 2 (fr_F 95) = Ok (fr_Btuh 21600).
Proof.
  destruct (C27_first_call_returns_entries
    (mkNeep [[Some 10650; None; Some 24960]; [Some 10650; Some 21600; Some 24750]]
            [[Some 0.52; None; Some 1.95]; [Some 0.78; Some 1.66; Some 2.52]]
            [[Some 10700; None; Some 18700]; [Some 14000; Some 18900; Some 23800]; [Some 9200; Some 21600; Some 29200]]
            [[Some 1.46; None; Some 2.49]; [Some 1.57; Some 2.05; Some 2.77]; [Some 0.56; Some 1.67; Some 2.73]])
    (fr_F 125) (fr_F (-20)) _ _ _ _ _ _ _ _ _ _ _ _ _ _ _ _ _ _ _ _ _ _ _ _ _ _ _ _ _ _ eq_refl ltac:(lra) eq_refl ltac:(lra)
    eq_refl ltac:(lra) eq_refl ltac:(lra)) as (a' & p & E & H).
  - apply fr_F_lt; lra.
  - apply fr_F_lt; lra.
  - eexists _, a', p. split; [exact E|].
    destruct (H 1%nat 1%nat 95 21600) as (H1 & _). destruct (H1 eq_refl) as (H2 & _); [intros (? & _); discriminate|].
    exact (H2 eq_refl).
Qed.
