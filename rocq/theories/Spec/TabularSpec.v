(** What a user expects of the performance tables (C20-C27). *)
From Coq Require Import Reals List ZArith Sorted Bool QArith.
From Verif.Base Require Import Num Res.
From Verif.Model Require Import Tabular.
Import ListNotations.
Local Open Scope R_scope.

(** Strictly increasing temperatures, one row per temperature, one column per
    speed. *)
Definition wf_table (t : table R) : Prop :=
  StronglySorted Rlt (t_temps t)
  /\ length (t_data t) = length (t_temps t)
  /\ Forall (fun row => length row = t_n t) (t_data t).

(** No entry is missing. *)
Definition filled (t : table R) : Prop :=
  Forall (Forall (fun o => o <> None)) (t_data t).

Definition valid_speed (t : table R) (s : Z) : Prop :=
  (1 <= s <= Z.of_nat (t_n t))%Z.

(** The methods that assign one cell. *)
Inductive setter (s : Z) (x : R) : st (table R) unit -> Prop :=
| set_value v : setter s x (t_set s x v)
| set_ratio r : setter s x (set_by_ratio s x r)
| set_interp : setter s x (set_by_interpolation s x)
| set_maint ref r : setter s x (set_by_maintenance s x ref r).

(** Nothing but the cell of speed [s] and temperature [x] differs. *)
Definition changes_only (s : Z) (x : R) (t t' : table R) : Prop :=
  t_temps t' = t_temps t /\ t_n t' = t_n t /\ t_kind t' = t_kind t
  /\ t_interp t' = t_interp t
  /\ forall s' x', valid_speed t s' -> (s', x') <> (s, x) ->
       t_get s' x' t' = t_get s' x' t.

(** [a] and [b] are consecutive temperatures. *)
Definition consecutive (l : list R) (a b : R) : Prop :=
  exists l1 l2, l = l1 ++ a :: b :: l2.

(** The straight line through (x0,y0) and (x1,y1), at x. *)
Definition line (x0 y0 x1 y1 x : R) : R := y0 + (y1 - y0) / (x1 - x0) * (x - x0).

(** The table with its interpolator set up from the current data. *)
Definition interpolated (t t' : table R) : Prop :=
  set_interpolator t = (t', Ok tt).

(** A function of one variable given by values at speeds 1, 2, ..., n: straight
    lines between consecutive speeds, the first and last line extended. *)
Definition piecewise_linear_in_speed (p : list R) (f : R -> R) : Prop :=
  (forall k v, nth_error p k = Some v -> f (INR (S k)) = v)
  /\ (length p = 1%nat -> forall s, f s = f 1)
  /\ (forall k a b, nth_error p k = Some a -> nth_error p (S k) = Some b ->
        forall s, (k = 0%nat \/ INR (S k) <= s) ->
                  (S (S k) = length p \/ s <= INR (S (S k))) ->
                  f s = line (INR (S k)) a (INR (S (S k))) b s).

(** Setting the interpolator again would change nothing: it was made from the
    current data. *)
Definition up_to_date (t : table R) : Prop := interpolated t t.

(** One fan power per speed, each smaller than every entry of its speed. *)
Definition correctable (fp : list R) (t : table R) : Prop :=
  length fp = t_n t /\
  forall k p x v, nth_error fp k = Some p ->
    t_get (Z.of_nat (S k)) x t = Ok (Some v) -> p < v.
