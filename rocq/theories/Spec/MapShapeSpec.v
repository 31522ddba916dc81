(** Shape of a performance map at one speed, as a function of temperature. *)
From Coq Require Import Reals List ZArith.
From Verif.Base Require Import Num Res.
From Verif.Model Require Import Units Tabular.
From Verif.Spec Require Import TabularSpec.
Import ListNotations.
Local Open Scope R_scope.

(** At [x] the map is on the straight line through its values at [a] and [b]. *)
Definition on_line (f : R -> res R) (a b x : R) : Prop :=
  exists va vb, f a = Ok va /\ f b = Ok vb /\ f x = Ok (line a va b vb x).

(** A heating map: one straight line up to [b], through the values at [a] and
    [b], and constant above [b]. *)
Definition heating_shape (f : R -> res R) (a b : R) : Prop :=
  forall x, (x <= b -> on_line f a b x) /\ (b <= x -> f x = f b).

(** A cooling map: one straight line through the values at [a] and [b] from [a]
    up, another straight line through the values at [c] and [a] below [a]. *)
Definition cooling_shape (f : R -> res R) (c a b : R) : Prop :=
  forall x, (a <= x -> on_line f a b x) /\ (x <= a -> on_line f c a x).

(** The value at [c] is the one on the line through the values at [a] and [b],
    but not less than half the value at [a]. *)
Definition floored_at_half (f : R -> res R) (c a b : R) : Prop :=
  exists va vb, f a = Ok va /\ f b = Ok vb /\
    f c = Ok (Rmax (line a va b vb c) (va * (1 / 2))).

(** Straight lines between consecutive temperatures of the list, the first line
    extended below it and the last value kept above it. *)
Definition joined_shape (f : R -> res R) (l : list R) : Prop :=
  (forall a b x, consecutive l a b -> a <= x <= b -> on_line f a b x) /\
  (forall a b l' x, l = a :: b :: l' -> x <= a -> on_line f a b x) /\
  (forall b l' x, l = l' ++ [b] -> b <= x -> f x = f b).

(** The cooling side of a data set for [n] speeds. *)
Definition cooling_maps (p : perf R) (n : Z) : Prop :=
  (forall z, cooling_shape (cooling_capacity p z) (fr_F 60) (fr_F 82) (fr_F 95)
    /\ cooling_shape (cooling_power p z) (fr_F 60) (fr_F 82) (fr_F 95)) /\
  (forall s, (1 <= s <= n)%Z ->
    floored_at_half (cooling_capacity p (IZR s)) (fr_F 60) (fr_F 82) (fr_F 95)
    /\ floored_at_half (cooling_power p (IZR s)) (fr_F 60) (fr_F 82) (fr_F 95)).
