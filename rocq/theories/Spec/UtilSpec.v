(** Specifications for the utility functions (C01-C03). *)
From Coq Require Import Reals List.
Local Open Scope R_scope.

(** [x] respects the bounds that are given. *)
Definition in_range (mn mx : option R) (x : R) : Prop :=
  (forall m, mn = Some m -> m <= x) /\ (forall m, mx = Some m -> x <= m).

(** [r] is the first element of [l] among those nearest to [v]: it stands at
    some position [i], nothing is nearer, and everything before position [i] is
    strictly farther away. *)
Definition first_nearest (l : list R) (v r : R) : Prop :=
  exists i, nth_error l i = Some r
    /\ (forall x, In x l -> Rabs (r - v) <= Rabs (x - v))
    /\ (forall j x, (j < i)%nat -> nth_error l j = Some x ->
          Rabs (r - v) < Rabs (x - v)).
