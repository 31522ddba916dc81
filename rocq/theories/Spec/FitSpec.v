(** The coefficient of determination of a fit (C69). *)
From Coq Require Import Reals List.
Import ListNotations.
Local Open Scope R_scope.

Fixpoint total (l : list R) : R := match l with [] => 0 | x :: l => x + total l end.
Definition average (l : list R) : R := total l / INR (length l).
(** The sum of the squared distances between corresponding entries. *)
Fixpoint distance2 (l m : list R) : R :=
  match l, m with
  | x :: l, y :: m => (x - y) * (x - y) + distance2 l m
  | _, _ => 0
  end.
(** The same number for every entry of [l]. *)
Definition flat (x : R) (l : list R) : list R := map (fun _ => x) l.
(** Not all entries are equal. *)
Definition varies (l : list R) : Prop := exists x y, In x l /\ In y l /\ x <> y.
