(** Reading property C96: polynomials. *)
From Coq Require Import Reals List.
Import ListNotations.
Local Open Scope R_scope.

(** [c0 + c1 x + c2 x^2 + ...]: each coefficient times the power of its place. *)
Definition polynomial (cs : list R) (x : R) : R :=
  fold_right Rplus 0 (map (fun ic => snd ic * x ^ fst ic) (combine (seq 0 (List.length cs)) cs)).
