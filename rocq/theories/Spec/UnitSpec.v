(** What the properties about DXUnit say, independent of the model's helpers.
    Units are written out: 1 in H2O = 249.08891 Pa, 1 Btu/h = 1055.056/3600 W. *)
From Coq Require Import Reals List.
Import ListNotations.
Local Open Scope R_scope.

Definition in_H2O (x : R) : R := x * 249.08891.
Definition Btu_h (x : R) : R := x * (1055.056 / 3600).

(** AHRI 210/240-2017, by rated capacity (W). *)
Definition esp_2017 (q : R) : R :=
  if Rle_dec q (Btu_h 29000) then in_H2O 0.1
  else if Rle_dec q (Btu_h 43000) then in_H2O 0.15
  else in_H2O 0.2.

Definition total (l : list R) : R := fold_right Rplus 0 l.

(** The line through (x0, y0) and (x1, y1). *)
Definition line (x0 y0 x1 y1 x : R) : R := y0 + (y1 - y0) / (x1 - x0) * (x - x0).

(** Fahrenheit to kelvin. *)
Definition deg_F (t : R) : R := (t + 459.67) * 5 / 9.

(** Hour fractions accepted without rescaling. *)
Definition in_band (s : R) : Prop := 0.98 <= s <= 1.02.
