(** The climate data of AHRI 210/240 (C112): six regions, 18 outdoor temperature bins
    from 62 F down in steps of 5 F. *)
From Coq Require Import Reals List.
From Verif.Spec Require Import UnitSpec SeasonSpec.
Import ListNotations.
Local Open Scope R_scope.

(** Regions I to VI of the standard. *)
Inductive region := I | II | III | IV | V | VI.
Definition number (r : region) : nat :=
  match r with I => 1 | II => 2 | III => 3 | IV => 4 | V => 5 | VI => 6 end.

(** Outdoor design temperature, F. *)
Definition design_F (r : region) : R :=
  match r with I => 37 | II => 27 | III => 17 | IV => 5 | V => -10 | VI => 30 end.
(** Temperature from which no heat is needed (2023 edition), F. *)
Definition no_load_F (r : region) : R :=
  match r with I => 58 | II => 57 | III => 56 | IV => 55 | V => 55 | VI => 57 end.
(** Slope factors (2023 edition): fixed speed and variable speed. *)
Definition slope_factor (r : region) : R :=
  match r with I => 1.10 | II => 1.06 | III => 1.30 | IV => 1.15 | V => 1.16 | VI => 1.11 end.
Definition slope_factor_vs (r : region) : R :=
  match r with I => 1.03 | II => 0.99 | III => 1.21 | IV => 1.07 | V => 1.08 | VI => 1.03 end.

(** Heating hours in the bins per 1000 heating hours; further bins have none. *)
Definition per_mille (r : region) : list R :=
  match r with
  | I => [291; 239; 194; 129; 81; 41; 19; 5; 1]
  | II => [215; 189; 163; 143; 112; 88; 56; 24; 8; 2]
  | III => [153; 142; 138; 137; 135; 118; 92; 47; 21; 9; 5; 2; 1]
  | IV => [132; 111; 103; 93; 100; 109; 126; 87; 55; 36; 26; 13; 6; 2; 1]
  | V => [106; 92; 86; 76; 78; 87; 102; 94; 74; 55; 47; 38; 29; 18; 10; 5; 2; 1]
  | VI => [113; 206; 215; 204; 141; 76; 34; 8; 3]
  end.
Definition bin_hours (r : region) (i : nat) : R := nth i (per_mille r) 0 / 1000.

(** Outdoor temperature of bin [i], F. *)
Definition bin_F (i : nat) : R := 62 - 5 * INR i.

(** The hours during which heat is needed at all: bins below the no-load temperature. *)
Definition needed_hours (r : region) (i : nat) : R :=
  if Rlt_dec (bin_F i) (no_load_F r) then bin_hours r i else 0.
