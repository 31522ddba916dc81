(** What the ASHRAE 205 export is supposed to mean. *)
From Coq Require Import QArith Reals List String.
From Verif.Base Require Import Num Res.
From Verif.Model Require Import Units Util Psychrometrics Conditions Defrost Fan Tabular
  Unit DXUnit Repr205.
From Verif.Spec Require Import IdfSpec.
Import ListNotations.

(** The entry of a lookup array at an index of its grid: the last grid variable
    varies fastest. *)
Definition value_at {A} (dims index : list nat) (values : list A) : option A :=
  match position dims index with
  | Some p => nth_error values p
  | None => None
  end.

(** One value per grid point. *)
Definition fills {A} (dims : list nat) (values : list A) : Prop :=
  List.length values = fold_right Nat.mul 1%nat dims.

Section Grid.
  Context {T : Type} {NT : Num T} {NX : NumX T}.

  (** Number of points along the grid variables, in the order of the document. *)
  Definition cooling_dims (m : cooling_map T) : list nat :=
    [List.length (g_outdoor m); List.length (g_humidity m); List.length (g_indoor m);
     List.length (g_flow m); List.length (g_sequence m); List.length (g_pressure m)].

  Definition fan_dims (r : fan_repr T) : list nat :=
    [List.length (fr_speed_number r); List.length (fr_pressure r)].

  (** The condition a grid point describes: sequence number [k] is unit speed [n - k]. *)
  Definition grid_condition (psy : psychro T) (u : dxunit T) (t_o rh t_i m_dot : T) (k : nat)
      (p : T) (c : cond T) : Prop :=
    exists o i c0,
      PsychState psy t_o p [("rel_hum"%string, lit 0.4)] = Ok o /\
      PsychState psy t_i p [("rel_hum"%string, rh)] = Ok i /\
      make_condition psy Cooling u (sd_n (u_c u) - k) (Some i) (Some o) = Ok c0 /\
      ex (set_mass_airflow psy m_dot) c0 = Ok c.
End Grid.

(** [n] evenly spaced numbers from [a] to [b]. *)
Definition evenly_spaced (a b : R) (n : nat) (l : list R) : Prop :=
  List.length l = n /\
  forall i, (i < n)%nat -> nth_error l i = Some (a + INR i * ((b - a) / INR (n - 1)))%R.

(** Reading a table of values at two points, constant outside. *)
Definition read_two_points (xs ys : list R) (x : R) : option R :=
  match xs, ys with
  | [x0; x1], [y0; y1] =>
      Some (if Rle_dec x x0 then y0 else if Rle_dec x1 x then y1
            else y0 + (x - x0) * ((y1 - y0) / (x1 - x0)))%R
  | _, _ => None
  end.
