(** The performance the exported numbers stand for. *)
From Coq Require Import QArith Reals List String.
From Verif.Base Require Import Num Res.
From Verif.Model Require Import Units Util Psychrometrics Conditions Defrost Fan Tabular Unit
  DXUnit Idf.
From Verif.Spec Require Import IdfSpec.
Import ListNotations.
Local Open Scope string_scope.
Local Open Scope R_scope.

Section Perf.
  Variable psy : psychro R.
  Variable M : dxmodel R.

  (** Gross capacity and COP of a mode at a condition. *)
  Definition performs (m : mode) (u : dxunit R) (c : cond R) (q cop : R) : Prop :=
    match m with
    | Cooling => gross_total_cooling_capacity M u (Some c) = Ok q /\
                 gross_total_cooling_cop M u (Some c) = Ok cop
    | Heating => gross_steady_state_heating_capacity M u (Some c) = Ok q /\
                 gross_steady_state_heating_cop M u (Some c) = Ok cop
    end.

  (** At the rated condition of a speed. *)
  Definition performs_rated (m : mode) (u : dxunit R) (speed : nat) (q cop : R) : Prop :=
    exists c, make_condition psy m u speed None None = Ok c /\ performs m u c q cop.

  (** At the rated condition but with [ff] times the rated airflow. *)
  Definition performs_at_flow (m : mode) (u : dxunit R) (speed : nat) (ff q cop : R) : Prop :=
    exists c c', make_condition psy m u speed None None = Ok c /\
      ex (set_mass_airflow_ratio psy ff) c = Ok c' /\ performs m u c' q cop.

  (** At the indoor and outdoor temperature given in degrees Celsius: in cooling the
      indoor one is the wet bulb of air at 80 °F dry bulb, in heating the dry bulb
      of air at 40 % relative humidity. *)
  Definition indoor_air (m : mode) (t : R) : res (psych_state R) :=
    match m with
    | Cooling => PsychState psy (fr_F (lit 80)) atm [("wetbulb", fr_C t)]
    | Heating => PsychState psy (fr_C t) atm [("rel_hum", lit 0.4)]
    end.
  Definition performs_at_temperatures (m : mode) (u : dxunit R) (speed : nat)
      (t_i t_o q cop : R) : Prop :=
    exists i o c, indoor_air m t_i = Ok i /\
      PsychState psy (fr_C t_o) atm [("rel_hum", lit 0.4)] = Ok o /\
      make_condition psy m u speed (Some i) (Some o) = Ok c /\ performs m u c q cop.

  (** The value written for [v] given the rated value [v0]. *)
  Definition written (normalize : bool) (v v0 : R) : R := if normalize then v / v0 else v.
End Perf.

(** The grids, in degrees Celsius. *)
Definition celsius (f : R) : R := (f - 32) * 5 / 9.
Definition indoor_axis (m : mode) : list R :=
  match m with
  | Cooling => map celsius [50; 67; 80]
  | Heating => map celsius [60; 70; 80]
  end.
Definition outdoor_axis (m : mode) (u : dxunit R) : list R :=
  match m with
  | Cooling => map celsius [55; 82; 95; 125]
  | Heating => (u_heating_off u - 273.15) :: map celsius [5; 17; 47; 60]
  end.
Definition flow_axis : list R := [0.75; 1; 1.25].

Definition mode_name (m : mode) : string :=
  match m with Cooling => "Cooling" | Heating => "Heating" end.

(** A table over two axes (one axis) holding exactly one value per grid point, each
    related to its coordinates by [value]. *)
Definition grid_table (objects : list (idf_object R)) (table : string) (A B : list R)
    (value : R -> R -> R -> Prop) : Prop :=
  table_axes objects table = Some [A; B] /\
  (exists outputs, table_outputs objects table = Some outputs /\
     List.length outputs = (List.length A * List.length B)%nat) /\
  forall i j x y, nth_error A i = Some x -> nth_error B j = Some y ->
    exists v, table_entry objects table [i; j] = Some ([x; y], v) /\ value x y v.
Definition line_table (objects : list (idf_object R)) (table : string) (A : list R)
    (value : R -> R -> Prop) : Prop :=
  table_axes objects table = Some [A] /\
  (exists outputs, table_outputs objects table = Some outputs /\
     List.length outputs = List.length A) /\
  forall i x, nth_error A i = Some x ->
    exists v, table_entry objects table [i] = Some ([x], v) /\ value x v.

(** The air nodes of an object. *)
Definition inlet {T} (objects : list (idf_object T)) (class s : string) : option (idf_value T) :=
  match named objects class s with
  | Some o => field_of o "Air Inlet Node Name"
  | None => None
  end.
Definition outlet {T} (objects : list (idf_object T)) (class s : string) : option (idf_value T) :=
  match named objects class s with
  | Some o => field_of o "Air Outlet Node Name"
  | None => None
  end.
