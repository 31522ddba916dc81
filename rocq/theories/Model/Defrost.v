(** Model of /repo/resdx/defrost.py *)
From Coq Require Import QArith List.
From Verif.Base Require Import Num Res.
From Verif.Model Require Import Units Psychrometrics Conditions.

(** defrost.py:8-11 *)
Inductive defrost_control := DCNone | DCTimed | DCDemand.
(** defrost.py:14-17 *)
Inductive defrost_strategy := DSNone | DSReverseCycle | DSResistive.

(** defrost.py:33-40 *)
Record defrost (T : Type) := mkDefrost {
  df_time_fraction : cond T -> res T;
  df_resistive_power : T;
  df_control : defrost_control;
  df_strategy : defrost_strategy;
  df_high_temperature : T;
  df_low_temperature : option T;
  df_period : T;
  df_max_time : T
}.
Arguments mkDefrost {T}.
Arguments df_time_fraction {T}. Arguments df_resistive_power {T}.
Arguments df_control {T}. Arguments df_strategy {T}.
Arguments df_high_temperature {T}. Arguments df_low_temperature {T}.
Arguments df_period {T}. Arguments df_max_time {T}.

Section Defrost.
  Context {T : Type} {NT : Num T}.
  Local Open Scope num_scope.

  (** defrost.py:21-46 *)
  Definition Defrost (time_fraction : cond T -> res T) (resistive_power : T)
      (control : defrost_control) (strategy : defrost_strategy)
      (high : T) (low : option T) (period max_time : T) : res (defrost T) :=
    let d := mkDefrost time_fraction resistive_power control strategy high low
               period max_time in
    match strategy with
    | DSResistive =>
        if resistive_power <=? lit 0 then Err SystemExit else Ok d
    | _ => Ok d
    end.

  (** defrost.py:23: the default time fraction. *)
  Definition default_time_fraction (c : cond T) : res T :=
    Ok (fr_min (lit 3.5) / fr_min (lit 60)).

  (** [Defrost(high_temperature=h)] with the other defaults (defrost.py:21-31),
      as used by the rating solver and by DXUnit's default. *)
  Definition default_defrost (high : T) : defrost T :=
    mkDefrost default_time_fraction (lit 0) DCTimed DSReverseCycle high None
      (fr_min (lit 90)) (fr_min (lit 720)).

  (** defrost.py:48-60; only the outdoor dry bulb of the conditions is read. *)
  Definition in_defrost_at (d : defrost T) (odb : T) : bool :=
    match df_strategy d with
    | DSNone => false
    | _ =>
        match df_low_temperature d with
        | Some low => andb (odb >? low) (odb <? df_high_temperature d)
        | None => odb <? df_high_temperature d
        end
    end.
  Definition in_defrost (d : defrost T) (c : cond T) : bool :=
    in_defrost_at d (ps_db (c_outdoor c)).

  (** defrost.py:62-71 *)
  Definition demand_credit (d : defrost T) : res T :=
    match df_control d with
    | DCDemand =>
        let t_test := pymax (df_period d) (fr_min (lit 90)) in
        let t_max := pymin (df_max_time d) (fr_min (lit 720)) in
        let! q := pydiv (t_test - fr_min (lit 90)) (t_max - fr_min (lit 90)) in
        Ok (lit 1 + lit 0.03 * (lit 1 - q))
    | _ => Ok (lit 1)
    end.
End Defrost.
