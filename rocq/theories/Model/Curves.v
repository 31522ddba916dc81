(** Coefficients of the NREL (Cutler) curves, /repo/resdx/models/nrel.py:20-62 *)
From Coq Require Import QArith List.
From Verif.Base Require Import Num Res.
From Verif.Model Require Import Util.
Import ListNotations.

Section Curves.
  Context {T : Type} {NT : Num T}.

  (** nrel.py:20-27 *)
  Definition COOLING_EIR_FT : T * T * T * T * T * T :=
    (lit (-3.400341169), lit 0.135184783, lit (-0.001037932), lit (-0.007852322),
     lit 0.000183438, lit (-0.000142548)).
  (** nrel.py:29 *)
  Definition COOLING_EIR_FF : T * T * T :=
    (lit 1.143487507, lit (-0.13943972), lit (-0.004047787)).
  (** nrel.py:31-38 *)
  Definition COOLING_CAP_FT : T * T * T * T * T * T :=
    (lit 3.717717741, lit (-0.09918866), lit 0.000964488, lit 0.005887776,
     lit (-0.000012808), lit (-0.000132822)).
  (** nrel.py:40 *)
  Definition COOLING_CAP_FF : T * T * T :=
    (lit 0.718664047, lit 0.41797409, lit (-0.136638137)).
  (** nrel.py:42-49 *)
  Definition HEATING_EIR_FT : T * T * T * T * T * T :=
    (lit 0.722917608, lit 0.003520184, lit 0.000143097, lit (-0.005760341),
     lit 0.000141736, lit (-0.000216676)).
  (** nrel.py:51 *)
  Definition HEATING_EIR_FF : T * T * T :=
    (lit 2.185418751, lit (-1.942827919), lit 0.757409168).
  (** nrel.py:53-60 *)
  Definition HEATING_CAP_FT : T * T * T * T * T * T :=
    (lit 0.568706266, lit (-0.000747282), lit (-0.0000103432), lit 0.00945408,
     lit 0.000050812, lit (-0.00000677828)).
  (** nrel.py:62 *)
  Definition HEATING_CAP_FF : T * T * T :=
    (lit 0.694045465, lit 0.474207981, lit (-0.168253446)).
End Curves.
