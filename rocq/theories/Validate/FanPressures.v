(** Runs for property C95. *)
From Coq Require Import Floats List Bool String.
From Verif.Base Require Import Num Res FloatNum.
From Verif.Model Require Import Units Psychrometrics Conditions Fan Tabular Unit Resnet DXUnit RatingSolver.
From Verif.Validate Require Import FloatLib TestValues.
Import ListNotations.
Set Warnings "-inexact-float".
Local Open Scope float_scope.

(** Rated pressures beside those of the rating conditions: at full load lower in the mode in
    which the two-stage unit of the tests moves less air, higher in both modes of its
    variable-speed unit, which moves more air at the boost speed; equal elsewhere. *)
Definition pressure_at (m : mode) (u : dxunit float) (i : nat) : option float :=
  nth i (sd_esp (side_of m u)) None.
Definition pressure_tested (c : option (cond float)) : option float :=
  match c with Some c => c_external_static_pressure c | None => None end.
Definition compare_pressure (x y : option float) : option comparison :=
  match x, y with
  | Some x, Some y => if PrimFloat.ltb (x * (1 + 1e-9))%float y then Some Lt
                      else if PrimFloat.ltb y (x * (1 - 1e-9))%float then Some Gt else Some Eq
  | _, _ => None
  end.
Definition compared (r : res (dxunit float)) (l : list (mode * nat * (rconds float -> option (cond float)))) :=
  match r with
  | Ok u => map (fun x => compare_pressure (pressure_at (fst (fst x)) u (snd (fst x))) (pressure_tested (snd x (u_conds u)))) l
  | Err _ => []
  end.
Example C95_pressures_in_runs :
  compared two_speed [(Cooling, 0%nat, rc_A_full); (Cooling, 1%nat, rc_B_low); (Heating, 0%nat, rc_H1_full); (Heating, 1%nat, rc_H1_low)]
    = [Some Eq; Some Eq; Some Lt; Some Eq]
  /\ compared vchp [(Cooling, 0%nat, rc_A_boost); (Cooling, 1%nat, rc_A_full); (Cooling, 2%nat, rc_A_int); (Cooling, 3%nat, rc_A_low);
      (Heating, 1%nat, rc_H1_full)]
    = [Some Eq; Some Gt; Some Eq; Some Eq; Some Gt].
Proof. vm_compute. split; reflexivity. Qed.
