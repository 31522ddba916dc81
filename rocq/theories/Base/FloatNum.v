(** The model's numbers as binary64 floats.  Only used to run the model
    (Validate/); no property theorem depends on this file. *)
From Coq Require Import Floats Uint63 ZArith QArith List.
From Verif.Base Require Import Num.
Import ListNotations.

Definition Zfloat (z : Z) : float :=
  match z with
  | Z0 => 0%float
  | Zpos _ => PrimFloat.of_uint63 (Uint63.of_Z z)
  | Zneg p => (- PrimFloat.of_uint63 (Uint63.of_Z (Zpos p)))%float
  end.

(** A literal: exact numerator over exact denominator (both below 2^63). *)
Definition Qfloat (q : Q) : float := (Zfloat (Qnum q) / Zfloat (Zpos (Qden q)))%float.

Global Instance FloatNum : Num float := {|
  nq := Qfloat;
  nadd := PrimFloat.add;
  nsub := PrimFloat.sub;
  nmul := PrimFloat.mul;
  ndiv := PrimFloat.div;
  nopp := PrimFloat.opp;
  nltb := PrimFloat.ltb;
  nleb := PrimFloat.leb;
  neqb := PrimFloat.eqb
|}.

Local Open Scope float_scope.

(** exp by the Taylor series at x / 2^10, squared ten times. *)
Fixpoint taylor (n : nat) (k : float) (x term acc : float) : float :=
  match n with
  | O => acc
  | S n' => let t := term * x / k in taylor n' (k + 1) x t (acc + t)
  end.
Fixpoint squares (n : nat) (x : float) : float :=
  match n with O => x | S n' => squares n' (x * x) end.
Definition fexp (x : float) : float := squares 10 (taylor 12 1 (x / 1024) 1 1).

(** ln by Newton's method on exp. *)
Fixpoint fln_iter (n : nat) (x y : float) : float :=
  match n with
  | O => y
  | S n' => let e := fexp y in fln_iter n' x (y + 2 * (x - e) / (x + e))
  end.
(** Scale into [1/2, 2] first. *)
Fixpoint fln_scale (n : nat) (x k : float) : float :=
  match n with
  | O => fln_iter 8 x 0 + k * 0.69314718055994530942
  | S n' => if 2 <? x then fln_scale n' (x / 2) (k + 1)
            else if x <? 0.5 then fln_scale n' (x * 2) (k - 1)
            else fln_iter 8 x 0 + k * 0.69314718055994530942
  end.
Definition fln (x : float) : float := fln_scale 200 x 0.

Global Instance FloatNumX : NumX float := {|
  nexp := fexp;
  nln := fln;
  nsqrt := PrimFloat.sqrt;
  npow := fun x y => fexp (y * fln x);
  npi := 3.14159265358979323846
|}.
