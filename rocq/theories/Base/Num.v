(** Numbers of the model.

    The Python code computes with floats.  Every model function is written
    once, over the operations below; theorems use the instance on Coq's reals
    [R] (exact arithmetic, no rounding), and the instance on primitive binary64
    floats (in [FloatNum.v]) only serves to run the model. *)
From Coq Require Import Reals QArith.

(** Arithmetic and comparisons: Python's [+ - * /], unary minus, [<], [<=],
    [==] on floats; [nq] is a decimal literal. *)
Class Num (T : Type) := {
  nq : Q -> T;
  nadd : T -> T -> T;
  nsub : T -> T -> T;
  nmul : T -> T -> T;
  ndiv : T -> T -> T;
  nopp : T -> T;
  nltb : T -> T -> bool;
  nleb : T -> T -> bool;
  neqb : T -> T -> bool
}.

(** [math.exp], [math.log], [x ** 0.5], [x ** y] for positive [x], pi. *)
Class NumX (T : Type) := {
  nexp : T -> T;
  nln : T -> T;
  nsqrt : T -> T;
  npow : T -> T -> T;
  npi : T
}.

Declare Scope num_scope.
Delimit Scope num_scope with num.
Notation "x + y" := (nadd x y) : num_scope.
Notation "x - y" := (nsub x y) : num_scope.
Notation "x * y" := (nmul x y) : num_scope.
Notation "x / y" := (ndiv x y) : num_scope.
Notation "- x" := (nopp x) : num_scope.
Notation "x <? y" := (nltb x y) : num_scope.
Notation "x <=? y" := (nleb x y) : num_scope.
Notation "x =? y" := (neqb x y) : num_scope.
Notation "x >? y" := (nltb y x) (only parsing) : num_scope.
Notation "x >=? y" := (nleb y x) (only parsing) : num_scope.

(** A Python float literal. *)
Definition lit {T} `{Num T} (q : Q) : T := nq q.
Arguments lit {T H} q%Q.

Section PyNum.
  Context {T : Type} {NT : Num T}.
  Local Open Scope num_scope.

  (** Python built-in [abs]. *)
  Definition nabs (x : T) : T := if x <? lit 0 then - x else x.
  (** Python built-in [max(a, b)]: keeps [a] unless [b > a]. *)
  Definition pymax (a b : T) : T := if a <? b then b else a.
  (** Python built-in [min(a, b)]: keeps [a] unless [b < a]. *)
  Definition pymin (a b : T) : T := if b <? a then b else a.
  (** [x ** 2] *)
  Definition nsq (x : T) : T := x * x.
  (** Sum of a list, as Python's [sum] (left to right from 0). *)
  Definition nsum (l : list T) : T := List.fold_left nadd l (lit 0).
  (** An integer used as a number. *)
  Definition nZ (z : Z) : T := nq (inject_Z z).
End PyNum.

(** * The instance on the reals *)
Definition Rltb (x y : R) : bool := if Rlt_dec x y then true else false.
Definition Rleb (x y : R) : bool := if Rle_dec x y then true else false.
Definition Reqb (x y : R) : bool := if Req_EM_T x y then true else false.

#[global] Instance RNum : Num R := {
  nq := Q2R;
  nadd := Rplus;
  nsub := Rminus;
  nmul := Rmult;
  ndiv := Rdiv;
  nopp := Ropp;
  nltb := Rltb;
  nleb := Rleb;
  neqb := Reqb
}.

#[global] Instance RNumX : NumX R := {
  nexp := exp;
  nln := ln;
  nsqrt := sqrt;
  npow := Rpower;
  npi := PI
}.
