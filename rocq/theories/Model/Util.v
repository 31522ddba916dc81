(** Model of /repo/resdx/util.py *)
From Coq Require Import QArith List.
From Verif.Base Require Import Num Res.
Import ListNotations.

Section Util.
  Context {T : Type} {NT : Num T}.
  Local Open Scope num_scope.

  (** util.py:4-17 *)
  Definition limit_check (value : T) (mn mx : option T) : res T :=
    let! _ := match mn with
              | Some m => if value <? m then Err PyException else Ok tt
              | None => Ok tt
              end in
    let! _ := match mx with
              | Some m => if value >? m then Err PyException else Ok tt
              | None => Ok tt
              end in
    Ok value.

  (** util.py:20-29 *)
  Definition bracket (value : T) (mn mx : option T) : T :=
    let upper := match mx with
                 | Some m => if value >? m then m else value
                 | None => value
                 end in
    match mn with
    | Some m => if value <? m then m else upper
    | None => upper
    end.

  (** util.py:32-40; the coefficient list is a 6-tuple (every call site passes
      a literal list of six numbers). *)
  Definition calc_biquad (c : T * T * T * T * T * T) (in_1 in_2 : T) : T :=
    let '(c0, c1, c2, c3, c4, c5) := c in
    c0 + c1 * in_1 + c2 * in_1 * in_1 + c3 * in_2 + c4 * in_2 * in_2
    + c5 * in_1 * in_2.

  (** util.py:43-44; every call site passes three coefficients. *)
  Definition calc_quad (c : T * T * T) (in_1 : T) : T :=
    let '(c0, c1, c2) := c in
    c0 + c1 * in_1 + c2 * in_1 * in_1.

  (** util.py:50-54: the loop body; the accumulator is
      (closest_diff, closest_value). *)
  Definition find_nearest_step (value : T) (acc : T * T) (option : T) : T * T :=
    let diff := nabs (option - value) in
    if diff <? fst acc then (diff, option) else acc.

  (** util.py:47-55 *)
  Definition find_nearest (array : list T) (value : T) : res T :=
    match array with
    | [] => Err IndexError
    | a0 :: _ =>
        Ok (snd (fold_left (find_nearest_step value) array (nabs (a0 - value), a0)))
    end.

  (** util.py:61-62 *)
  Definition linear (x c0 c1 : T) : T := c0 + c1 * x.
  (** util.py:69-70 *)
  Definition quadratic (x c0 c1 c2 : T) : T := c0 + c1 * x + c2 * x * x.
  (** util.py:77-78 *)
  Definition cubic (x c0 c1 c2 c3 : T) : T :=
    c0 + c1 * x + c2 * x * x + c3 * x * x * x.
  (** util.py:85-87 *)
  Definition quartic (x c0 c1 c2 c3 c4 : T) : T :=
    let x2 := x * x in
    c0 + c1 * x + c2 * x2 + c3 * x2 * x + c4 * x2 * x2.

  (** util.py:102-107.  numpy's element-wise difference repeats an array of one
      element and raises on other unequal lengths.  An empty source list (nan in
      numpy) and a zero total sum of squares (inf or nan in numpy, so in particular a
      source list of one element) are reported as errors. *)
  Definition calculate_r_squared (source regression : list T) : res T :=
    let n := length source in
    let! fit := match regression with
                | [y] => Ok (repeat y n)
                | _ => let! _ := guard ValueError
                         (orb (Nat.eqb n (length regression)) (Nat.eqb n 1)) in
                       Ok regression
                end in
    let residuals := map (fun p => fst p - snd p) (combine source fit) in
    let ss_res := nsum (map nsq residuals) in
    let! mean := pydiv (nsum source) (nZ (Z.of_nat n)) in
    let ss_tot := nsum (map (fun x => nsq (x - mean)) source) in
    let! q := pydiv ss_res ss_tot in
    Ok (lit 1 - q).
End Util.
