(** Properties C01-C03: utility functions (util.py). *)
From Coq Require Import Reals Lra List.
From Verif.Base Require Import Num Res Tac.
From Verif.Model Require Import Util.
From Verif.Spec Require Import UtilSpec.
From Verif.Proofs Require Import UtilProofs.
Import ListNotations.
Local Open Scope R_scope.

Theorem C01_bracket_nearest_in_range : forall v mn mx,
  (exists x, in_range mn mx x) ->
  in_range mn mx (bracket v mn mx)
  /\ (forall x, in_range mn mx x -> Rabs (bracket v mn mx - v) <= Rabs (x - v))
  /\ (in_range mn mx v -> bracket v mn mx = v).
Proof. exact bracket_spec. Qed.
Print Assumptions C01_bracket_nearest_in_range.

Theorem C01_bracket_monotone : forall v w mn mx,
  (exists x, in_range mn mx x) ->
  v <= w -> bracket v mn mx <= bracket w mn mx.
Proof. exact bracket_monotone. Qed.
Print Assumptions C01_bracket_monotone.

Example C01_nonvacuous : in_range (Some 57) (Some 72) 60.
Proof. split; intros m E; inversion E; lra. Qed.

Theorem C02_limit_check_accepts_exactly : forall v mn mx r,
  limit_check v mn mx = Ok r <-> r = v /\ in_range mn mx v.
Proof. exact limit_check_ok_iff. Qed.
Print Assumptions C02_limit_check_accepts_exactly.

Theorem C02_limit_check_raises_exactly : forall v mn mx e,
  limit_check v mn mx = Err e <-> e = PyException /\ ~ in_range mn mx v.
Proof. exact limit_check_err_iff. Qed.
Print Assumptions C02_limit_check_raises_exactly.

Example C02_nonvacuous :
  limit_check 1 (Some 0) (Some 1) = Ok 1
  /\ limit_check 2 (Some 0) (Some 1) = Err PyException.
Proof.
  split.
  - apply limit_check_ok_iff. split; auto. split; intros m E; inversion E; lra.
  - apply limit_check_err_iff. split; auto. intros (_ & H).
    specialize (H 1 eq_refl). lra.
Qed.

Theorem C03_find_nearest_first_closest : forall v l,
  l <> [] -> exists r, find_nearest l v = Ok r /\ first_nearest l v r.
Proof. exact find_nearest_first. Qed.
Print Assumptions C03_find_nearest_first_closest.

Theorem C03_find_nearest_empty : forall v : R, find_nearest [] v = Err IndexError.
Proof. exact (fun _ => eq_refl). Qed.
Print Assumptions C03_find_nearest_empty.

(** A tie between 10 and 20 around 15: the first one is returned. *)
Example C03_nonvacuous : first_nearest [10; 20; 40] 15 10.
Proof.
  exists 0%nat. split; [reflexivity|]. split.
  - intros x [<-|[<-|[<-|[]]]]; unfold Rabs; repeat destruct Rcase_abs; lra.
  - intros j x Hj. inversion Hj.
Qed.
