(** Polynomials and their coefficients. *)
From Coq Require Import Reals Lra Lia List.
From Verif.Base Require Import Num Res Tac.
From Verif.Model Require Import Util.
From Verif.Spec Require Import CurveSpec.
Import ListNotations.
Local Open Scope R_scope.

Fixpoint horner (cs : list R) (x : R) : R :=
  match cs with [] => 0 | c :: cs => c + x * horner cs x end.

Lemma poly_from cs x : forall k,
  fold_right Rplus 0 (map (fun ic => snd ic * x ^ fst ic) (combine (seq k (List.length cs)) cs)) = x ^ k * horner cs x.
Proof.
  induction cs as [|c cs IH]; intros k; cbn -[pow]; [ring|].
  rewrite IH. cbn. ring.
Qed.
Lemma poly_horner cs x : polynomial cs x = horner cs x.
Proof. unfold polynomial. rewrite poly_from. cbn. ring. Qed.

Lemma divide a : forall cs, exists ds, List.length ds = pred (List.length cs)
  /\ (forall x, horner cs x = horner cs a + (x - a) * horner ds x)
  /\ (Forall (fun c => c = 0) ds -> Forall (fun c => c = 0) (tl cs)).
Proof.
  induction cs as [|c cs (ds & L & E & Z)].
  - exists []. cbn. repeat split; [intros; ring|auto].
  - destruct cs as [|c' cs].
    + exists []. cbn. repeat split; [intros; ring|constructor].
    + exists (horner (c' :: cs) a :: ds). split; [cbn in *; congruence|]. split.
      * intros x. change (c + x * horner (c' :: cs) x = c + a * horner (c' :: cs) a + (x - a) * (horner (c' :: cs) a + x * horner ds x)).
        rewrite (E x). ring.
      * intros F. inversion F as [|? ? H F']. subst. specialize (Z F'). cbn [tl] in Z |- *.
        constructor; [|exact Z]. cbn in H.
        assert (Hz : horner cs a = 0) by (clear - Z; induction Z; cbn; [reflexivity|subst; rewrite IHZ; ring]).
        rewrite Hz in H. lra.
Qed.

Lemma roots : forall cs xs, NoDup xs -> List.length xs = List.length cs ->
  (forall x, In x xs -> horner cs x = 0) -> Forall (fun c => c = 0) cs.
Proof.
  intros cs xs. revert cs. induction xs as [|a xs IH]; intros cs N L H.
  - destruct cs; [constructor|discriminate].
  - inversion N as [|? ? Na N']. subst. destruct (divide a cs) as (ds & Ld & E & Z).
    destruct cs as [|c cs]; [discriminate|].
    assert (F : Forall (fun c => c = 0) cs).
    { apply Z. apply IH; [exact N'|cbn in *; congruence|]. intros x Hx.
      pose proof (H x (or_intror Hx)) as Hx0. rewrite E, (H a (or_introl eq_refl)) in Hx0.
      assert (x - a <> 0) by (intros Q; apply Na; replace a with x by lra; exact Hx).
      destruct (Rmult_integral (x - a) (horner ds x)); [lra|contradiction|assumption]. }
    constructor; [|exact F].
    pose proof (H a (or_introl eq_refl)) as Ha. cbn in Ha.
    assert (Hz : horner cs a = 0) by (clear - F; induction F; cbn; [reflexivity|subst; rewrite IHF; ring]).
    rewrite Hz in Ha. lra.
Qed.

Lemma horner_sub cs : forall ds x, List.length cs = List.length ds ->
  horner (map (fun p => fst p - snd p) (combine cs ds)) x = horner cs x - horner ds x.
Proof.
  induction cs as [|c cs IH]; intros [|d ds] x L; try discriminate; cbn; [ring|].
  rewrite IH by (cbn in L; congruence). ring.
Qed.

Lemma same_coefficients cs ds xs : List.length cs = List.length ds -> NoDup xs ->
  List.length xs = List.length cs -> (forall x, In x xs -> polynomial cs x = polynomial ds x) -> cs = ds.
Proof.
  intros L N Lx H.
  assert (F : Forall (fun c => c = 0) (map (fun p => fst p - snd p) (combine cs ds))).
  { apply (roots _ xs N); [rewrite map_length, combine_length; lia|].
    intros x Hx. rewrite horner_sub by exact L. rewrite <- !poly_horner, (H x Hx). ring. }
  clear - L F. revert ds L F. induction cs as [|c cs IH]; intros [|d ds] L F; try discriminate; [reflexivity|].
  cbn in F. inversion F. subst. f_equal; [lra|]. apply IH; [cbn in L; congruence|assumption].
Qed.

Lemma curves x c0 c1 c2 c3 c4 :
  linear x c0 c1 = polynomial [c0; c1] x
  /\ quadratic x c0 c1 c2 = polynomial [c0; c1; c2] x
  /\ calc_quad (c0, c1, c2) x = polynomial [c0; c1; c2] x
  /\ cubic x c0 c1 c2 c3 = polynomial [c0; c1; c2; c3] x
  /\ quartic x c0 c1 c2 c3 c4 = polynomial [c0; c1; c2; c3; c4] x.
Proof.
  rewrite !poly_horner. unfold linear, quadratic, calc_quad, cubic, quartic. cbn [nadd nmul RNum horner].
  repeat split; ring.
Qed.

Lemma biquad c0 c1 c2 c3 c4 c5 x y :
  calc_biquad (c0, c1, c2, c3, c4, c5) x y = polynomial [c0; c1; c2] x + polynomial [0; c3; c4] y + c5 * (x * y).
Proof. rewrite !poly_horner. unfold calc_biquad. cbn [nadd nmul RNum horner]. ring. Qed.

Lemma quartic_unique c0 c1 c2 c3 c4 d0 d1 d2 d3 d4 xs : NoDup xs -> List.length xs = 5%nat ->
  (forall x, In x xs -> quartic x c0 c1 c2 c3 c4 = quartic x d0 d1 d2 d3 d4) ->
  (c0, c1, c2, c3, c4) = (d0, d1, d2, d3, d4).
Proof.
  intros N L H.
  assert (E : [c0; c1; c2; c3; c4] = [d0; d1; d2; d3; d4]).
  { apply (same_coefficients _ _ xs); [reflexivity|exact N|exact L|]. intros x Hx.
    destruct (curves x c0 c1 c2 c3 c4) as (_ & _ & _ & _ & <-).
    destruct (curves x d0 d1 d2 d3 d4) as (_ & _ & _ & _ & <-). exact (H x Hx). }
  inversion E. reflexivity.
Qed.
