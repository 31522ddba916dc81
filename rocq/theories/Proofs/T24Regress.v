(** Regressions of the Title 24 model against SEER and HSPF. *)
From Coq Require Import Reals QArith Qreals Lra Lia List Bool ZArith.
From Verif.Base Require Import Num Res Tac.
From Verif.Model Require Import Units Unit DXUnit Title24.
From Verif.Spec Require Import UnitSpec.
From Verif.Proofs Require Import UnitsR UnitProofs3.
Import ListNotations.
Local Open Scope R_scope.

Lemma eer_rises s s' : s < s' -> s' < 16 \/ 16 <= s ->
  eer_rated (T:=R) s <= eer_rated s' /\ (s' < 16 -> eer_rated (T:=R) s < eer_rated s').
Proof. intros H1 H2. unfold eer_rated. rnum. rcases; split; intros; lra. Qed.

Lemma eer_drop s s' : s <= s' -> eer_rated (T:=R) s <= eer_rated s' + 0.01.
Proof. intros H1. unfold eer_rated. rnum. rcases; lra. Qed.

Lemma ratio_rises s s' : s < s' -> s' < 7.5 \/ 7.5 <= s ->
  cap17_ratio_rated (T:=R) s < cap17_ratio_rated s'.
Proof. intros H1 H2. unfold cap17_ratio_rated. rnum. rcases; lra. Qed.

Lemma ratio_drop s s' : s <= s' -> cap17_ratio_rated (T:=R) s <= cap17_ratio_rated s' + 0.0043.
Proof. intros H1. unfold cap17_ratio_rated. rnum. rcases; lra. Qed.

Lemma bins_region_4 : exists d, distribution_2017 (T:=R) 4 = Ok d /\
  hd_hours d = map snd t24_bins ++ [0; 0; 0] /\
  forall i x, nth_error (t24_bins (T:=R)) i = Some x -> fst x = 62 - 5 * INR i.
Proof.
  set (l := [132;111;103;93;100;109;126;87;55;36;26;13;6;2;1;0;0;0]%Q).
  exists (mkHD (fr_F (lit 5)) (hours l) None None None). split; [|split].
  - change (distribution_2017 (T:=R) 4) with (HeatingDistribution (fr_F (lit (T:=R) 5)) (hours l) None None None).
    apply distribution_kept; [reflexivity|]. unfold in_band, total, hours, l. cbn [map fold_right]. rnum.
    cbv [Qdiv Qmult Qinv Qnum Qden Z.mul Pos.mul Pos.add Pos.succ Pos.add_carry]. lra.
  - unfold hours, l, t24_bins. cbn [hd_hours map snd app].
    assert (C : forall (a b : R) m m', a = b -> m = m' -> a :: m = b :: m') by congruence.
    assert (L : forall p q, Qeq p q -> lit (T:=R) p = lit q) by (intros p q H; apply Qeq_eqR; exact H).
    do 15 (apply C; [apply L; reflexivity|]).
    do 3 (apply C; [rewrite <- (lit0_R); apply L; reflexivity|]). reflexivity.
  - intros i x H. unfold t24_bins in H.
    do 15 (destruct i as [|i]; [cbn [nth_error] in H; inversion H; cbn [fst]; rewrite INR_IZR_INZ; cbn; lra|]).
    destruct i; discriminate.
Qed.
