(** Property C122: PSC fans against pressure (fan.py:96-151, 431-513). *)
From Coq Require Import Reals Lra List.
From Verif.Base Require Import Num Res.
From Verif.Model Require Import Units Fan.
From Verif.Spec Require Import FanSpec FanRatioSpec.
From Verif.Proofs Require Import FanProofs2 FanProofs4 FanPoint2 PscPressure.
From Verif.Props Require Import P_Fan.
Import ListNotations.
Local Open Scope R_scope.

(** Each speed has a pressure that stops the flow.  From there on airflow and power are 0 and
    there is no efficiency.  Below it, against a higher pressure, the fan moves strictly less
    air, draws strictly less power, and is strictly more efficient; its blower turns faster,
    or slower if it turns faster than 1100 rpm without pressure. *)
Theorem C122_against_pressure : forall sol airflows esp eff a0 (f f' : fan R) ops,
  make_psc_fan airflows esp eff = Ok f -> geti airflows 0 = Ok a0 -> 0 < a0 -> 0 < esp ->
  Forall keeps_first ops -> sfold run_op ops f = (f', Ok tt) ->
  forall i a, 0 < eff -> geti (f_airflow f') i = Ok a -> 0 < a + psc_loss esp ->
  exists bp, 0 < bp
  /\ (forall p, bp <= p -> airflow sol f' i (Some p) = Ok 0 /\ power sol f' i (Some p) = Ok 0
        /\ efficiency sol f' i (Some p) = Err ZeroDivisionError)
  /\ (forall p p', 0 <= p < p' -> p' <= bp ->
        exists q q' w w' s s', airflow sol f' i (Some p) = Ok q /\ airflow sol f' i (Some p') = Ok q'
        /\ power sol f' i (Some p) = Ok w /\ power sol f' i (Some p') = Ok w'
        /\ rotational_speed sol f' i (Some p) = Ok s /\ rotational_speed sol f' i (Some p') = Ok s'
        /\ 0 <= q' < q /\ 0 <= w' < w
        /\ (1040 * ((a + psc_loss esp) / (a0 + psc_loss esp)) < 1100 -> s < s')
        /\ (1100 < 1040 * ((a + psc_loss esp) / (a0 + psc_loss esp)) -> s' < s))
  /\ forall p p', 0 <= p < p' -> p' < bp ->
        exists e e', efficiency sol f' i (Some p) = Ok e /\ efficiency sol f' i (Some p') = Ok e' /\ 0 <= e < e'.
Proof. exact against. Qed.
Print Assumptions C122_against_pressure.

(** In the duct system the speed of more air draws more power. *)
Theorem C122_more_air_more_power : forall sol airflows esp eff a0 (f f' : fan R) ops,
  make_psc_fan airflows esp eff = Ok f -> geti airflows 0 = Ok a0 -> 0 < a0 -> 0 < esp ->
  Forall keeps_first ops -> sfold run_op ops f = (f', Ok tt) ->
  forall i j a b x x' w w', sound_brentq 0 sol -> 0 < eff ->
  geti (f_airflow f') i = Ok a -> geti (f_airflow f') j = Ok b -> 0 <= a < b ->
  operating_pressure sol f' i = Ok x -> operating_pressure sol f' j = Ok x' ->
  power sol f' i None = Ok w -> power sol f' j None = Ok w' -> w < w'.
Proof. exact more_power. Qed.
Print Assumptions C122_more_air_more_power.

(** A fan of three speeds; two of them in the duct system; one that turns faster than 1100 rpm. *)
Example C122_case : sound_brentq 0 ideal_solvers
  /\ (exists f : fan R, make_psc_fan [0.5; 0.3; 0.2] 125 700 = Ok f
    /\ Forall keeps_first [] /\ sfold run_op [] f = (f, Ok tt)
    /\ geti (f_airflow f) 0 = Ok 0.5 /\ geti (f_airflow f) 1 = Ok 0.3 /\ 0 < 0.3 + psc_loss 125
    /\ exists x x' w w', operating_pressure ideal_solvers f 1 = Ok x /\ operating_pressure ideal_solvers f 0 = Ok x'
       /\ power ideal_solvers f 1 None = Ok w /\ power ideal_solvers f 0 None = Ok w')
  /\ exists loss, loss = psc_loss 1 /\ 1100 < 1040 * ((2 + loss) / (1 + loss)).
Proof.
  assert (S : sound_brentq 0 ideal_solvers) by (apply ideal_sound; lra). split; [exact S|].
  assert (Z : forall p, 0 < p -> 0 < psc_loss p) by (intros p H; rewrite <- loss_0; apply loss_rises; exact H).
  split.
  - destruct C15_nonvacuous as (f & F). exists f. split; [exact F|]. split; [constructor|]. split; [reflexivity|].
    assert (A : geti (f_airflow f) 0 = Ok 0.5 /\ geti (f_airflow f) 1 = Ok 0.3).
    { unfold make_psc_fan in F. apply init_fan_facts in F as (a1 & _ & _ & _ & A4 & _). rewrite A4. split; reflexivity. }
    destruct A as (A0 & A1). split; [exact A0|]. split; [exact A1|]. split; [pose proof (Z 125 ltac:(lra)); lra|].
    assert (T : 1 <= sqrt 3) by (rewrite <- sqrt_1; apply sqrt_le_1_alt; lra).
    destruct (psc_ops _ _ _ _ f [] F eq_refl) as ((K & _) & _).
    destruct (FanRatio.psc_speeds ideal_solvers _ _ _ f f [] 0.5 0 0.5 F eq_refl (Forall_nil _) eq_refl A0) as (E0 & _).
    destruct (FanRatio.psc_speeds ideal_solvers _ _ _ f f [] 0.5 1 0.3 F eq_refl (Forall_nil _) eq_refl A1) as (E1 & _).
    destruct (runs ideal_solvers S _ _ _ _ f f [] F eq_refl ltac:(lra) ltac:(lra) eq_refl 0 _ A0 ltac:(lra)) as (x' & q' & X' & Q' & _).
    destruct (runs ideal_solvers S _ _ _ _ f f [] F eq_refl ltac:(lra) ltac:(lra) eq_refl 1 _ A1 ltac:(lra)) as (x & q & X & Q & _).
    exists x, x'. do 2 eexists. split; [exact X|]. split; [exact X'|].
    unfold power. rewrite K, Q, Q', (E0 None), (E1 None). split; reflexivity.
  - exists (psc_loss 1). split; [reflexivity|].
    pose proof (Z 1 ltac:(lra)) as Z1.
    assert (B : psc_loss 1 < 1).
    { unfold psc_loss. pose proof (exp_le_3) as E3.
      assert (D : 1 * fr_per_inH2O (T:=R) 5.35 < 1) by (unfold fr_per_inH2O, inH2O; Tac.rnum; lra).
      assert (exp (1 * fr_per_inH2O 5.35) < exp 1) by (apply exp_increasing; exact D).
      assert (C : 0 < fr_cfm (T:=R) 10 < 0.005) by (unfold fr_cfm, cfm; Tac.rnum; lra).
      set (y := exp (1 * fr_per_inH2O 5.35)) in *. set (k := fr_cfm 10) in *. clearbody y k. nra. }
    set (l := psc_loss 1) in *. clearbody l.
    assert (3 / 2 <= (2 + l) / (1 + l)).
    { apply Rmult_le_reg_r with (1 + l); [lra|]. replace ((2 + l) / (1 + l) * (1 + l)) with (2 + l) by (field; lra). lra. }
    lra.
Qed.
