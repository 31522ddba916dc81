(** The settings written for the two-speed unit of [ToyIdf]. *)
From Coq Require Import ZArith QArith Reals Lra Lia List String Bool Permutation Sorting.
From Verif.Base Require Import Num Res Tac.
From Verif.Model Require Import Units Util Psychrometrics Conditions Defrost Fan Tabular Unit
  BaseModel DXUnit Idf.
From Verif.Spec Require Import FanSpec IdfSpec IdfPerfSpec IdfSettingsSpec.
From Verif.Proofs Require Import UnitsR ToyUnit ToyBuild ToyIdf IdfFields.
Import ListNotations.
Local Open Scope string_scope.
Local Open Scope R_scope.

Lemma toy_settings : exists objects,
  idf_objects lin_psy lin_sol ConstantDXModel (idf_unit 255) (Some "HP") UNITARY_SYSTEM false
    true None = Ok objects /\
  (let fan := exported objects "Fan:SystemModel" "HP Supply Fan" in
   fan "Number of Speeds" (VInt 2) /\ fan "Design Maximum Air Flow Rate" (VNum 2 1) /\
   fan "Design Electric Power Consumption" (VNum 2 300) /\
   fan "Speed 1 Flow Fraction" (VNum 2 0.5) /\
   fan "Speed 2 Flow Fraction" (VNum 2 1) /\
   fan "Speed 1 Electric Power Fraction" (VNum 2 0.5)) /\
  (let coil := exported objects "Coil:Heating:DX:VariableSpeed" "HP Heating Coil" in
   coil "Crankcase Heater Capacity" (VNum 2 20) /\
   coil "Gross Rated Heating Capacity at Selected Nominal Speed Level" (VNum 2 9700) /\
   coil "Defrost Strategy" (VText "ReverseCycle") /\
   coil "Defrost Control" (VText "OnDemand") /\
   coil "Outdoor Dry-Bulb Temperature to Turn On Compressor" (VNum 2 (255 - 273.15))).
Proof.
  destruct (idf_works 255 (Some "HP") UNITARY_SYSTEM false true) as [objects E]; [discriminate |].
  exists objects. split; [exact E|].
  pose proof (exported_fan _ _ _ _ _ _ _ _ _ _ E) as F. cbv zeta in F.
  destruct F as (f & order & slower & fastest & A & W & p & Hf & (q & Hq & Ho) & Eo & HA & HW & _ & _ & _
    & X1 & X2 & _ & _ & _ & _ & _ & _ & X3 & _ & X4).
  pose proof (exported_crankcase _ _ _ _ _ _ _ _ _ _ E Heating) as (cr & Hcr & Y1 & _).
  pose proof (exported_sizes _ _ _ _ _ _ _ _ _ _ E Heating) as Y2. cbv iota in Y2.
  destruct Y2 as (c & qh & ah & Hc & Hqh & _ & Y2 & _).
  pose proof (exported_defrost _ _ _ _ _ _ _ _ _ _ E) as Y3. cbv zeta in Y3.
  destruct Y3 as (_ & Y3 & _ & Y4 & _).
  pose proof (exported_cut_out _ _ _ _ _ _ _ _ _ _ E) as (on & Hon & _ & Y5).
  change (u_fan (idf_unit 255)) with (Some toy_fan) in Hf. injection Hf as <-.
  change (f_n toy_fan) with 2%nat in *.
  assert (Q0 : q 0%nat = 1).
  { specialize (Hq 0%nat ltac:(lia)). change (Ok 1 = Ok (q 0%nat)) in Hq. apply Ok_inj in Hq. auto. }
  assert (Q1 : q 1%nat = 0.5).
  { specialize (Hq 1%nat ltac:(lia)). change (Ok 0.5 = Ok (q 1%nat)) in Hq. apply Ok_inj in Hq. auto. }
  destruct Ho as [P S]. cbn [seq] in P. apply Permutation_length_2_inv in P.
  destruct P as [-> | ->].
  { exfalso. inversion S as [|? ? _ G]; subst. inversion G; subst. lra. }
  assert (fastest = 0%nat).
  { destruct slower as [|? [|? [|]]]; injection Eo; try discriminate; auto. }
  subst fastest.
  change (Ok 1 = Ok A) in HA. apply Ok_inj in HA. subst A.
  change (Ok (1 * 300) = Ok W) in HW. apply Ok_inj in HW. replace (1 * 300) with 300 in HW by lra.
  subst W.
  split; [|].
  - cbv zeta. split; [exact X3|]. split; [exact X1|]. split; [exact X2|].
    destruct (X4 1%nat ltac:(lia)) as (s & a & w & Es & Ea & Ew & Z1 & Z2).
    destruct (X4 2%nat ltac:(lia)) as (s' & a' & w' & Es' & Ea' & Ew' & Z1' & Z2').
    injection Es as <-. injection Es' as <-.
    change (Ok 0.5 = Ok a) in Ea. apply Ok_inj in Ea. subst a.
    change (Ok (0.5 * 300) = Ok w) in Ew. apply Ok_inj in Ew. subst w.
    change (Ok 1 = Ok a') in Ea'. apply Ok_inj in Ea'. subst a'.
    replace (0.5 / 1) with 0.5 in Z1 by lra. replace (1 / 1) with 1 in Z1' by lra.
    replace (0.5 * 300 / 300) with 0.5 in Z2 by lra.
    split; [exact Z1|]. split; [exact Z1' | exact Z2].
  - change (Some 20 = Some cr) in Hcr. injection Hcr as <-.
    change (Some 255 = Some on) in Hon. injection Hon as <-.
    assert (qh = 9700).
    { change (size_condition Heating (idf_unit 255)) with (Some (toy_cond 300 292 308 1)) in Hc.
      injection Hc as <-. unfold coil_capacity in Hqh.
      assert (L0 : (c_speed (toy_cond 300 292 308 1) < 2)%nat) by (cbn; lia).
      destruct (heat_at 255 (toy_cond 300 292 308 1) L0) as [H _].
      apply Ok_inj. rewrite <- Hqh. exact H. }
    subst qh. cbv zeta. split; [exact Y1|]. split; [exact Y2|]. split; [exact Y3|].
    split; [exact Y4 | exact Y5].
Qed.
