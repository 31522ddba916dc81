From Coq Require Import Reals QArith Lra Lia List.
From Verif.Base Require Import Num Res Tac.
From Verif.Model Require Import Units Psychrometrics Conditions Defrost Fan Unit BaseModel DXUnit.
From Verif.Spec Require Import UnitSpec SeasonSpec UnitModels DefrostSpec ControlSpec.
From Verif.Proofs Require Import UnitsR SeerProofs HspfProofs HspfProofs2 DefrostProofs ToyBuild ToySeason ToySeason2.
Import ListNotations.
Local Open Scope R_scope.

Lemma bins_warmest i : heat_t i <= deg_F 62.
Proof. unfold heat_t, deg_F. pose proof (pos_INR i). lra. Qed.

Section L.
  Variables (off : R) (Hoff : deg_F 62 <= off).
  Lemma never_runs on i cop : run_fraction off on (heat_t i) cop = 0.
  Proof.
    unfold run_fraction. destruct (Rle_dec (heat_t i) off) as [|N]; [reflexivity|].
    exfalso. apply N. pose proof (bins_warmest i). lra.
  Qed.
  Lemma nothing_carried on L s i : match carried off on L s i with Some d => d | None => 0 end = 0.
  Proof.
    unfold carried. induction i as [|i IH]; cbn [latest_low]; [reflexivity|].
    destruct (Rle_dec _ _); [apply never_runs|exact IH].
  Qed.
End L.

Lemma all_resistance (n bl E RH : nat -> R) credit :
  (forall i, E i = 0) -> (forall i, RH i = bl i) -> 0 < over 18 (fun i => n i * bl i) ->
  seasonal_heating n bl E RH credit = Btu_Wh credit.
Proof.
  intros Z B P. unfold seasonal_heating.
  rewrite (over_ext 18 (fun i => n i * E i) (fun _ => 0)) by (intros i _; rewrite Z; ring).
  rewrite (over_ext 18 (fun i => n i * RH i) (fun i => n i * bl i)) by (intros i _; rewrite B; ring).
  replace (over 18 (fun _ => 0)) with 0 by (unfold over, total; simpl; lra).
  f_equal. field. lra.
Qed.

Lemma load_unique sol M (u : dxunit R) d L L' t :
  heat_load sol M u d L -> heat_load sol M u d L' -> L t = L' t.
Proof.
  unfold heat_load. destruct (u_standard u).
  - intros (P & x & T1 & F & _ & E) (P' & x' & T1' & F' & _ & E').
    rewrite (tested_unique _ _ _ _ _ _ T1' T1) in F'.
    rewrite (first_nearest_unique _ _ _ _ F' F) in E'. rewrite E, E'. reflexivity.
  - intros (c & z & cA & q & A & B & D & F & _ & E) (c' & z' & cA' & q' & A' & B' & D' & F' & _ & E').
    assert (c' = c) by congruence. assert (z' = z) by congruence.
    assert (cA' = cA) by congruence. subst. assert (q' = q) by congruence. subst.
    rewrite E, E'. reflexivity.
Qed.

Lemma locked_out sol M (u : dxunit R) region on v d0 L0 :
  u_heating_on u = Some on -> hspf sol M u region = Ok v ->
  deg_F 62 <= u_heating_off u ->
  climate u region = Ok d0 -> heat_load sol M u d0 L0 ->
  0 < over 18 (fun i => hours_of d0 i * L0 (heat_t i)) ->
  exists credit, demand_credit (u_defrost u) = Ok credit /\ v = Btu_Wh credit.
Proof.
  intros On H Off D0 HL0 P0.
  assert (P : forall d L, climate u region = Ok d -> heat_load sol M u d L ->
     0 < over 18 (fun i => hours_of d i * L (heat_t i))).
  { intros d L D HL. assert (d = d0) by congruence. subst d.
    rewrite (over_ext 18 _ (fun i => hours_of d0 i * L0 (heat_t i))); [exact P0|].
    intros i _. f_equal. eapply load_unique; eassumption. }
  destruct (u_staging u) eqn:St.
  - destruct (hspf_single sol M u region on v St On H) as (d & H1 & H2 & H3 & L & cr & D & _ & _ & _ & HL & C & E).
    exists cr. split; [exact C|]. rewrite E. apply all_resistance; [| |exact (P d L D HL)]; intros i;
      unfold single_energy, single_resistance, single_heat, single_run; rewrite never_runs by exact Off; ring.
  - destruct (hspf_two sol M u region on v St On H)
      as (d & s & L & cr & D & _ & _ & _ & _ & _ & _ & _ & HL & C & E & _).
    exists cr. split; [exact C|]. rewrite E.
    apply all_resistance; [| |exact (P d L D HL)]; intros i;
      unfold two_stage_bin, two_stage_heat, low_run, full_run;
      rewrite !never_runs, nothing_carried by exact Off;
      (destruct (Rle_dec _ _); [|destruct (Rlt_dec _ _); [destruct (u_cycling u)|]]); cbn [fst snd];
      unfold Rdiv; ring.
  - destruct (hspf_variable sol M u region on v St On H)
      as (d & A & B & F & H1 & H2 & H3 & H4 & L & cr & D & _ & _ & _ & _ & _ & _ & _ & HL & C & E).
    exists cr. split; [exact C|]. cbv zeta in E. rewrite E.
    apply all_resistance; [| |exact (P d L D HL)]; intros i;
      unfold variable_bin, variable_heat; cbv zeta;
      rewrite !never_runs by exact Off;
      (destruct (Rle_dec _ _); [|destruct (Rlt_dec _ _)]); cbn [fst snd]; ring.
Qed.
