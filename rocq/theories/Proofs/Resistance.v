(** C46: resistance heat of two-stage and variable-speed units. *)
From Coq Require Import Reals QArith Lra Psatz Lia List Bool.
From Verif.Base Require Import Num Res Tac.
From Verif.Model Require Import Units Util Psychrometrics Conditions Defrost Fan Curves
  Tabular Unit BaseModel DXUnit.
From Verif.Spec Require Import UtilSpec UnitSpec UnitModels SeasonSpec CompareSpec CyclingSpec.
From Verif.Proofs Require Import UnitsR UtilProofs UnitProofs UnitProofs3 UnitProofs4 SeerProofs HspfProofs
  HspfProofs2 HspfProofs3.
Import ListNotations.
Local Open Scope R_scope.
Local Notation U := (dxunit R).

Section Balance.
  Variable sol : solvers R.
  Variable M : dxmodel R.

  Lemma two_balance (u : U) region on v :
    u_staging u = TWO_STAGE -> u_heating_on u = Some on -> hspf sol M u region = Ok v ->
    exists d s L credit,
      climate u region = Ok d /\ two_stage_tests sol M u s /\ heat_load sol M u d L
      /\ demand_credit (u_defrost u) = Ok credit
      /\ let bin := two_stage_bin (u_cycling u) (u_heating_off u) on (sd_cd (u_h u)) L s in
         v = seasonal_heating (hours_of d) (fun i => L (heat_t i))
               (fun i => fst (bin i)) (fun i => snd (bin i)) credit
      /\ forall i, (i < 18)%nat ->
           two_stage_delivered (u_heating_off u) on L s i + snd (bin i) = L (heat_t i)
           /\ 0 <= snd (bin i).
  Proof.
    intros St On H.
    destruct (hspf_two sol M u region on v St On H)
      as (d & s & L & cr & Hd & T1 & T2 & T3 & T4 & T5 & T6 & T7 & HL & Cr & V & N).
    exists d, s, L, cr. split; [exact Hd|]. split; [repeat split; assumption|].
    split; [exact HL|]. split; [exact Cr|]. cbv zeta. split; [exact V|].
    intros i I. pose proof (heat_load_pos sol M u d L HL (heat_t i)) as LP.
    unfold two_stage_delivered, two_stage_bin, two_stage_heat.
    pose proof (run_bounds (u_heating_off u) on (heat_t i)) as RB.
    assert (R1 : 0 <= low_run (u_heating_off u) on s i <= 1) by apply RB.
    assert (R2 : 0 <= full_run (u_heating_off u) on s i <= 1) by apply RB.
    assert (R3 : 0 <= match carried (u_heating_off u) on L s i with Some x => x | None => 0 end <= 1).
    { destruct (carried (u_heating_off u) on L s i) as [x|] eqn:Ex; [exact (carried_some _ _ _ _ _ _ Ex)|lra]. }
    destruct (Rle_dec _ _) as [X|X]; cbn [snd]; [split; [ring|nra]|].
    destruct (Rlt_dec _ _) as [Y|Y].
    - destruct (u_cycling u); cbn [snd]; (split; [ring|nra]).
    - cbn [snd]. split; [ring|]. nra.
  Qed.

  Lemma variable_balance (u : U) region on v :
    u_staging u = VARIABLE_SPEED -> u_heating_on u = Some on -> hspf sol M u region = Ok v ->
    exists d H0l H1l H2i H1 H2 H3 H4 L credit,
      climate u region = Ok d /\ variable_tests sol M u H0l H1l H2i H1 H2 H3 H4
      /\ heat_load sol M u d L /\ demand_credit (u_defrost u) = Ok credit
      /\ let bin := variable_bin (u_heating_off u) on (sd_cd (u_h u)) L H0l H1l H2i H1 H2 H3 H4 in
         v = seasonal_heating (hours_of d) (fun i => L (heat_t i))
               (fun i => fst (bin i)) (fun i => snd (bin i)) credit
      /\ forall i, (i < 18)%nat ->
           variable_delivered (u_heating_off u) on L H0l H1l H2i H1 H2 H3 H4 i + snd (bin i) = L (heat_t i)
           /\ (snd (bin i) < 0 ->
               full_line q_at H1 H2 H3 (heat_t i) <= L (heat_t i) < q_at H4 H3 (heat_t i)).
  Proof.
    intros St On H.
    destruct (hspf_variable sol M u region on v St On H)
      as (d & H0l & H1l & H2i & H1 & H2 & H3 & H4 & L & cr & Hd & T1 & T2 & T3 & T4 & T5 & T6
          & T7 & HL & Cr & V).
    exists d, H0l, H1l, H2i, H1, H2, H3, H4, L, cr. split; [exact Hd|]. split; [repeat split; assumption|].
    split; [exact HL|]. split; [exact Cr|]. cbv zeta. split; [exact V|].
    intros i I. pose proof (heat_load_pos sol M u d L HL (heat_t i)) as LP.
    unfold variable_delivered, variable_bin, variable_heat, variable_cop. cbv zeta.
    pose proof (run_bounds (u_heating_off u) on (heat_t i)) as RB.
    destruct (Rle_dec _ _) as [X|X]; cbn [snd].
    - match goal with |- context [run_fraction ?a ?b ?c ?e] => pose proof (RB e) as R1; set (r := run_fraction a b c e) in * end.
      split; [ring|nra].
    - destruct (Rlt_dec _ _) as [Y|Y]; cbv zeta; cbn [snd].
      + match goal with |- context [run_fraction ?a ?b ?c ?e] => pose proof (RB e) as R1; set (r := run_fraction a b c e) in * end.
        split; [ring|nra].
      + match goal with |- context [run_fraction ?a ?b ?c ?e] => pose proof (RB e) as R1; set (r := run_fraction a b c e) in * end.
        split; [ring|]. intros Ng. split; [lra|]. nra.
  Qed.
End Balance.
