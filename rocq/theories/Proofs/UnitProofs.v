(** C36, C39-C41, C48, C55: facts about constructed units. *)
From Coq Require Import Reals QArith Lra Lia List Bool String.
From Verif.Base Require Import Num Res Tac.
From Verif.Model Require Import Units Util Psychrometrics Conditions Defrost Fan Curves
  Tabular Unit NREL BaseModel Title24 Resnet DXUnit.
From Verif.Spec Require Import UnitModels.
From Verif.Proofs Require Import UnitsR MakeCond Frame StandardProofs.
Import ListNotations.
Local Open Scope R_scope.

Lemma keeps_ok {S A B} (f : S -> B) (m : st S A) s s' r :
  keeps f m -> m s = (s', r) -> f s' = f s.
Proof. intros H E. specialize (H s). rewrite E in H. exact H. Qed.

Lemma keeps_comp_fun {S A B D} (f : S -> B) (g : B -> D) (m : st S A) :
  keeps f m -> keeps (fun s => g (f s)) m.
Proof. intros H s. cbv beta. rewrite H. reflexivity. Qed.

Section Build.
  Variable psy : psychro R.
  Variable sol : solvers R.
  Variable M : dxmodel R.
  Notation U := (dxunit R).

  (** ** Frames *)
  Lemma keeps_reset_esp : keeps configc (reset_full_esp (T:=R)).
  Proof. unfold reset_full_esp. keepc. Qed.
  Lemma keeps_put_gross m i : keeps configc (put_gross_capacity (T:=R) m i).
  Proof. unfold put_gross_capacity. keepc. Qed.
  Lemma keeps_put_cond set m sp o : keeps config (put_cond psy set m sp o).
  Proof. unfold put_cond. keep. Qed.
  Lemma keeps_conditions : keeps config (set_rating_conditions psy).
  Proof.
    unfold set_rating_conditions, reset_full_esp.
    repeat (keep_step || apply keeps_put_cond).
  Qed.
  Lemma keeps_standard s :
    keeps (fun u : U => (u_kwargs u, u_heating_on u, u_ducted u, u_charge u, u_staging u))
      (set_rating_standard psy s).
  Proof.
    unfold set_rating_standard, set_rating_conditions, reset_full_esp.
    repeat (keep_step || (unfold put_cond)).
  Qed.

  Section Cinp.
    Definition cquiet {A} (set : A -> side R -> side R) : Prop :=
      forall l s, cinp_side (set l s) = cinp_side s /\ sd_cd (set l s) = sd_cd s.
    Definition inputs (u : U) := (cinp u, config u).
    Lemma inputs_side_put m get set i v :
      cquiet set -> keeps inputs (side_put (T:=R) m get set i v).
    Proof.
      intros H. unfold side_put. keep. destruct m; unfold inputs, cinp, config; simpl;
        rewrite (proj1 (H _ _)), (proj2 (H _ _)); reflexivity.
    Qed.
    Lemma inputs_comp m set g : cquiet set -> keeps inputs (set_comp (T:=R) m set g).
    Proof.
      intros H. unfold set_comp. keep. destruct m; unfold inputs, cinp, config; simpl;
        rewrite (proj1 (H _ _)), (proj2 (H _ _)); reflexivity.
    Qed.
    Lemma inputs_entry m get set i g : cquiet set -> keeps inputs (set_entry (T:=R) m get set i g).
    Proof.
      intros H. unfold set_entry. apply keeps_bind; [keep|]. intros.
      apply keeps_bind; [keep|]. intros. apply inputs_side_put. auto.
    Qed.
  End Cinp.
  Ltac keepi :=
    repeat (first
      [ keep_step
      | apply inputs_side_put; intros ? ?; split; reflexivity
      | apply inputs_comp; intros ? ?; split; reflexivity
      | apply inputs_entry; intros ? ?; split; reflexivity ]; cbv zeta beta).
  Lemma inputs_bypass c : keeps inputs (calculate_rated_bypass_factor psy sol M c).
  Proof. unfold calculate_rated_bypass_factor. keepi. Qed.
  Lemma inputs_sensible_at sp get : keeps inputs (set_sensible_at psy sol M sp get).
  Proof. unfold set_sensible_at. repeat (apply inputs_bypass || keep_step). Qed.
  Lemma inputs_sensible : keeps inputs (set_sensible_cooling_variables psy sol M).
  Proof.
    unfold set_sensible_cooling_variables.
    repeat (apply inputs_sensible_at || keep_step).
  Qed.
  Lemma inputs_nrel_net m v : keeps inputs (nrel_set_net_cop (T:=R) m v).
  Proof. unfold nrel_set_net_cop, derive_from_net_cop. keepi. Qed.
  Lemma inputs_nrel_gross m v : keeps inputs (nrel_set_gross_cop (T:=R) m v).
  Proof. unfold nrel_set_gross_cop, derive_from_gross_cop. keepi. Qed.
  Lemma inputs_base_net m v : keeps inputs (base_set_net_cop (T:=R) m v).
  Proof. unfold base_set_net_cop, derive_from_net_cop. keepi. Qed.
  Lemma inputs_base_gross m v : keeps inputs (base_set_gross_cop (T:=R) m v).
  Proof. unfold base_set_gross_cop, derive_from_gross_cop. keepi. Qed.
  Lemma inputs_unless (m : st U unit) : keeps inputs m -> keeps inputs (unless_table m).
  Proof. intros H. unfold unless_table. keepi. auto. Qed.

  Hypothesis HM : library_model psy sol M.

  Lemma cop_inputs :
    (forall m v, keeps inputs (md_set_net_cop M m v))
    /\ (forall m v, keeps inputs (md_set_gross_cop M m v)).
  Proof.
    pose proof HM as H. unfold library_model in H. simpl in H.
    repeat (destruct H as [<-|H]; [cbn [md_set_net_cop
      md_set_gross_cop BaseDXModel ConstantDXModel CarrierDefrostModel Title24DXModel
      NRELDXModel RESNETDXModel]; split; intros;
      eauto using inputs_base_net, inputs_base_gross, inputs_nrel_net, inputs_nrel_gross,
        inputs_unless|]).
    contradiction.
  Qed.

  Lemma opt_keeps {A B} (f : U -> B) (g : A -> st U unit) o :
    (forall x, keeps f (g x)) -> keeps f (opt_set g o).
  Proof. intros H. destruct o; simpl; [apply H|apply keeps_ret]. Qed.

  (** The constructor in three parts: before, during and after the rating
      conditions are made. *)
  Lemma build_inv a u :
    DXUnit psy sol M a = Ok u ->
    exists u0 u1 u2,
      init_unit M a = Ok u0 /\ configc u1 = configc u0
      /\ set_rating_conditions psy u1 = (u2, Ok tt)
      /\ inputs u = inputs u2
      /\ check_array_lengths u = Ok tt
      /\ check_array_order (sd_net_cap (u_c u)) = Ok tt
      /\ check_array_order (sd_net_cap (u_h u)) = Ok tt.
  Proof.
    unfold DXUnit. intros H. apply rbind_ok in H. destruct H as (u0 & H0 & H).
    unfold ex in H. destruct (finish_unit psy sol M a u0) as [u' [[]|e]] eqn:E; [|discriminate].
    injection H as ->.
    unfold finish_unit in E.
    apply sbind_ok in E. destruct E as (s1 & x1 & E1 & E).
    apply sbind_ok in E. destruct E as (s2 & x2 & E2 & E).
    apply sbind_ok in E. destruct E as (s3 & x3 & E3 & E).
    apply sbind_ok in E. destruct E as (s4 & x4 & E4 & E).
    apply sbind_ok in E. destruct E as (s5 & x5 & E5 & E).
    apply sbind_ok in E. destruct E as (s6 & x6 & E6 & E).
    apply sbind_ok in E. destruct E as (s7 & x7 & E7 & E).
    apply sbind_ok in E. destruct E as (s8 & x8 & E8 & E).
    apply sbind_ok in E. destruct E as (s9 & [] & E9 & E).
    destruct (model_keeps psy sol M HM) as (K1 & _ & _).
    destruct cop_inputs as (K2 & K3).
    assert (A : configc s8 = configc u0).
    { assert (K8 : configc s8 = configc s7) by (inv_st; reflexivity).
      rewrite K8.
      assert (K7 : configc s7 = configc s6)
        by (destruct (a_crank a); inv_st; reflexivity).
      rewrite K7.
      rewrite (keeps_ok configc _ _ _ _ (keeps_fold configc _ _ (keeps_put_gross Heating)) E6).
      rewrite (keeps_ok configc _ _ _ _ (keeps_fold configc _ _ (keeps_put_gross Cooling)) E5).
      rewrite (keeps_ok configc _ _ _ _ (keeps_get _) E4).
      rewrite (keeps_ok configc _ _ _ _ keeps_reset_esp E3).
      rewrite (keeps_ok configc _ _ _ _ (K1 _ _ _) E2).
      apply (keeps_ok configc _ _ _ _ keeps_placeholders E1). }
    exists u0, s8, s9. split; [exact H0|]. split; [exact A|]. split; [exact E9|].
    apply sbind_ok in E. destruct E as (t1 & y1 & F1 & E).
    apply sbind_ok in E. destruct E as (t2 & y2 & F2 & E).
    apply sbind_ok in E. destruct E as (t3 & y3 & F3 & E).
    apply sbind_ok in E. destruct E as (t4 & y4 & F4 & E).
    apply sbind_ok in E. destruct E as (t5 & y5 & F5 & E).
    apply sbind_ok in E. destruct E as (t6 & y6 & F6 & E).
    apply sbind_ok in E. destruct E as (t7 & y7 & F7 & E).
    apply sbind_ok in E. destruct E as (t8 & [] & F8 & E).
    apply sbind_ok in E. destruct E as (t9 & [] & F9 & E).
    apply sread_ok in F8. destruct F8 as [-> F8].
    apply sread_ok in F9. destruct F9 as [-> F9].
    apply sread_ok in E. destruct E as [-> E].
    split; [|auto].
    rewrite (keeps_ok inputs _ _ _ _ (opt_keeps inputs _ _ (K3 Heating)) F7).
    rewrite (keeps_ok inputs _ _ _ _ (opt_keeps inputs _ _ (K2 Heating)) F6).
    rewrite (keeps_ok inputs _ _ _ _ (opt_keeps inputs _ _ (K3 Cooling)) F5).
    rewrite (keeps_ok inputs _ _ _ _ (opt_keeps inputs _ _ (K2 Cooling)) F4).
    rewrite (keeps_ok inputs _ _ _ _ (keeps_lift inputs _) F3).
    rewrite (keeps_ok inputs _ _ _ _ (keeps_lift inputs _) F2).
    apply (keeps_ok inputs _ _ _ _ inputs_sensible F1).
  Qed.

  Lemma constructed_config a u :
    DXUnit psy sol M a = Ok u -> exists u0, init_unit M a = Ok u0 /\ config u = config u0.
  Proof.
    intros H. destruct (build_inv a u H) as (u0 & u1 & u2 & H0 & H1 & H2 & H3 & _).
    exists u0. split; [exact H0|].
    apply (f_equal snd) in H3. apply (f_equal fst) in H1. simpl in H1, H3.
    rewrite H3, (keeps_ok config _ _ _ _ keeps_conditions H2). exact H1.
  Qed.

  Lemma constructed_standard_fixed a u :
    DXUnit psy sol M a = Ok u -> ex (set_rating_standard psy (u_standard u)) u = Ok u.
  Proof.
    intros H. destruct (build_inv a u H) as (u0 & u1 & u2 & H0 & H1 & H2 & H3 & _).
    apply (standard_fixed psy u1 u2 u H2). apply (f_equal fst) in H3. exact H3.
  Qed.

  Lemma constructed_restored a u l :
    DXUnit psy sol M a = Ok u ->
    ex (set_rating_standard psy (u_standard u)) (after_standards psy l u) = Ok u.
  Proof.
    intros H. rewrite last_standard_wins. eapply constructed_standard_fixed; eauto.
  Qed.
End Build.
