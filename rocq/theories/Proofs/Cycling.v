(** C97: the cycling method of two-stage units. *)
From Coq Require Import Reals QArith Lra Psatz Lia List Bool String.
From Verif.Base Require Import Num Res Tac.
From Verif.Model Require Import Units Util Psychrometrics Conditions Defrost Fan Curves
  Tabular Unit NREL BaseModel Title24 Resnet DXUnit.
From Verif.Spec Require Import UtilSpec UnitSpec UnitModels SeasonSpec CompareSpec CyclingSpec.
From Verif.Proofs Require Import Frame UnitsR UnitProofs UnitProofs3 UnitProofs4 SeerProofs HspfProofs HspfProofs2 Dominance.
Import ListNotations.
Local Open Scope R_scope.
Local Notation U := (dxunit R).

Section Cycled.
  Variable cyc : cycling_method.
  Notation re := (cycled cyc).
  Definition alike {A} (m : st U A) : Prop := forall u, m (re u) = (re (fst (m u)), snd (m u)).

  Lemma alike_ret {A} (a : A) : alike (sret a).
  Proof. intros u. reflexivity. Qed.
  Lemma alike_lift {A} (r : res A) : alike (slift r).
  Proof. intros u. reflexivity. Qed.
  Lemma alike_read {A} (g : U -> res A) : (forall u, g (re u) = g u) -> alike (sread g).
  Proof. intros H u. unfold sread. rewrite H. reflexivity. Qed.
  Lemma alike_bind {A B} (m : st U A) (k : A -> st U B) :
    alike m -> (forall a, alike (k a)) -> alike (sbind m k).
  Proof.
    intros H1 H2 u. unfold sbind. rewrite (H1 u).
    destruct (m u) as [u1 [a|e]]; cbn [fst snd]; [apply H2|reflexivity].
  Qed.
  Lemma alike_get {B} (k : U -> st U B) :
    (forall u, k (re u) = k u) -> (forall u, alike (k u)) -> alike (sbind sget k).
  Proof. intros H1 H2 u. unfold sbind, sget. rewrite H1. apply H2. Qed.
  Lemma alike_mod (f : U -> U) : (forall u, f (re u) = re (f u)) -> alike (smod f).
  Proof. intros H u. unfold smod. rewrite H. reflexivity. Qed.
  Lemma alike_fold {A} (f : A -> st U unit) l : (forall a, alike (f a)) -> alike (sfold f l).
  Proof. intros H. induction l as [|a l IH]; simpl; [apply alike_ret|]. apply alike_bind; auto. Qed.
  Lemma alike_on_fan {A} (m : st (fan R) A) : alike (on_fan m).
  Proof.
    intros u. unfold on_fan. cbn [u_fan cycled]. destruct (u_fan u) as [f|]; [|reflexivity].
    destruct (m f). reflexivity.
  Qed.
  Lemma alike_opt {A} (f : A -> st U unit) o : (forall x, alike (f x)) -> alike (opt_set f o).
  Proof. intros H. destruct o; [apply H|apply alike_ret]. Qed.

  Ltac step :=
    cbv zeta beta;
    lazymatch goal with
    | |- alike (sret _) => apply alike_ret
    | |- alike (slift _) => apply alike_lift
    | |- alike (on_fan _) => apply alike_on_fan
    | |- alike (sread _) => apply alike_read; intros; reflexivity
    | |- alike (sbind sget _) => apply alike_get; [intros ?; reflexivity | intros ?]
    | |- alike (sbind _ _) => apply alike_bind; [|intros ?]
    | |- alike (sfold _ _) => apply alike_fold; intros ?
    | |- alike (opt_set _ _) => apply alike_opt; intros ?
    | |- alike (smod _) => apply alike_mod; intros ?; reflexivity
    | |- alike (match ?x with _ => _ end) => destruct x
    end.
  Ltac puts := unfold put_rn, side_put, on_side; cbn [side_of wu_side].

  Section Construct.
    Variable psy : psychro R.
    Variable sol : solvers R.

    Lemma alike_put_cond set m s o : alike (put_cond psy set m s o).
    Proof. unfold put_cond. destruct m; repeat step. Qed.
    Lemma alike_reset_esp : alike reset_full_esp.
    Proof. unfold reset_full_esp. repeat step. Qed.
    Lemma alike_conditions : alike (set_rating_conditions psy).
    Proof.
      unfold set_rating_conditions. apply alike_bind; [apply alike_reset_esp|]. intros _.
      apply alike_get; [reflexivity|]. intros u. cbv zeta.
      repeat first [apply alike_put_cond | step].
    Qed.
    Lemma alike_bypass M c : plain_model sol M -> alike (calculate_rated_bypass_factor psy sol M c).
    Proof.
      unfold plain_model. simpl. intros [<-|[<-|[<-|[<-|[]]]]]; unfold calculate_rated_bypass_factor; repeat step.
    Qed.
    Lemma alike_sensible M : plain_model sol M -> alike (set_sensible_cooling_variables psy sol M).
    Proof.
      intros PM. pose proof PM as C. unfold plain_model in C. simpl in C.
      destruct C as [<-|[<-|[<-|[<-|[]]]]]; unfold set_sensible_cooling_variables, set_sensible_at;
        repeat first [apply alike_bypass; exact PM | step].
    Qed.
    Lemma alike_put_gross m i : alike (put_gross_capacity m i).
    Proof. unfold put_gross_capacity. destruct m; puts; repeat step. Qed.
    Lemma alike_net_cop m v : alike (base_set_net_cop m v).
    Proof. unfold base_set_net_cop, derive_from_net_cop, set_comp, set_entry. destruct v, m; puts; repeat step. Qed.
    Lemma alike_gross_cop m v : alike (base_set_gross_cop m v).
    Proof. unfold base_set_gross_cop, derive_from_gross_cop, set_comp, set_entry. destruct v, m; puts; repeat step. Qed.
    Lemma alike_cool_caps v : alike (base_set_net_cooling_capacity v).
    Proof. unfold base_set_net_cooling_capacity. destruct v; puts; repeat step. Qed.
    Lemma alike_heat_caps v : alike (base_set_net_heating_capacity v).
    Proof. unfold base_set_net_heating_capacity. destruct v as [[]|]; puts; repeat step. Qed.
    Lemma alike_base_step m a b n iq : alike (base_fan_step m a b n iq).
    Proof. unfold base_fan_step. destruct m; puts; repeat step. Qed.
    Lemma alike_base_fan f : alike (base_set_fan f).
    Proof. unfold base_set_fan. destruct f; puts; repeat first [apply alike_base_step | step]. Qed.
    Lemma alike_t24_step m b n iq : alike (t24_fan_step m b n iq).
    Proof. unfold t24_fan_step. destruct m; puts; repeat step. Qed.
    Lemma alike_t24_fan f : alike (t24_set_fan f).
    Proof. unfold t24_set_fan. destruct f; puts; repeat first [apply alike_t24_step | step]. Qed.
    Lemma alike_caps M qc qh f : plain_model sol M -> alike (md_set_net_capacities_and_fan M qc qh f).
    Proof.
      unfold plain_model. simpl. intros [<-|[<-|[<-|[<-|[]]]]]; cbn [md_set_net_capacities_and_fan BaseDXModel
        ConstantDXModel CarrierDefrostModel Title24DXModel];
        unfold base_set_net_capacities_and_fan, t24_set_net_capacities_and_fan, t24_set_rated_fan_characteristics;
        puts; repeat first [apply alike_cool_caps | apply alike_heat_caps | apply alike_base_fan
          | apply alike_t24_fan | step].
    Qed.
    Lemma alike_set_net M m v : plain_model sol M -> alike (md_set_net_cop M m v).
    Proof. unfold plain_model. simpl. intros [<-|[<-|[<-|[<-|[]]]]]; apply alike_net_cop. Qed.
    Lemma alike_set_gross M m v : plain_model sol M -> alike (md_set_gross_cop M m v).
    Proof. unfold plain_model. simpl. intros [<-|[<-|[<-|[<-|[]]]]]; apply alike_gross_cop. Qed.

    Lemma alike_finish M a : plain_model sol M -> alike (finish_unit psy sol M a).
    Proof.
      intros PM. unfold finish_unit. unfold set_placeholder_arrays.
      repeat first [apply alike_caps; exact PM | apply alike_reset_esp | apply alike_put_gross
        | apply alike_conditions | apply alike_sensible; exact PM | apply alike_set_net; exact PM
        | apply alike_set_gross; exact PM | step].
    Qed.

    Lemma cycling_kept M a : plain_model sol M ->
      DXUnit psy sol M (with_cycling cyc a)
      = match DXUnit psy sol M a with Ok u => Ok (cycled cyc u) | Err e => Err e end.
    Proof.
      intros PM. unfold DXUnit.
      assert (I : init_unit M (with_cycling cyc a)
                  = match init_unit M a with Ok u => Ok (cycled cyc u) | Err e => Err e end).
      { unfold init_unit. change (a_kwargs (with_cycling cyc a)) with (a_kwargs a).
        match goal with |- rbind ?x _ = _ => destruct x; [|reflexivity] end. cbn [rbind].
        cbv zeta. change (a_staging (with_cycling cyc a)) with (a_staging a).
        change (a_hcap (with_cycling cyc a)) with (a_hcap a).
        match goal with |- rbind ?x _ = _ => destruct x end; reflexivity. }
      rewrite I. destruct (init_unit M a) as [u0|e]; [|reflexivity]. cbn [rbind]. unfold ex.
      change (finish_unit psy sol M (with_cycling cyc a)) with (finish_unit psy sol M a).
      rewrite (alike_finish M a PM u0). destruct (finish_unit psy sol M a u0) as [u1 [[]|e]]; reflexivity.
    Qed.

    Lemma cycling_results M (u : U) : plain_model sol M ->
      forall c, eer sol M (cycled cyc u) c = eer sol M u c
      /\ net_total_cooling_capacity sol M (cycled cyc u) c = net_total_cooling_capacity sol M u c
      /\ net_sensible_cooling_capacity sol M (cycled cyc u) c = net_sensible_cooling_capacity sol M u c
      /\ net_cooling_power sol M (cycled cyc u) c = net_cooling_power sol M u c
      /\ net_steady_state_heating_capacity sol M (cycled cyc u) c = net_steady_state_heating_capacity sol M u c
      /\ net_steady_state_heating_power sol M (cycled cyc u) c = net_steady_state_heating_power sol M u c
      /\ net_integrated_heating_capacity sol M (cycled cyc u) c = net_integrated_heating_capacity sol M u c
      /\ net_integrated_heating_power sol M (cycled cyc u) c = net_integrated_heating_power sol M u c.
    Proof.
      unfold plain_model. simpl. intros [<-|[<-|[<-|[<-|[]]]]] c; repeat split; reflexivity.
    Qed.

    Section Points.
      Variables (M : dxmodel R) (u : U).
      Hypothesis PM : plain_model sol M.
      Lemma cool_points g : cooling_point sol M g (cycled cyc u) = cooling_point sol M g u.
      Proof. unfold plain_model in PM. simpl in PM. destruct PM as [<-|[<-|[<-|[<-|[]]]]]; reflexivity. Qed.
      Lemma heat_points g : heating_point sol M g (cycled cyc u) = heating_point sol M g u.
      Proof. unfold plain_model in PM. simpl in PM. destruct PM as [<-|[<-|[<-|[<-|[]]]]]; reflexivity. Qed.
      Lemma frost_points g : frost_point sol M g (cycled cyc u) = frost_point sol M g u.
      Proof. unfold plain_model in PM. simpl in PM. destruct PM as [<-|[<-|[<-|[<-|[]]]]]; reflexivity. Qed.
      Lemma loads d q : hspf_load sol M (cycled cyc u) d q = hspf_load sol M u d q.
      Proof. unfold plain_model in PM. simpl in PM. destruct PM as [<-|[<-|[<-|[<-|[]]]]]; reflexivity. Qed.
      Lemma cops c : net_total_cooling_cop sol M (cycled cyc u) c = net_total_cooling_cop sol M u c.
      Proof. unfold plain_model in PM. simpl in PM. destruct PM as [<-|[<-|[<-|[<-|[]]]]]; reflexivity. Qed.

      Lemma cycling_ratings : u_staging u <> TWO_STAGE ->
        seer sol M (cycled cyc u) = seer sol M u
        /\ forall region, hspf sol M (cycled cyc u) region = hspf sol M u region.
      Proof.
        intros S. split; [|intros region].
        - unfold seer. rewrite !cool_points.
          change (rating rc_B_full (cycled cyc u)) with (rating rc_B_full u).
          change (u_staging (cycled cyc u)) with (u_staging u).
          change (u_c (cycled cyc u)) with (u_c u).
          destruct (u_staging u) eqn:E; [|exfalso; apply S; reflexivity|reflexivity].
          f_equal. destruct (rating rc_B_full u); [|reflexivity]. cbn [rbind]. rewrite cops. reflexivity.
        - unfold hspf. change (u_standard (cycled cyc u)) with (u_standard u).
          match goal with |- rbind ?x _ = _ => destruct x as [d|]; cbn [rbind]; [|reflexivity] end.
          unfold hspf_with. rewrite !heat_points, !frost_points.
          change (u_staging (cycled cyc u)) with (u_staging u).
          change (u_defrost (cycled cyc u)) with (u_defrost u).
          do 3 (match goal with |- rbind ?x _ = _ => destruct x; cbn [rbind]; [|reflexivity] end).
          rewrite loads.
          match goal with |- rbind ?x _ = _ => destruct x; cbn [rbind]; [|reflexivity] end.
          destruct (u_staging u) eqn:E; [|exfalso; apply S; reflexivity|]; reflexivity.
      Qed.
    End Points.
  End Construct.
End Cycled.
