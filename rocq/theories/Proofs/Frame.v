(** What the constructor's steps leave alone. *)
From Coq Require Import Reals List Bool String.
From Verif.Base Require Import Num Res Tac.
From Verif.Model Require Import Units Util Psychrometrics Conditions Defrost Fan Curves
  Tabular Unit NREL BaseModel Title24 Resnet DXUnit.
From Verif.Spec Require Import UnitModels.
Import ListNotations.
Local Open Scope R_scope.

(** [m] does not change [f] of the state, whether it succeeds or raises. *)
Definition keeps {S A B} (f : S -> B) (m : st S A) : Prop := forall s, f (fst (m s)) = f s.

Section Keeps.
  Context {S B : Type} (f : S -> B).
  Lemma keeps_ret {A} (a : A) : keeps f (sret a). Proof. intros s. reflexivity. Qed.
  Lemma keeps_get : keeps f sget. Proof. intros s. reflexivity. Qed.
  Lemma keeps_lift {A} (r : res A) : keeps f (slift r). Proof. intros s. reflexivity. Qed.
  Lemma keeps_read {A} (r : S -> res A) : keeps f (sread r). Proof. intros s. reflexivity. Qed.
  Lemma keeps_bind {A A'} (m : st S A) (k : A -> st S A') :
    keeps f m -> (forall a, keeps f (k a)) -> keeps f (sbind m k).
  Proof.
    intros H1 H2 s. unfold sbind. specialize (H1 s). destruct (m s) as [s' [a|e]]; simpl in *; auto.
    rewrite H2. auto.
  Qed.
  Lemma keeps_fold {A} (g : A -> st S unit) l :
    (forall a, keeps f (g a)) -> keeps f (sfold g l).
  Proof.
    intros H. induction l as [|x l IH]; simpl; [apply keeps_ret|].
    apply keeps_bind; auto.
  Qed.
  Lemma keeps_mod (g : S -> S) : (forall s, f (g s) = f s) -> keeps f (smod g).
  Proof. intros H s. apply H. Qed.
End Keeps.

(** Inputs of the constructor that no step changes. *)
Definition config (u : dxunit R) :=
  (u_kwargs u, u_seer u, u_eer u, u_hspf u, u_hcop u, u_cycling u, u_ducted u,
   (u_cooling_off u, u_defrost u, u_crank_setpoint u, u_standard u, u_charge u,
    u_heating_off u, u_heating_on u, sd_cd (u_c u), sd_cd (u_h u))).
Definition configc (u : dxunit R) := (config u, u_conds u).

Ltac keep_step :=
  lazymatch goal with
  | |- keeps _ (sret _) => apply keeps_ret
  | |- keeps _ sget => apply keeps_get
  | |- keeps _ (slift _) => apply keeps_lift
  | |- keeps _ (sread _) => apply keeps_read
  | |- keeps _ (sbind _ _) => apply keeps_bind; [|intros]
  | |- keeps _ (sfold _ _) => apply keeps_fold; intros
  | |- keeps _ (match ?x with _ => _ end) => destruct x
  | |- keeps _ (smod _) =>
      apply keeps_mod; let u := fresh "u" in intros u; try reflexivity
  | |- keeps _ (on_side ?m _) =>
      apply keeps_mod; let u := fresh "u" in intros u; try (destruct m; reflexivity)
  | |- forall _, _ => intros
  end.
Ltac keep := repeat (keep_step; cbv zeta beta).

Section Steps.
  Notation U := (dxunit R).
  Lemma keeps_on_fan {A} (m : st (fan R) A) : keeps configc (on_fan (T:=R) m).
  Proof. intros u. unfold on_fan. destruct (u_fan u); [|reflexivity]. destruct (m f). reflexivity. Qed.
  Lemma keeps_last : keeps configc (last_fan_speed (T:=R)).
  Proof. unfold last_fan_speed. keep. Qed.
  Lemma keeps_put_fan m i k : keeps configc (put_fan_speed (T:=R) m i k).
  Proof. unfold put_fan_speed. keep. Qed.
  Lemma keeps_put_rated m i k : keeps configc (put_rated_fan_speed (T:=R) m i k).
  Proof. unfold put_rated_fan_speed. keep. Qed.

  (** Setters of arrays of one side. *)
  Definition quiet {A} (set : A -> side R -> side R) : Prop :=
    forall l s, sd_cd (set l s) = sd_cd s.
  Lemma keeps_side_put m get set i v :
    quiet set -> keeps configc (side_put (T:=R) m get set i v).
  Proof.
    intros H. unfold side_put. keep. destruct m; unfold configc, config; simpl;
      rewrite H; reflexivity.
  Qed.
  Lemma keeps_comp m set g : quiet set -> keeps configc (set_comp (T:=R) m set g).
  Proof.
    intros H. unfold set_comp. keep. destruct m; unfold configc, config; simpl;
      rewrite H; reflexivity.
  Qed.
  Lemma keeps_entry m get set i g : quiet set -> keeps configc (set_entry (T:=R) m get set i g).
  Proof.
    intros H. unfold set_entry. apply keeps_bind; [keep|]. intros.
    apply keeps_bind; [keep|]. intros. apply keeps_side_put. auto.
  Qed.
End Steps.

Ltac keepc :=
  repeat (first
    [ keep_step
    | apply keeps_on_fan | apply keeps_last | apply keeps_put_fan | apply keeps_put_rated
    | apply keeps_side_put; intros ? ?; reflexivity
    | apply keeps_comp; intros ? ?; reflexivity
    | apply keeps_entry; intros ? ?; reflexivity ]; cbv zeta beta).

Section Setters.
  Variable psy : psychro R.
  Variable sol : solvers R.

  Lemma keeps_placeholders : keeps configc (set_placeholder_arrays (T:=R)).
  Proof. unfold set_placeholder_arrays. keepc. Qed.

  Lemma keeps_base_net m v : keeps configc (base_set_net_cop (T:=R) m v).
  Proof. unfold base_set_net_cop, derive_from_net_cop. keepc. Qed.
  Lemma keeps_base_gross m v : keeps configc (base_set_gross_cop (T:=R) m v).
  Proof. unfold base_set_gross_cop, derive_from_gross_cop. keepc. Qed.
  Lemma keeps_nrel_net m v : keeps configc (nrel_set_net_cop (T:=R) m v).
  Proof. unfold nrel_set_net_cop, derive_from_net_cop. keepc. Qed.
  Lemma keeps_nrel_gross m v : keeps configc (nrel_set_gross_cop (T:=R) m v).
  Proof. unfold nrel_set_gross_cop, derive_from_gross_cop. keepc. Qed.
  Lemma keeps_base_set qc qh f : keeps configc (base_set_net_capacities_and_fan (T:=R) qc qh f).
  Proof.
    unfold base_set_net_capacities_and_fan, base_set_net_cooling_capacity,
      base_set_net_heating_capacity, base_set_fan, base_fan_step. keepc.
  Qed.
  Lemma keeps_t24_set qc qh f : keeps configc (t24_set_net_capacities_and_fan (T:=R) qc qh f).
  Proof.
    unfold t24_set_net_capacities_and_fan, t24_set_rated_fan_characteristics,
      base_set_net_cooling_capacity,
      base_set_net_heating_capacity, t24_set_fan, t24_fan_step. keepc.
  Qed.
  Lemma keeps_nrel_set qc qh f : keeps configc (nrel_set_net_capacities_and_fan (T:=R) qc qh f).
  Proof.
    unfold nrel_set_net_capacities_and_fan, nrel_set_rated_fan_characteristics,
      nrel_set_rated_net_total_cooling_capacity,
      nrel_set_rated_net_heating_capacity, nrel_set_fan. keepc.
    - unfold configc, config. simpl. destruct (sd_n (u_c u)) as [|[|[|]]]; reflexivity.
    - unfold configc, config. simpl. destruct (sd_n (u_h u)) as [|[|[|]]]; reflexivity.
  Qed.
  Lemma keeps_resnet_set qc qh f :
    keeps configc (resnet_set_net_capacities_and_fan (T:=R) sol qc qh f).
  Proof.
    unfold resnet_set_net_capacities_and_fan, adopt_table_staging, capacities_from_table,
      resnet_set_fan, setup_gross_table, set_lower_speed_net_capacities, lower_speed,
      put_table_cops, other_speed, add_rated_speed, add_design_speed, given_fan_speed,
      ensure_table, both_sides, put_rn, set_placeholder_arrays. keepc.
  Qed.
End Setters.

(** The models of the library. *)
Section Models.
  Variable psy : psychro R.
  Variable sol : solvers R.
  Local Notation library_model := (library_model psy sol).

  Lemma keeps_unless (m : st (dxunit R) unit) : keeps configc m -> keeps configc (unless_table m).
  Proof. intros H. unfold unless_table. keepc. auto. Qed.

  Lemma model_keeps M : library_model M ->
    (forall qc qh f, keeps configc (md_set_net_capacities_and_fan M qc qh f))
    /\ (forall m v, keeps configc (md_set_net_cop M m v))
    /\ (forall m v, keeps configc (md_set_gross_cop M m v)).
  Proof.
    intros H. unfold UnitModels.library_model in H. simpl in H.
    repeat (destruct H as [<-|H]; [cbn [md_set_net_capacities_and_fan md_set_net_cop
      md_set_gross_cop BaseDXModel ConstantDXModel CarrierDefrostModel Title24DXModel
      NRELDXModel RESNETDXModel]; repeat split; intros;
      eauto using keeps_base_set, keeps_base_net, keeps_base_gross, keeps_t24_set,
        keeps_nrel_set, keeps_nrel_net, keeps_nrel_gross, keeps_resnet_set, keeps_unless|]).
    contradiction.
  Qed.
End Models.
